(** Proofs for C53. *)
From Coq Require Import Floats.SpecFloat.
From Verif Require Import Base Reflector_Model Reflector_Spec Reflector_Proof BinDump_Proof Float_Model Blue_Model Blue_Spec.

Definition sq (a : Z) : f32 := fmul (component a) (component a).
Definition z_of (d : f32) : f32 :=
  let z := if flt (of_int 1) d then of_int 1 else if flt d (of_int 0) then of_int 0 else d in
  fsqrt (fsub (of_int 1) z).
Lemma fadd_comm x y : fadd x y = fadd y x.
Proof.
  unfold fadd, SFadd. destruct x as [sx|sx| |sx mx ex], y as [sy|sy| |sy my ey]; try reflexivity.
  - destruct sx, sy; reflexivity.
  - destruct sx, sy; reflexivity.
  - cbv zeta. rewrite (Z.min_comm ey ex). f_equal. apply Z.add_comm.
Qed.

(** one pixel: bytes [fst x], [fst y] with the squares of their components alongside *)
Definition blue_good (x y : Z * f32) : bool :=
  match trunc (fmul (fadd (z_of (fadd (snd x) (snd y))) (of_int 1)) (of_int 127)) with
  | None => false
  | Some v =>
    let s := 16129 * z_square (fst x) (fst y) in
    (127 <=? v) && (v <=? 254) && ((v - 127) * (v - 127) * 65025 <=? s) && (s <? (v - 127 + 1) * (v - 127 + 1) * 65025)
  end.
Lemma blue_good_sym x y : blue_good x y = blue_good y x.
Proof.
  unfold blue_good. rewrite (fadd_comm (snd x)).
  replace (z_square (fst x) (fst y)) with (z_square (fst y) (fst x)); [reflexivity|].
  unfold z_square. f_equal. ring.
Qed.

Fixpoint all_pairs {A} (f : A -> A -> bool) (l : list A) : bool :=
  match l with [] => true | x :: r => forallb (f x) l && all_pairs f r end.
Lemma all_pairs_ok {A} (f : A -> A -> bool) l : (forall x y, f x y = f y x) -> all_pairs f l = true ->
  forall x y, In x l -> In y l -> f x y = true.
Proof.
  intros C. induction l as [|z r IH]; intros H x y Hx Hy; [contradiction|].
  cbn [all_pairs] in H. apply andb_true_iff in H as [H1 H2]. rewrite forallb_forall in H1.
  destruct Hx as [<-|Hx]; [now apply H1|]. destruct Hy as [<-|Hy]; [rewrite C; apply H1; now right|]. now apply IH.
Qed.
Definition bytes256 : list Z := map Z.of_nat (seq 0 256).
Lemma blue_sweep : all_pairs blue_good (map (fun a => (a, sq a)) bytes256) = true.
Proof. vm_compute. reflexivity. Qed.

Lemma in_bytes256 a : is_byte a -> In a bytes256.
Proof. unfold is_byte. intros H. apply in_map_iff. exists (Z.to_nat a). split; [lia|]. apply in_seq. lia. Qed.
Lemma blue_exact a b : is_byte a -> is_byte b ->
  exists v, trunc (fmul (fadd (zcomp a b) (of_int 1)) (of_int 127)) = Some v /\ blue_value a b v.
Proof.
  intros Ha Hb. pose proof (in_map (fun a => (a, sq a)) _ _ (in_bytes256 a Ha)) as Ia.
  pose proof (in_map (fun a => (a, sq a)) _ _ (in_bytes256 b Hb)) as Ib.
  pose proof (all_pairs_ok _ _ blue_good_sym blue_sweep _ _ Ia Ib) as H. unfold blue_good in H. cbn [fst snd] in H.
  change (zcomp a b) with (z_of (fadd (sq a) (sq b))).
  destruct (trunc _) as [v|]; [|discriminate]. exists v. split; [reflexivity|]. cbv zeta in H.
  rewrite !andb_true_iff, !Z.leb_le, Z.ltb_lt in H. unfold blue_value. rewrite !Z.pow_2_r.
  change (255 * 255) with 65025. change (127 * 127) with 16129. tauto.
Qed.

Lemma blue_loop_ok fuel : forall k n buf, (n <= k + fuel)%nat -> (k <= n)%nat -> Forall is_byte buf ->
  (3 * n <= length buf)%nat -> Z.of_nat (3 * n) < 2 ^ 32 ->
  exists buf', blue_loop false fuel (Z.of_nat (3 * k)) (Z.of_nat (3 * n)) buf = Some buf' /\
    length buf' = length buf /\
    (forall i, ~ (exists j, (k <= j < n)%nat /\ i = (3 * j)%nat) -> nth_error buf' i = nth_error buf i) /\
    (forall j, (k <= j < n)%nat -> exists a b v, nth_error buf (3 * j + 1) = Some a /\ nth_error buf (3 * j + 2) = Some b /\
       nth_error buf' (3 * j) = Some v /\ blue_value a b v).
Proof.
  induction fuel as [|fuel IH]; intros k n buf Hf Hk HB HL H32; unfold blue_loop; fold blue_loop.
  - destruct (Z.ltb_spec (Z.of_nat (3 * k)) (Z.of_nat (3 * n))); [lia|].
    exists buf. split; [reflexivity|]. split; [reflexivity|]. split; [reflexivity|]. intros j Hj. lia.
  - destruct (Z.ltb_spec (Z.of_nat (3 * k)) (Z.of_nat (3 * n))) as [Hlt|Hge].
    2:{ exists buf. split; [reflexivity|]. split; [reflexivity|]. split; [reflexivity|]. intros j Hj. lia. }
    replace (Z.to_nat (Z.of_nat (3 * k) + 1)) with (3 * k + 1)%nat by lia.
    replace (Z.to_nat (Z.of_nat (3 * k) + 2)) with (3 * k + 2)%nat by lia. rewrite Nat2Z.id.
    destruct (nth_error buf (3 * k + 1)) as [a|] eqn:Ea; [|apply nth_error_None in Ea; lia].
    destruct (nth_error buf (3 * k + 2)) as [b|] eqn:Eb; [|apply nth_error_None in Eb; lia].
    assert (Ha : is_byte a) by (rewrite Forall_forall in HB; apply HB; eapply nth_error_In; eassumption).
    assert (Hb : is_byte b) by (rewrite Forall_forall in HB; apply HB; eapply nth_error_In; eassumption).
    destruct (blue_exact a b Ha Hb) as (v & Ev & V). pose proof V as ((V1 & V2) & _).
    assert (EB : blue false a b = Some v).
    { unfold blue, to_char. rewrite Ev. destruct (Z.leb_spec 0 v); [|lia]. destruct (Z.ltb_spec v 256); [|lia].
      cbn [andb]. f_equal. apply wrap_small. lia. }
    rewrite EB. destruct (store_ok [v] (3 * k) buf) as (buf1 & E & R); [unfold inside; cbn [length]; lia|].
    rewrite E.
    assert (N : forall i, nth_error buf1 i = if (i =? 3 * k)%nat then Some v else nth_error buf i).
    { intros i. rewrite (nth_replaced _ _ _ _ _ R). cbn [length].
      destruct (Nat.eqb_spec i (3 * k)); destruct (Nat.leb_spec (3 * k) i); try lia;
        destruct (Nat.ltb_spec i (3 * k + 1)); try lia; cbn [andb]; [|reflexivity|reflexivity].
      replace (i - 3 * k)%nat with 0%nat by lia. reflexivity. }
    assert (L : length buf1 = length buf).
    { destruct R as (u & m & z & -> & _ & Hm & ->). rewrite !app_length. cbn [length] in *. lia. }
    replace (u32 (Z.of_nat (3 * k) + 3)) with (Z.of_nat (3 * S k)).
    2:{ symmetry. unfold u32. rewrite wrap_small by lia. lia. }
    destruct (IH (S k) n buf1) as (buf' & E' & L' & U & W); try lia.
    { apply Forall_forall. intros x Hx. apply In_nth_error in Hx as (i & Hi). rewrite N in Hi.
      destruct (i =? 3 * k)%nat; [injection Hi as <-; unfold is_byte; lia|].
      rewrite Forall_forall in HB. apply HB. eapply nth_error_In. eassumption. }
    exists buf'. split; [exact E'|]. split; [lia|]. split.
    + intros i Hi. rewrite U, N.
      * destruct (Nat.eqb_spec i (3 * k)); [|reflexivity]. exfalso. apply Hi. exists k. lia.
      * intros (j & Hj & Ej). apply Hi. exists j. lia.
    + intros j Hj. destruct (Nat.eq_dec j k) as [->|Hjk].
      * exists a, b, v. split; [exact Ea|]. split; [exact Eb|]. split; [|exact V]. rewrite U, N, Nat.eqb_refl; [reflexivity|].
        intros (j & Hj' & Ej). lia.
      * destruct (W j) as (a' & b' & v' & A & B & Vv & Q); [lia|]. rewrite N in A, B.
        destruct (Nat.eqb_spec (3 * j + 1) (3 * k)); [lia|]. destruct (Nat.eqb_spec (3 * j + 2) (3 * k)); [lia|].
        exists a', b', v'. auto.
Qed.
