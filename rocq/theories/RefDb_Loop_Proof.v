(** Load over all classes and enumerations of the file of Save. *)
From Coq Require Import String Ascii Sorting.Sorted.
From Verif Require Import Base Dds_Model RefDb_Model RefDb_Proof RefDb_Slots_Proof RefDb_Layout_Proof RefDb_Facts_Proof RefDb_Arrays_Proof
  RefDb_Load_Proof RefDb_Spec RefDb_Size_Proof.
Local Open Scope Z_scope.

Section Loop.
Variables (d : db) (base : Z).
Hypothesis ok : db_ok d.
Notation ops := (all_ops d).
Notation F := (fin (all_ops d)).
Notation s := (pos (all_ops d)).
Notation n := (length (classes d)).

Lemma small : s < 2 ^ 31. Proof. pose proof (size_ok d ok). destruct ok as (_ & _ & H9). lia. Qed.
Lemma word_det m a v w : word m a v -> word m a w -> 0 <= v < 2 ^ 32 -> 0 <= w < 2 ^ 32 -> v = w.
Proof.
  intros A B Hv Hw. pose proof (rd_word (Z.max 0 a + 4) (fun x => m (x - Z.max 0 (-a))) (Z.max 0 a)) as R.
  assert (S : forall u, word m a u -> word (fun x => m (x - Z.max 0 (-a))) (Z.max 0 a) u).
  { intros u U i Hi. rewrite <- (U i Hi). f_equal. lia. }
  pose proof (R v (S v A) Hv ltac:(lia) ltac:(lia)) as E1. pose proof (R w (S w B) Hw ltac:(lia) ltac:(lia)) as E2. congruence.
Qed.
Definition fw (a : Z) : Z := le_value (peek F a 4).
Lemma fw_word a v : word F a v -> 0 <= v < 2 ^ 32 -> fw a = v.
Proof. intros W Hv. unfold fw. apply holds_peek in W. rewrite le_length in W. rewrite W. apply le_back. exact Hv. Qed.

(** what Load leaves of class [i] *)
Definition done (m : mem) (i : nat) (cl : cls) : Prop :=
  let q := 56 * Z.of_nat i in let k := nTypes cl in
  quad m (q + 8) (ptr base (tpos d i)) /\ quad m (q + 16) (ptr0 base (ifs (names cl) (npos d i))) /\
  quad m (q + 24) (ptr0 base (ifs (cname cl) (cpos d i cl))) /\
  quad m (q + 32) (ptr0 base (ifs (aliases cl) (apos d i))) /\ quad m (q + 40) 0 /\ quad m (q + 48) (ptr0 base (ifs (descs cl) (dpos d i))) /\
  (names cl <> None -> forall r, 0 <= r < k -> quad m (npos d i + 8 * r) (ptr base (fw (npos d i + 4 * k + 4 * r)))) /\
  (aliases cl <> None -> forall r, 0 <= r < k -> quad m (apos d i + 8 * r) (ptr0 base (fw (apos d i + 4 * k + 4 * r)))) /\
  (descs cl <> None -> forall r, 0 <= r < 2 * k -> quad m (dpos d i + 16 * r) (ptr0 base (fw (dpos d i + 16 * k + 8 * r))) /\
     quad m (dpos d i + 16 * r + 8) (fw (dpos d i + 16 * k + 8 * r + 4))).
(** where it writes *)
Definition touched (i : nat) (x : Z) : Prop :=
  56 * Z.of_nat i + 8 <= x < 56 * Z.of_nat i + 56 \/ bN d i <= x < bN d (S i) \/ bA d i <= x < bA d (S i) \/ bD d i <= x < bD d (S i).
(** what the rest still needs *)
Definition rest (i : nat) (x : Z) : Prop :=
  56 * Z.of_nat i <= x < 56 * Z.of_nat n \/ bN d i <= x < bN d n \/ bA d i <= x < bA d n \/ bD d i <= x < bD d n.

Lemma arrays i cl : nth_error (classes d) i = Some cl ->
  (names cl <> None -> bN d i <= npos d i /\ npos d i + 8 * nTypes cl <= bN d (S i) /\
     forall r, 0 <= r < nTypes cl -> exists v, word F (npos d i + 4 * nTypes cl + 4 * r) v /\ 0 <= v < 2 ^ 32) /\
  (aliases cl <> None -> bA d i <= apos d i /\ apos d i + 8 * nTypes cl <= bA d (S i) /\
     forall r, 0 <= r < nTypes cl -> exists v, word F (apos d i + 4 * nTypes cl + 4 * r) v /\ 0 <= v < 2 ^ 32) /\
  (descs cl <> None -> bD d i <= dpos d i /\ dpos d i + 32 * nTypes cl <= bD d (S i) /\
     forall r, 0 <= r < 2 * nTypes cl -> exists v z, word F (dpos d i + 16 * nTypes cl + 8 * r) v /\ 0 <= v < 2 ^ 32 /\
       word F (dpos d i + 16 * nTypes cl + 8 * r + 4) z /\ 0 <= z < 2 ^ 32).
Proof.
  intros Hi. assert (Hc : class_ok cl) by (destruct ok as (H & _); rewrite Forall_forall in H; apply H; eapply nth_error_In; eauto).
  destruct Hc as (_ & _ & Hn & _ & Ha & _ & Hd). pose proof small as Sm. pose proof (b_order d) as O. pose proof (pos_nonneg (preS d)) as P0.
  assert (P31 : 2 ^ 32 = 2 * 2 ^ 31) by reflexivity.
  split; [|split]; intros H0.
  - destruct (names cl) as [l|] eqn:E; [|contradiction]. destruct Hn as [Hl _].
    destruct (names_fact d i cl Hi l E Hl) as (A1 & A2 & A3). split; [exact A1|]. split; [exact A2|]. intros r Hr.
    destruct (nth_error l (Z.to_nat r)) as [t|] eqn:Et; [|apply nth_error_None in Et; unfold nTypes in Hr; unfold text in *; lia].
    destruct (A3 _ _ Et) as (a & W & T1 & T2 & _). rewrite Z2Nat.id in W by lia. exists a. split; [exact W|]. pose proof (zlen_nonneg t). lia.
  - destruct (aliases cl) as [l|] eqn:E; [|contradiction]. destruct Ha as [Hl _].
    destruct (aliases_fact d i cl Hi l E Hl) as (A1 & A2 & A3). split; [exact A1|]. split; [exact A2|]. intros r Hr.
    destruct (nth_error l (Z.to_nat r)) as [t|] eqn:Et; [|apply nth_error_None in Et; unfold nTypes in Hr; unfold text in *; lia].
    destruct (A3 _ _ Et) as (a & W & T). rewrite Z2Nat.id in W by lia. exists a. split; [exact W|].
    destruct t as [t|]; [|lia]. destruct T as (T1 & T2 & _). pose proof (zlen_nonneg t). lia.
  - destruct (descs cl) as [l|] eqn:E; [|contradiction]. destruct Hd as [Hl _].
    destruct (descs_fact d i cl Hi l E Hl) as (A1 & A2 & A3). split; [exact A1|]. split; [exact A2|]. intros r Hr.
    pose proof (parts_length l) as PL. unfold zlen in PL.
    destruct (nth_error (parts l) (Z.to_nat r)) as [t|] eqn:Et; [|apply nth_error_None in Et; unfold nTypes in Hr; unfold text in *; lia].
    destruct (A3 _ _ Et) as (a & W & W2 & T). rewrite Z2Nat.id in W, W2 by lia. exists a, (u32 (zlen t)). split; [exact W|].
    split; [|split; [exact W2|unfold u32, wrap; apply Z.mod_pos_bound; lia]].
    destruct (0 <? length t)%nat; [destruct T as (T1 & T2 & _); pose proof (zlen_nonneg t); lia|lia].
Qed.

Lemma one_class i cl m : nth_error (classes d) i = Some cl -> (forall x, rest i x -> m x = F x) ->
  exists m', load_class base s (56 * Z.of_nat i) m = Some m' /\ (forall x, ~ touched i x -> m' x = m x) /\ done m' i cl.
Proof.
  intros Hi Hm. destruct (arrays i cl Hi) as (AN & AA & AD).
  assert (Hlt : (i < n)%nat) by (apply nth_error_Some; congruence).
  pose proof (b_ends d) as (B1 & B2 & B3 & B4 & B5 & B6 & B7). pose proof (b_order d) as O.
  pose proof (b_mono d 0 i ltac:(lia)) as M0. pose proof (b_mono d (S i) n ltac:(lia)) as M1. pose proof (b_mono d i (S i) ltac:(lia)) as M2.
  pose proof small as Sm. unfold zlen in B1.
  assert (P31 : 2 ^ 32 = 2 * 2 ^ 31) by reflexivity. assert (P27 : 2 ^ 31 = 16 * 2 ^ 27) by reflexivity.
  assert (P0 : 0 < 2 ^ 27) by reflexivity.
  assert (Hc : class_ok cl) by (destruct ok as (H & _); rewrite Forall_forall in H; apply H; eapply nth_error_In; eauto).
  destruct Hc as (_ & Ht & _).
  assert (Ht' : Forall (fun t => length t = 16%nat) (types cl)) by (eapply Forall_impl; [|exact Ht]; now intros t []).
  destruct (types_fact d i cl Hi Ht') as (T1 & T2 & _).
  destruct (record_facts d i cl Hi _ eq_refl) as (W0 & W1 & W2 & W3 & W4 & W5 & W6 & W7).
  assert (Kn : 0 <= nTypes cl) by (unfold nTypes; lia).
  assert (Hn : 0 <= nTypes cl < 2 ^ 27) by lia.
  set (q := 56 * Z.of_nat i) in *.
  assert (Hq : 0 <= q /\ q + 56 <= 56 * Z.of_nat n) by (unfold q; lia).
  assert (Rw : forall a v, q <= a -> a + 4 <= q + 56 -> word F a v -> word m a v).
  { intros a v La Lb W. eapply word_ext; [|exact W]. intros x Hx. apply Hm. left. fold q. lia. }
  assert (Cb : 0 <= cpos d i cl < 2 ^ 31).
  { pose proof (S_first d i). pose proof (sN_sA d i cl). pose proof (sA_sD d i cl). pose proof (sD_sC d i cl). pose proof (sC_end d i cl Hi). unfold cpos. lia. }
  assert (In : names cl <> None -> 0 < npos d i < 2 ^ 31) by (intros H; destruct (AN H) as (X & Y & _); lia).
  assert (Ia : aliases cl <> None -> 0 < apos d i < 2 ^ 31) by (intros H; destruct (AA H) as (X & Y & _); lia).
  assert (Id : descs cl <> None -> 0 < dpos d i < 2 ^ 31) by (intros H; destruct (AD H) as (X & Y & _); lia).
  assert (IF : forall X (o : option X) v, ifs o v <> 0 -> o <> None /\ ifs o v = v) by (intros X [o|] v; cbn; [split; [discriminate|reflexivity]|contradiction]).
  assert (IS : forall X (o : option X) v, o <> None -> ifs o v = v) by (intros X [o|] v H; [reflexivity|contradiction]).
  assert (IB : forall X (o : option X) v, (o <> None -> 0 < v < 2 ^ 31) -> 0 <= ifs o v < 2 ^ 31).
  { intros X [o|] v H; cbn; [assert (0 < v < 2 ^ 31) by (apply H; discriminate); lia|lia]. }
  assert (U1 : u32 (nTypes cl) = nTypes cl) by (unfold u32; apply wrap_small; lia). rewrite U1 in W1.
  destruct (load_class_spec base s q m (nTypes cl) (tpos d i) (ifs (names cl) (npos d i)) (ifs (cname cl) (cpos d i cl)) (ifs (aliases cl) (apos d i)) (ifs (descs cl) (dpos d i))
    (fun r => fw (npos d i + 4 * nTypes cl + 4 * r)) (fun r => fw (apos d i + 4 * nTypes cl + 4 * r))
    (fun r => fw (dpos d i + 16 * nTypes cl + 8 * r)) (fun r => fw (dpos d i + 16 * nTypes cl + 8 * r + 4)))
    as (m' & E & Ou & Q1 & Q2 & Q3 & Q4 & Q5 & Q6 & Q7 & Q8 & Q9); try lia; try (apply Rw; [lia|lia|assumption]); try (apply IB; assumption).
  - destruct (cname cl); cbn; lia.
  - intros H0. destruct (IF _ _ _ H0) as (N0 & ->). destruct (AN N0) as (X & Y & Z). split; [lia|]. split; [lia|]. intros r Hr.
    destruct (Z r Hr) as (v & W & V). rewrite (fw_word _ _ W V). split; [|exact V]. eapply word_ext; [|exact W]. intros x Hx. apply Hm. right; left. lia.
  - intros H0. destruct (IF _ _ _ H0) as (N0 & ->). destruct (AA N0) as (X & Y & Z). split; [lia|]. split; [lia|]. split.
    { intros H1. destruct (IF _ _ _ H1) as (N1 & ->). destruct (AN N1) as (X' & Y' & _). lia. }
    intros r Hr. destruct (Z r Hr) as (v & W & V). rewrite (fw_word _ _ W V). split; [|exact V]. eapply word_ext; [|exact W]. intros x Hx. apply Hm. right; right; left. lia.
  - intros H0. destruct (IF _ _ _ H0) as (N0 & ->). destruct (AD N0) as (X & Y & Z). split; [lia|]. split; [lia|]. split.
    { intros H1. destruct (IF _ _ _ H1) as (N1 & ->). destruct (AN N1) as (X' & Y' & _). lia. }
    split.
    { intros H1. destruct (IF _ _ _ H1) as (N1 & ->). destruct (AA N1) as (X' & Y' & _). lia. }
    intros r Hr. destruct (Z r Hr) as (v & z & W & V & W' & V'). rewrite (fw_word _ _ W V), (fw_word _ _ W' V'). split; [|split; [exact V|split; [|exact V']]].
    + eapply word_ext; [|exact W]. intros x Hx. apply Hm. right; right; right. lia.
    + eapply word_ext; [|exact W']. intros x Hx. apply Hm. right; right; right. lia.
  - exists m'. split; [exact E|]. split.
    + intros x Hx. unfold touched in Hx. fold q in Hx. apply Ou; [lia| | |]; intros [H0 H1]; destruct (IF _ _ _ H0) as (N0 & E0); rewrite E0 in H1;
        [destruct (AN N0) as (X & Y & _)|destruct (AA N0) as (X & Y & _)|destruct (AD N0) as (X & Y & _)]; lia.
    + unfold done. fold q. repeat (split; [assumption|]). split; [|split]; intros N0; [pose proof (In N0)|pose proof (Ia N0)|pose proof (Id N0)]; rewrite (IS _ _ _ N0) in *; auto with zarith.
Qed.

Lemma done_ext i cl m m' : nth_error (classes d) i = Some cl -> (forall x, touched i x -> m' x = m x) -> done m i cl -> done m' i cl.
Proof.
  intros Hi Hx. destruct (arrays i cl Hi) as (AN & AA & AD). unfold done. set (q := 56 * Z.of_nat i).
  intros (Q1 & Q2 & Q3 & Q4 & Q5 & Q6 & Q7 & Q8 & Q9).
  assert (Kn : 0 <= nTypes cl) by (unfold nTypes; lia).
  assert (K : forall a v, q + 8 <= a -> a + 8 <= q + 56 -> quad m a v -> quad m' a v).
  { intros a v La Lb Q. eapply quad_ext; [|exact Q]. intros x H. apply Hx. left. fold q. lia. }
  do 6 (split; [apply K; [lia|lia|assumption]|]). split; [|split]; intros N0 r Hr.
  - destruct (AN N0) as (X & Y & _). eapply quad_ext; [|apply (Q7 N0 r Hr)]. intros x H. apply Hx. right; left. lia.
  - destruct (AA N0) as (X & Y & _). eapply quad_ext; [|apply (Q8 N0 r Hr)]. intros x H. apply Hx. right; right; left. lia.
  - destruct (AD N0) as (X & Y & _). destruct (Q9 N0 r Hr) as [G1 G2].
    split; [eapply quad_ext; [|exact G1]|eapply quad_ext; [|exact G2]]; intros x H; apply Hx; right; right; right; lia.
Qed.

Lemma touched_rest i j x : (i < j)%nat -> (j <= n)%nat -> touched i x -> ~ rest j x.
Proof.
  intros Hij Hj Ht Hr. pose proof (b_ends d) as (B1 & B2 & B3 & B4 & B5 & B6 & B7). pose proof (b_order d) as O. unfold zlen in B1.
  pose proof (b_mono d 0 i ltac:(lia)). pose proof (b_mono d (S i) j ltac:(lia)). pose proof (b_mono d j n ltac:(lia)). pose proof (b_mono d 0 j ltac:(lia)).
  unfold touched, rest in *. lia.
Qed.
Lemma touched_in i x : (i < n)%nat -> touched i x -> rest i x.
Proof.
  intros Hij Ht. pose proof (b_mono d (S i) n ltac:(lia)). pose proof (b_mono d 0 i ltac:(lia)). unfold touched, rest in *. lia.
Qed.

Lemma all_classes : forall k i m, (i + k = n)%nat -> (forall x, rest i x -> m x = F x) ->
  exists m', load_classes base s k (56 * Z.of_nat i) m = Some m' /\
    (forall x, (forall j, (i <= j < n)%nat -> ~ touched j x) -> m' x = m x) /\
    forall j cl, (i <= j)%nat -> nth_error (classes d) j = Some cl -> done m' j cl.
Proof.
  induction k as [|k IH]; intros i m Hk Hm.
  - exists m. split; [reflexivity|]. split; [reflexivity|]. intros j cl Hj Hc. assert (j < n)%nat by (apply nth_error_Some; congruence). lia.
  - cbn [load_classes]. destruct (nth_error (classes d) i) as [cl|] eqn:Hi; [|apply nth_error_None in Hi; lia].
    destruct (one_class i cl m Hi Hm) as (m1 & -> & O1 & D1).
    replace (56 * Z.of_nat i + 56) with (56 * Z.of_nat (S i)) by lia.
    destruct (IH (S i) m1) as (m' & E & O2 & D2); [lia| |].
    { intros x Hx. rewrite O1; [|intros Ht; apply (touched_rest i (S i) x); [lia|lia|exact Ht|exact Hx]]. apply Hm.
      pose proof (b_mono d i (S i) ltac:(lia)). unfold rest in *. lia. }
    exists m'. split; [exact E|]. split.
    + intros x Hx. rewrite O2 by (intros j Hj; apply Hx; lia). apply O1. apply Hx. lia.
    + intros j c Hj Hc. destruct (Nat.eq_dec i j) as [<-|Hne].
      * assert (c = cl) by congruence. subst c. eapply done_ext; [exact Hi| |exact D1]. intros x Hx. apply O2.
        intros j Hj' Ht. apply (touched_rest i j x); [lia|lia|exact Hx|]. apply touched_in; [lia|exact Ht].
      * apply D2; [lia|exact Hc].
Qed.

(** outside the areas of the classes nothing changes *)
Lemma not_touched x : (pos (preT d) <= x < pos (preN d) \/ pos (preS d) <= x) -> forall j, (j < n)%nat -> ~ touched j x.
Proof.
  intros Hx j Hj Ht. apply touched_in in Ht; [|exact Hj].
  pose proof (b_ends d) as (B1 & B2 & B3 & B4 & B5 & B6 & B7). pose proof (b_order d) as O. unfold zlen in B1.
  pose proof (b_mono d 0 j ltac:(lia)). unfold rest in Ht. lia.
Qed.
Lemma not_touched_head i x : (i < n)%nat -> 56 * Z.of_nat i <= x < 56 * Z.of_nat i + 8 -> forall j, (j < n)%nat -> ~ touched j x.
Proof.
  intros Hi Hx j Hj Ht.
  pose proof (b_ends d) as (B1 & B2 & B3 & B4 & B5 & B6 & B7). pose proof (b_order d) as O. unfold zlen in B1.
  pose proof (b_mono d 0 j ltac:(lia)). unfold touched in Ht. lia.
Qed.
End Loop.
