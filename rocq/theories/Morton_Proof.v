(** Proofs for C40. *)
From Verif Require Import Base Morton_Model Morton_Spec.

Definition fixed (i : nat) : Z := 2 ^ Z.of_nat i.
(** the mask applied to bit group i *)
Definition group (ms : list Z) (i : nat) : Z := if (i <? 4)%nat then fixed i else nth (i - 4) ms 0.
Definition xterm x m i := sh (Z.land x (group (xmask m) i)) (Z.of_nat i).
Definition yterm y m i := sh (Z.land y (group (ymask m) i)) (Z.of_nat i + 1).
Definition terms x y m : list Z :=
  map (xterm x m) (seq 0 8) ++ map (yterm y m) (seq 0 8) ++
  map (xterm x m) (seq 8 3) ++ map (yterm y m) (seq 8 3) ++
  map (xterm x m) (seq 11 3) ++ map (yterm y m) (seq 11 3).

Lemma fold_lor_zeros l v : Forall (fun t => t = 0) l -> fold_left Z.lor l v = v.
Proof.
  revert v. induction l as [|t l IH]; intros v H; [reflexivity|]. inversion H; subst.
  cbn. rewrite Z.lor_0_r. now apply IH.
Qed.
Lemma sh_zero s : sh 0 s = 0.
Proof. unfold sh, u64, wrap. rewrite Z.shiftl_0_l. reflexivity. Qed.

Lemma sh_0 x : sh (Z.land x 1) 0 = Z.land x 1.
Proof.
  unfold sh, u64. rewrite Z.shiftl_0_r. apply wrap_small.
  change 1 with (2 ^ 1 - 1). rewrite land_pow2m1 by lia. 
  pose proof (Z.mod_pos_bound x (2 ^ 1) ltac:(lia)). lia.
Qed.

Lemma lor_all_nest l r : lor_all (lor_all l :: r) = lor_all (l ++ r).
Proof. unfold lor_all. rewrite fold_left_app. reflexivity. Qed.
Lemma lor_all_zeros l z : Forall (fun t => t = 0) z -> lor_all (l ++ z) = lor_all l.
Proof. intros H. unfold lor_all. rewrite fold_left_app. now apply fold_lor_zeros. Qed.

Lemma addr_terms x y m :
  (forall i, (4 <= i < 10)%nat -> nth 4 (xmask m) 0 = 0 -> nth 4 (ymask m) 0 = 0 -> nth i (xmask m) 0 = 0 /\ nth i (ymask m) 0 = 0) ->
  (forall i, (7 <= i < 10)%nat -> nth 7 (xmask m) 0 = 0 -> nth 7 (ymask m) 0 = 0 -> nth i (xmask m) 0 = 0 /\ nth i (ymask m) 0 = 0) ->
  MortonAddr x y m = lor_all (terms x y m).
Proof.
  intros H4 H7.
  assert (E0 : xterm x m 0 = Z.land x 1) by (unfold xterm, group; cbn -[Z.land sh]; apply sh_0).
  unfold terms. cbn [seq map app].
  rewrite E0. unfold xterm, yterm, group.
  cbn [Nat.ltb Nat.leb Nat.sub fixed]. unfold fixed.
  change (2 ^ Z.of_nat 0) with 1. change (2 ^ Z.of_nat 1) with 2. change (2 ^ Z.of_nat 2) with 4. change (2 ^ Z.of_nat 3) with 8.
  cbn [Z.of_nat Pos.of_succ_nat Pos.succ Z.add Pos.add].
  unfold MortonAddr.
  set (A := [Z.land x 1; _; _; _; _; _; _; _; _; _; _; _; _; _; _; _]).
  set (B := [sh (Z.land x (nth 4 (xmask m) 0)) 8; sh (Z.land x (nth 5 (xmask m) 0)) 9; sh (Z.land x (nth 6 (xmask m) 0)) 10;
             sh (Z.land y (nth 4 (ymask m) 0)) 9; sh (Z.land y (nth 5 (ymask m) 0)) 10; sh (Z.land y (nth 6 (ymask m) 0)) 11]).
  set (C := [sh (Z.land x (nth 7 (xmask m) 0)) 11; sh (Z.land x (nth 8 (xmask m) 0)) 12; sh (Z.land x (nth 9 (xmask m) 0)) 13;
             sh (Z.land y (nth 7 (ymask m) 0)) 12; sh (Z.land y (nth 8 (ymask m) 0)) 13; sh (Z.land y (nth 9 (ymask m) 0)) 14]).
  match goal with |- _ = lor_all ?r => change r with (A ++ B ++ C) end.
  fold B. fold C. 
  change (lor_all [lor_all A; sh (Z.land x (nth 4 (xmask m) 0)) 8; sh (Z.land x (nth 5 (xmask m) 0)) 9; sh (Z.land x (nth 6 (xmask m) 0)) 10;
             sh (Z.land y (nth 4 (ymask m) 0)) 9; sh (Z.land y (nth 5 (ymask m) 0)) 10; sh (Z.land y (nth 6 (ymask m) 0)) 11])
    with (lor_all (lor_all A :: B)).
  match goal with |- (if _ then (if _ then lor_all (?h :: _) else _) else _) = _ =>
    change (lor_all [h; sh (Z.land x (nth 7 (xmask m) 0)) 11; sh (Z.land x (nth 8 (xmask m) 0)) 12; sh (Z.land x (nth 9 (xmask m) 0)) 13;
             sh (Z.land y (nth 7 (ymask m) 0)) 12; sh (Z.land y (nth 8 (ymask m) 0)) 13; sh (Z.land y (nth 9 (ymask m) 0)) 14])
    with (lor_all (h :: C)) end.
  rewrite !(lor_all_nest A B), !lor_all_nest, <- app_assoc.
  assert (ZB : nth 4 (xmask m) 0 = 0 -> nth 4 (ymask m) 0 = 0 -> Forall (fun t => t = 0) (B ++ C)).
  { intros X Y. unfold B, C. cbn [app].
    repeat match goal with |- Forall _ (_ :: _) => constructor | |- Forall _ [] => constructor end.
    all: match goal with |- sh (Z.land _ (nth ?i _ 0)) _ = 0 => destruct (H4 i ltac:(lia) X Y) as [E1 E2]; rewrite ?E1, ?E2 end.
    all: rewrite Z.land_0_r; apply sh_zero. }
  assert (ZC : nth 7 (xmask m) 0 = 0 -> nth 7 (ymask m) 0 = 0 -> Forall (fun t => t = 0) C).
  { intros X Y. unfold C.
    repeat match goal with |- Forall _ (_ :: _) => constructor | |- Forall _ [] => constructor end.
    all: match goal with |- sh (Z.land _ (nth ?i _ 0)) _ = 0 => destruct (H7 i ltac:(lia) X Y) as [E1 E2]; rewrite ?E1, ?E2 end.
    all: rewrite Z.land_0_r; apply sh_zero. }
  clearbody A B C. clear E0 H4 H7.
  destruct (Z.eqb_spec (nth 4 (xmask m) 0) 0) as [X4|X4], (Z.eqb_spec (nth 4 (ymask m) 0) 0) as [Y4|Y4]; cbn [negb orb].
  1: { now rewrite (lor_all_zeros A (B ++ C)) by auto. }
  all: destruct (Z.eqb_spec (nth 7 (xmask m) 0) 0) as [X7|X7], (Z.eqb_spec (nth 7 (ymask m) 0) 0) as [Y7|Y7]; cbn [negb orb].
  all: first [ reflexivity | rewrite (app_assoc A B C); symmetry; apply lor_all_zeros; auto ].
Qed.

Lemma lor_all_bit l n v : 0 <= n -> Z.testbit (fold_left Z.lor l v) n = true <->
  Z.testbit v n = true \/ exists t, In t l /\ Z.testbit t n = true.
Proof.
  intros Hn. revert v. induction l as [|t l IH]; intros v; cbn [fold_left].
  - split; [auto|]. intros [H|(t & [] & _)]. exact H.
  - rewrite IH, Z.lor_spec, orb_true_iff. split.
    + intros [[H|H]|(u & Hu & H)]; auto; right; [exists t|exists u]; (split; [|exact H]); [now left|now right].
    + intros [H|(u & [-> | Hu] & H)]; auto. right. exists u. auto.
Qed.

Lemma terms_in x y m t : In t (terms x y m) <->
  exists i, (i < 14)%nat /\ (t = xterm x m i \/ t = yterm y m i).
Proof.
  unfold terms. rewrite !in_app_iff, !in_map_iff. split.
  - intros H. decompose [or] H; match goal with E : exists _, _ |- _ => destruct E as (i & <- & Hi) end;
      apply in_seq in Hi; exists i; (split; [lia|auto]).
  - intros (i & Hi & [-> | ->]).
    + destruct (Nat.lt_ge_cases i 8); [left|]. { exists i. split; auto. apply in_seq. lia. }
      right. right. destruct (Nat.lt_ge_cases i 11); [left|right; right; left];
        exists i; (split; [auto|apply in_seq; lia]).
    + right. destruct (Nat.lt_ge_cases i 8); [left|]. { exists i. split; auto. apply in_seq. lia. }
      right. right. destruct (Nat.lt_ge_cases i 11); [left|right; right];
        exists i; (split; [auto|apply in_seq; lia]).
Qed.

Lemma sh_bit v s n : 0 <= s -> 0 <= n -> Z.testbit (sh v s) n = (n <? 64) && Z.testbit v (n - s).
Proof.
  intros Hs Hn. unfold sh, u64. rewrite wrap_testbit by lia. rewrite Z.shiftl_spec by lia. reflexivity.
Qed.

Lemma addr_bit x y m n : 0 <= n ->
  Z.testbit (lor_all (terms x y m)) n = true <->
  n < 64 /\ exists i, (i < 14)%nat /\
    (Z.testbit x (n - Z.of_nat i) = true /\ Z.testbit (group (xmask m) i) (n - Z.of_nat i) = true \/
     Z.testbit y (n - Z.of_nat i - 1) = true /\ Z.testbit (group (ymask m) i) (n - Z.of_nat i - 1) = true).
Proof.
  intros Hn. unfold lor_all. rewrite lor_all_bit by exact Hn. rewrite Z.bits_0. split.
  - intros [H|(t & Ht & H)]; [discriminate|]. apply terms_in in Ht as (i & Hi & [-> | ->]).
    + unfold xterm in H. rewrite sh_bit, Z.land_spec, !andb_true_iff in H by lia.
      split; [lia|]. exists i. split; [exact Hi|]. left. tauto.
    + unfold yterm in H. rewrite sh_bit, Z.land_spec, !andb_true_iff in H by lia.
      replace (n - (Z.of_nat i + 1)) with (n - Z.of_nat i - 1) in H by lia.
      split; [lia|]. exists i. split; [exact Hi|]. right. tauto.
  - intros (H64 & i & Hi & [(A & B)|(A & B)]); right.
    + exists (xterm x m i). split; [apply terms_in; eauto|]. unfold xterm.
      rewrite sh_bit, Z.land_spec, A, B by lia. lia.
    + exists (yterm y m i). split; [apply terms_in; eauto|]. unfold yterm.
      rewrite sh_bit, Z.land_spec by lia. replace (n - (Z.of_nat i + 1)) with (n - Z.of_nat i - 1) by lia.
      rewrite A, B. lia.
Qed.

(** ** The masks *)
Definition mask (lo hi : Z) : Z := Z.lxor (2 ^ lo - 1) (2 ^ hi - 1).
Lemma mask_bit lo hi k : 0 <= lo <= hi -> 0 <= k -> Z.testbit (mask lo hi) k = (lo <=? k) && (k <? hi).
Proof.
  intros H Hk. unfold mask. rewrite Z.lxor_spec.
  replace (2 ^ lo - 1) with (Z.ones lo) by (rewrite Z.ones_equiv; lia).
  replace (2 ^ hi - 1) with (Z.ones hi) by (rewrite Z.ones_equiv; lia).
  rewrite !Z.testbit_ones by lia.
  destruct (Z.ltb_spec k lo), (Z.ltb_spec k hi), (Z.leb_spec lo k), (Z.leb_spec 0 k); cbn; try reflexivity; lia.
Qed.

Definition diag (b : Z) (i : nat) : Z := if Z.of_nat i + 4 <? b then 2 ^ (Z.of_nat i + 4) else 0.

Lemma cases_4_14 b : 4 <= b <= 14 -> b = 4 \/ b = 5 \/ b = 6 \/ b = 7 \/ b = 8 \/ b = 9 \/ b = 10 \/ b = 11 \/ b = 12 \/ b = 13 \/ b = 14.
Proof. lia. Qed.

Lemma diagonal_ok b : 4 <= b <= 14 ->
  diagonal (Z.to_nat (b - 4)) 4 (repeat 0 10) (repeat 0 10) = Some (map (diag b) (seq 0 10), map (diag b) (seq 0 10)).
Proof.
  intros H. apply cases_4_14 in H. decompose [or] H; subst; vm_compute; reflexivity.
Qed.

Lemma nth_diag b i : (i < 10)%nat -> nth i (map (diag b) (seq 0 10)) 0 = diag b i.
Proof.
  intros H. rewrite nth_indep with (d' := diag b 0) by (rewrite map_length, seq_length; exact H).
  rewrite map_nth, seq_nth by exact H. reflexivity.
Qed.

Lemma set_at_ok l i v : (0 <= i < Z.of_nat (length l)) ->
  exists l', set_at l i v = Some l' /\
    forall j, nth j l' 0 = if (Z.of_nat j =? i) then v else nth j l 0.
Proof.
  intros H. unfold set_at.
  destruct (Z.leb_spec 0 i); [|lia]. destruct (Z.ltb_spec i (Z.of_nat (length l))); [|lia].
  eexists; split; [reflexivity|]. intros j.
  assert (L : length (firstn (Z.to_nat i) l) = Z.to_nat i) by (rewrite firstn_length; lia).
  destruct (Z.eqb_spec (Z.of_nat j) i) as [E|E].
  - rewrite app_nth2 by lia. rewrite L. replace (j - Z.to_nat i)%nat with 0%nat by lia. reflexivity.
  - destruct (Nat.lt_ge_cases j (Z.to_nat i)).
    + rewrite app_nth1 by lia. now apply nth_firstn.
    + rewrite app_nth2 by lia. rewrite L. destruct (j - Z.to_nat i)%nat eqn:Ej; [lia|].
      cbn [nth]. rewrite nth_skipn. f_equal. lia.
Qed.

Definition small_enough (lo hi : Z) : Prop := 4 <= lo /\ lo <= hi /\ lo + hi <= 64 /\ (lo <= 13 \/ lo = hi /\ lo = 14).

Lemma group_diag b i : (i < 14)%nat -> 4 <= b -> group (map (diag b) (seq 0 10)) i = if Z.of_nat i <? b then 2 ^ Z.of_nat i else 0.
Proof.
  intros Hi Hb. unfold group. destruct (Nat.ltb_spec i 4).
  - unfold fixed. destruct (Z.ltb_spec (Z.of_nat i) b); [reflexivity|lia].
  - rewrite nth_diag by lia. unfold diag. replace (Z.of_nat (i - 4) + 4) with (Z.of_nat i) by lia. reflexivity.
Qed.

(** masks of the longer and the shorter side *)
Definition long_masks (lo hi : Z) (l : list Z) : Prop := forall i, (i < 14)%nat ->
  group l i = if Z.of_nat i <? lo then 2 ^ Z.of_nat i else if Z.of_nat i =? lo then mask lo hi else 0.
Definition short_masks (lo : Z) (l : list Z) : Prop := forall i, (i < 14)%nat ->
  group l i = if Z.of_nat i <? lo then 2 ^ Z.of_nat i else 0.

Lemma mask_self a : mask a a = 0.
Proof. apply Z.lxor_nilpotent. Qed.

Lemma pow2_word a : 0 <= a <= 63 -> u64 (2 ^ a - 1) = 2 ^ a - 1.
Proof.
  intros H. apply wrap_small. assert (0 < 2 ^ a) by (apply Z.pow_pos_nonneg; lia).
  assert (2 ^ a < 2 ^ 64) by (apply Z.pow_lt_mono_r; lia). lia.
Qed.

Lemma set_long lo hi l : small_enough lo hi -> lo <> hi -> l = map (diag lo) (seq 0 10) ->
  exists l', set_at l (lo - 4) (mask lo hi) = Some l' /\ long_masks lo hi l'.
Proof.
  intros (H4 & H1 & H2 & H3) Hne El.
  assert (Ll : length l = 10%nat) by (subst l; reflexivity).
  destruct (set_at_ok l (lo - 4) (mask lo hi)) as (l' & E & N); [rewrite Ll; lia|].
  exists l'. split; [exact E|]. intros i Hi.
  pose proof (group_diag lo i Hi H4) as G. rewrite <- El in G. unfold group in *.
  destruct (Nat.ltb_spec i 4).
  - rewrite G. destruct (Z.ltb_spec (Z.of_nat i) lo); [reflexivity|lia].
  - rewrite N, G. destruct (Z.eqb_spec (Z.of_nat (i - 4)) (lo - 4)), (Z.ltb_spec (Z.of_nat i) lo), (Z.eqb_spec (Z.of_nat i) lo); try reflexivity; lia.
Qed.

Lemma wide_masks a b : small_enough b a ->
  exists m, Morton_new (2 ^ a) (2 ^ b) = Some m /\ long_masks b a (xmask m) /\ short_masks b (ymask m).
Proof.
  intros (H4 & H1 & H2 & H3). unfold Morton_new. rewrite !Z.log2_pow2 by lia.
  replace (if b <? a then b else a) with b by (destruct (Z.ltb_spec b a); lia).
  rewrite diagonal_ok by lia.
  destruct (Z.eqb_spec a b) as [E|E].
  - subst a. eexists; split; [reflexivity|]. cbn [xmask ymask]. split; intros i Hi; rewrite group_diag by auto.
    + rewrite mask_self. destruct (Z.ltb_spec (Z.of_nat i) b); [reflexivity|]. now destruct (_ =? _).
    + reflexivity.
  - destruct (Z.ltb_spec b a); [|lia]. rewrite !pow2_word by lia. fold (mask b a).
    destruct (set_long b a (map (diag b) (seq 0 10))) as (l' & -> & HL); [unfold small_enough; auto|auto|reflexivity|].
    eexists; split; [reflexivity|]. cbn [xmask ymask]. split; [exact HL|]. intros i Hi. now apply group_diag.
Qed.

Lemma tall_masks a b : small_enough a b -> a <> b ->
  exists m, Morton_new (2 ^ a) (2 ^ b) = Some m /\ short_masks a (xmask m) /\ long_masks a b (ymask m).
Proof.
  intros (H4 & H1 & H2 & H3) Hne. unfold Morton_new. rewrite !Z.log2_pow2 by lia.
  replace (if b <? a then b else a) with a by (destruct (Z.ltb_spec b a); lia).
  rewrite diagonal_ok by lia.
  destruct (Z.eqb_spec a b) as [E|E]; [lia|].
  destruct (Z.ltb_spec b a); [lia|]. rewrite !pow2_word by lia.
  rewrite Z.lxor_comm. fold (mask a b).
  destruct (set_long a b (map (diag a) (seq 0 10))) as (l' & -> & HL); [unfold small_enough; auto|auto|reflexivity|].
  eexists; split; [reflexivity|]. cbn [xmask ymask]. split; [|exact HL]. intros i Hi. now apply group_diag.
Qed.

Lemma mask_zero lo hi : 0 <= lo <= hi -> mask lo hi = 0 -> lo = hi.
Proof.
  intros H E. destruct (Z.eq_dec lo hi); [assumption|].
  pose proof (mask_bit lo hi lo H ltac:(lia)) as B. rewrite E, Z.bits_0 in B.
  destruct (Z.leb_spec lo lo), (Z.ltb_spec lo hi); cbn in B; try discriminate; lia.
Qed.
Lemma group_nth l i : nth i l 0 = group l (i + 4).
Proof. unfold group. destruct (Nat.ltb_spec (i + 4) 4); [lia|]. f_equal. lia. Qed.

(** once a group of both masks is empty, so are all later ones *)
Lemma gate lo hi long short k i : small_enough lo hi -> long_masks lo hi long -> short_masks lo short ->
  (k <= i < 10)%nat -> nth k long 0 = 0 -> nth k short 0 = 0 -> nth i long 0 = 0 /\ nth i short 0 = 0.
Proof.
  intros (H4 & H1 & H2 & H3) HL HS Hi. rewrite !group_nth.
  rewrite (HL (k + 4)%nat), (HS (k + 4)%nat), (HL (i + 4)%nat), (HS (i + 4)%nat) by lia.
  intros ZL ZS.
  destruct (Z.ltb_spec (Z.of_nat (k + 4)) lo).
  - assert (0 < 2 ^ Z.of_nat (k + 4)) by (apply Z.pow_pos_nonneg; lia). lia.
  - destruct (Z.ltb_spec (Z.of_nat (i + 4)) lo); [lia|]. split; [|reflexivity].
    destruct (Z.eqb_spec (Z.of_nat (i + 4)) lo); [|reflexivity].
    destruct (Z.eqb_spec (Z.of_nat (k + 4)) lo); [exact ZL|lia].
Qed.

Lemma pow2_bit i k : 0 <= i -> Z.testbit (2 ^ i) k = true <-> k = i.
Proof.
  intros Hi. destruct (Z.eq_dec k i) as [->|N].
  - rewrite Z.pow2_bits_true by lia. tauto.
  - rewrite Z.pow2_bits_false by lia. split; [discriminate|contradiction].
Qed.

Lemma long_bit lo hi l i k : small_enough lo hi -> long_masks lo hi l -> (i < 14)%nat ->
  Z.testbit (group l i) k = true <-> (Z.of_nat i < lo /\ k = Z.of_nat i \/ Z.of_nat i = lo /\ lo <= k < hi).
Proof.
  intros (H4 & H1 & H2 & H3) HL Hi. rewrite (HL i Hi).
  destruct (Z.ltb_spec (Z.of_nat i) lo).
  - rewrite pow2_bit by lia. lia.
  - destruct (Z.eqb_spec (Z.of_nat i) lo).
    + destruct (Z.ltb_spec k 0); [rewrite Z.testbit_neg_r by lia; lia|].
      rewrite mask_bit by lia. rewrite andb_true_iff. lia.
    + rewrite Z.bits_0. lia.
Qed.
Lemma short_bit lo l i k : short_masks lo l -> (i < 14)%nat ->
  Z.testbit (group l i) k = true <-> (Z.of_nat i < lo /\ k = Z.of_nat i).
Proof.
  intros HL Hi. rewrite (HL i Hi).
  destruct (Z.ltb_spec (Z.of_nat i) lo).
  - rewrite pow2_bit by lia. lia.
  - rewrite Z.bits_0. lia.
Qed.

(** ** Bits of the address *)
Lemma wide_bit a b x y m n : small_enough b a -> 0 <= n ->
  Morton_new (2 ^ a) (2 ^ b) = Some m ->
  Z.testbit (MortonAddr x y m) n = true <->
    (exists i, 0 <= i < b /\ n = 2 * i /\ Z.testbit x i = true) \/
    (exists i, 0 <= i < b /\ n = 2 * i + 1 /\ Z.testbit y i = true) \/
    (b <= n - b < a /\ Z.testbit x (n - b) = true).
Proof.
  intros HS Hn E. destruct (wide_masks a b HS) as (m' & E' & HX & HY).
  rewrite E in E'. injection E' as <-.
  rewrite addr_terms.
  2:{ intros i Hi X Y. destruct (gate b a (xmask m) (ymask m) 4 i HS HX HY); auto; lia. }
  2:{ intros i Hi X Y. destruct (gate b a (xmask m) (ymask m) 7 i HS HX HY); auto; lia. }
  rewrite addr_bit by exact Hn. destruct HS as (H4 & H1 & H2 & H3). split.
  - intros (H64 & i & Hi & [(A & B)|(A & B)]).
    + apply (long_bit b a) in B; [|unfold small_enough; auto|exact HX|exact Hi].
      destruct B as [(B1 & B2)|(B1 & B2)].
      * left. exists (Z.of_nat i). split; [lia|]. split; [lia|]. now rewrite <- B2.
      * right. right. rewrite <- B1. split; [lia|exact A].
    + apply (short_bit b) in B as (B1 & B2); auto.
      right. left. exists (Z.of_nat i). split; [lia|]. split; [lia|]. now rewrite <- B2.
  - intros [(i & Hi & -> & A)|[(i & Hi & -> & A)|(Hr & A)]].
    + split; [lia|]. exists (Z.to_nat i). split; [lia|]. left.
      rewrite (long_bit b a) by (unfold small_enough; auto; lia).
      rewrite Z2Nat.id by lia. replace (2 * i - i) with i by lia. split; [exact A|lia].
    + split; [lia|]. exists (Z.to_nat i). split; [lia|]. right.
      rewrite (short_bit b) by (auto; lia).
      rewrite Z2Nat.id by lia. replace (2 * i + 1 - i - 1) with i by lia. split; [exact A|lia].
    + split; [lia|]. assert (b <= 13) by lia. exists (Z.to_nat b). split; [lia|]. left.
      rewrite (long_bit b a) by (unfold small_enough; auto; lia).
      rewrite Z2Nat.id by lia. split; [exact A|]. lia.
Qed.

Lemma tall_bit a b x y m n : small_enough a b -> a <> b -> a + b <= 63 -> 0 <= n ->
  Morton_new (2 ^ a) (2 ^ b) = Some m ->
  Z.testbit (MortonAddr x y m) n = true <->
    (exists i, 0 <= i < a /\ n = 2 * i /\ Z.testbit x i = true) \/
    (exists i, 0 <= i < a /\ n = 2 * i + 1 /\ Z.testbit y i = true) \/
    (a <= n - a - 1 < b /\ Z.testbit y (n - a - 1) = true).
Proof.
  intros HS Hne H63 Hn E. destruct (tall_masks a b HS Hne) as (m' & E' & HX & HY).
  rewrite E in E'. injection E' as <-.
  rewrite addr_terms.
  2:{ intros i Hi X Y. destruct (gate a b (ymask m) (xmask m) 4 i HS HY HX); auto; lia. }
  2:{ intros i Hi X Y. destruct (gate a b (ymask m) (xmask m) 7 i HS HY HX); auto; lia. }
  rewrite addr_bit by exact Hn. destruct HS as (H4 & H1 & H2 & H3). split.
  - intros (H64 & i & Hi & [(A & B)|(A & B)]).
    + apply (short_bit a) in B as (B1 & B2); auto.
      left. exists (Z.of_nat i). split; [lia|]. split; [lia|]. now rewrite <- B2.
    + apply (long_bit a b) in B; [|unfold small_enough; auto|exact HY|exact Hi].
      destruct B as [(B1 & B2)|(B1 & B2)].
      * right. left. exists (Z.of_nat i). split; [lia|]. split; [lia|]. now rewrite <- B2.
      * right. right. rewrite <- B1. split; [lia|exact A].
  - intros [(i & Hi & -> & A)|[(i & Hi & -> & A)|(Hr & A)]].
    + split; [lia|]. exists (Z.to_nat i). split; [lia|]. left.
      rewrite (short_bit a) by (auto; lia).
      rewrite Z2Nat.id by lia. replace (2 * i - i) with i by lia. split; [exact A|lia].
    + split; [lia|]. exists (Z.to_nat i). split; [lia|]. right.
      rewrite (long_bit a b) by (unfold small_enough; auto; lia).
      rewrite Z2Nat.id by lia. replace (2 * i + 1 - i - 1) with i by lia. split; [exact A|lia].
    + split; [lia|]. exists (Z.to_nat a). split; [lia|]. right.
      rewrite (long_bit a b) by (unfold small_enough; auto; lia).
      rewrite Z2Nat.id by lia. split; [exact A|]. lia.
Qed.

(** ** A number from its bits *)
Fixpoint of_bits (n : nat) (f : Z -> bool) : Z :=
  match n with
  | O => 0
  | S n' => Z.b2z (f 0) + 2 * of_bits n' (fun i => f (i + 1))
  end.
Lemma of_bits_bound n : forall f, 0 <= of_bits n f < 2 ^ Z.of_nat n.
Proof.
  induction n as [|n IH]; intros f; [cbn; lia|].
  cbn [of_bits]. specialize (IH (fun i => f (i + 1))).
  replace (2 ^ Z.of_nat (S n)) with (2 * 2 ^ Z.of_nat n) by (rewrite Nat2Z.inj_succ, Z.pow_succ_r by lia; lia).
  destruct (f 0); cbn [Z.b2z]; lia.
Qed.
Lemma of_bits_spec n : forall f i, 0 <= i < Z.of_nat n -> Z.testbit (of_bits n f) i = f i.
Proof.
  induction n as [|n IH]; intros f i H; [lia|].
  cbn [of_bits]. destruct (Z.eq_dec i 0) as [->|N].
  - rewrite Z.add_comm, Z.testbit_0_r. reflexivity.
  - replace i with (Z.succ (i - 1)) at 1 by lia.
    rewrite Z.add_comm, Z.testbit_succ_r by lia.
    rewrite IH by lia. f_equal. lia.
Qed.

Lemma order_unique a b x y x' y' addr : 0 <= b <= a ->
  0 <= x < 2 ^ a -> 0 <= y < 2 ^ b -> 0 <= x' < 2 ^ a -> 0 <= y' < 2 ^ b ->
  morton_order a b x y addr -> morton_order a b x' y' addr -> x = x' /\ y = y'.
Proof.
  intros Hab Hx Hy Hx' Hy' (_ & I1 & L1) (_ & I2 & L2). split; apply Z.bits_inj'; intros n Hn.
  - destruct (Z.lt_ge_cases n b).
    + rewrite <- (proj1 (I1 n ltac:(lia))). apply I2. lia.
    + destruct (Z.lt_ge_cases n a).
      * rewrite <- L1 by lia. apply L2. lia.
      * rewrite !(testbit_above a) by lia. reflexivity.
  - destruct (Z.lt_ge_cases n b).
    + rewrite <- (proj2 (I1 n ltac:(lia))). apply I2. lia.
    + rewrite !(testbit_above b) by lia. reflexivity.
Qed.
