(** C46: vector operators, datas/vectors.hpp and datas/vectors_simd.hpp.  [means signed o x y z]
    says what operator o does to one pair of lanes (Vector_Spec.v). *)
From Coq Require Import Reals Lra Psatz Floats.SpecFloat.
From Verif Require Import Base Float_Model Float_Proof HalfFloat_Model Simd_Model Matrix_Model Matrix_Spec Matrix_Proof Vector_Model Vector_Spec Vector_Proof.

(** *** The two-, three- and four-component integer vectors *)
(** a op b, where defined, is a vector of the same size whose lanes are the operator's results. *)
Theorem C46_operator_lanes : forall c signed o a b r,
  length a = arity c -> length b = arity c -> Forall (lane_ok signed) a -> Forall (lane_ok signed) b ->
  binary c signed o a b = Some r ->
  length r = arity c /\ Forall (lane_ok signed) r /\ forall i, (i < arity c)%nat -> means signed o (at_ a i) (at_ b i) (at_ r i).
Proof.
  intros c signed o a b r La Lb Ha Hb E. unfold binary in E.
  destruct (lanes2_spec _ _ _ _ (eq_trans La (eq_sym Lb)) E) as [Lr H]. rewrite Forall_forall in Ha, Hb.
  assert (K : forall i, (i < arity c)%nat -> means signed o (at_ a i) (at_ b i) (at_ r i) /\ lane_ok signed (at_ r i)).
  { intros i Hi. apply lane_op_means; [apply Ha, nth_In; lia|apply Hb, nth_In; lia|apply H; lia]. }
  split; [lia|]. split; [|intros i Hi; now apply K].
  apply Forall_forall. intros x Hx. apply (In_nth r x 0) in Hx as (i & Hi & <-). apply K. lia.
Qed.
Print Assumptions C46_operator_lanes.
(** a op= b stores a op b, for every class and operator except |= of the four-component class. *)
Theorem C46_compound_is_operator : forall c signed o a b, (c, o) <> (Four, Or) ->
  compound c signed o a b = binary c signed o a b.
Proof. intros [] signed [] a b H; try reflexivity. congruence. Qed.
Print Assumptions C46_compound_is_operator.
(** There, |= stores the and of the lanes; it is the or only when the operands are equal. *)
Theorem C46_or_assign_four : forall signed a b, length a = 4%nat -> length b = 4%nat ->
  compound Four signed Or a b = binary Four signed And a b /\
  (compound Four signed Or a b = binary Four signed Or a b <-> a = b).
Proof.
  intros signed a b La Lb. split; [reflexivity|]. unfold compound, binary. split.
  - intros E. apply (vec4_ext a b La Lb). intros i Hi. unfold at_.
    destruct (lanes2_total (lane_op signed And) a b ltac:(lia)) as [r Er]; [intros; cbn; discriminate|].
    destruct (lanes2_spec _ _ _ _ (eq_trans La (eq_sym Lb)) Er) as [_ H1]. rewrite E in Er.
    destruct (lanes2_spec _ _ _ _ (eq_trans La (eq_sym Lb)) Er) as [_ H2]. specialize (H1 i ltac:(lia)). specialize (H2 i ltac:(lia)).
    cbn in H1, H2. apply land_lor_same. congruence.
  - intros ->. clear La Lb. induction b as [|x b IH]; [reflexivity|]. cbn in *. rewrite IH, Z.land_diag, Z.lor_diag. reflexivity.
Qed.
Print Assumptions C46_or_assign_four.
Theorem C46_or_assign_wrong : exists a b, compound Four true Or a b = Some [0; 0; 0; 0] /\ binary Four true Or a b = Some [3; 3; 3; 3].
Proof. exists [1; 1; 1; 1], [2; 2; 2; 2]. split; reflexivity. Qed.
Print Assumptions C46_or_assign_wrong.
(** With a scalar, the two smaller classes apply it to every lane. *)
Theorem C46_scalar_lanes : forall c signed o a s r, length a = arity c -> Forall (lane_ok signed) a -> lane_ok signed s ->
  compound_scalar c signed o a s = Some r ->
  length r = arity c /\ forall i, (i < arity c)%nat -> means signed o (at_ a i) s (at_ r i).
Proof.
  intros c signed o a s r La Ha Hs E. unfold compound_scalar, binary_scalar in E.
  assert (Lb : length (broadcast c s) = arity c) by apply repeat_length.
  assert (Hb : Forall (lane_ok signed) (broadcast c s)) by (apply Forall_forall; intros x Hx; apply repeat_spec in Hx; now subst x).
  destruct (C46_operator_lanes c signed o a _ r La Lb Ha Hb E) as (L & _ & M). split; [exact L|].
  intros i Hi. specialize (M i Hi). replace (at_ (broadcast c s) i) with s in M; [exact M|].
  unfold at_, broadcast. rewrite (nth_indep _ 0 s) by (rewrite repeat_length; lia). now rewrite nth_repeat.
Qed.
Print Assumptions C46_scalar_lanes.
(** Bitwise operators are never undefined; neither are unsigned ones, division by zero and far
    shifts apart. *)
Theorem C46_defined : forall c signed o a b, length a = length b ->
  (match o with And | Or => True | Add | Sub | Mul => signed = false
   | Div => signed = false /\ (forall i, (i < length a)%nat -> at_ b i <> 0)
   | Shr => forall i, (i < length a)%nat -> 0 <= at_ b i < 32
   | Shl => signed = false /\ (forall i, (i < length a)%nat -> 0 <= at_ b i < 32) end) ->
  exists r, binary c signed o a b = Some r.
Proof.
  intros c signed o a b L H. apply lanes2_total; [exact L|]. intros i Hi. unfold lane_op. fold (at_ a i). fold (at_ b i).
  destruct o; try discriminate; try (subst signed; discriminate).
  - destruct H as [-> H]. specialize (H i Hi). destruct (Z.eqb_spec (at_ b i) 0); [contradiction|discriminate].
  - specialize (H i Hi). replace ((0 <=? at_ b i) && (at_ b i <? 32)) with true by (symmetry; apply andb_true_intro; lia). discriminate.
  - destruct H as [-> H]. specialize (H i Hi). replace ((0 <=? at_ b i) && (at_ b i <? 32)) with true by (symmetry; apply andb_true_intro; lia). discriminate.
Qed.
Print Assumptions C46_defined.
Example C46_lanes_case : compound Three true Div [7; -7; 7] [2; 2; -2] = Some [3; -3; -3] /\ compound Two false Sub [0; 5] [1; 3] = Some [2 ^ 32 - 1; 2]
  /\ compound Two true Add [2 ^ 31 - 1; 0] [1; 0] = None /\ compound_scalar Three true Shr [-8; 8; 1] 1 = Some [-4; 4; 0].
Proof. repeat split. Qed.

(** Equality, symmetry and sign. *)
Theorem C46_equality : forall c a b, length a = arity c -> length b = arity c -> (equal a b = true <-> a = b).
Proof. intros c a b La Lb. apply equal_spec. lia. Qed.
Print Assumptions C46_equality.
Theorem C46_symmetrical : forall c a, length a = arity c -> (is_symmetrical a = true <-> exists x, a = broadcast c x).
Proof.
  intros c a La.
  destruct c; cbn in La; [destruct a as [|x [|y [|]]]|destruct a as [|x [|y [|z [|]]]]|destruct a as [|x [|y [|z [|w [|]]]]]]; try discriminate;
    unfold broadcast, is_symmetrical; cbn [repeat arity]; rewrite ?andb_true_iff, ?Z.eqb_eq;
    (split; [intros H; exists x; repeat f_equal; lia|intros [v E]; injection E; intros; lia]).
Qed.
Print Assumptions C46_symmetrical.
Theorem C46_sign : forall a, (sign a = -1 <-> Exists (fun x => x < 0) a) /\ (sign a = 1 <-> Forall (fun x => 0 <= x) a).
Proof.
  intros a. unfold sign. pose proof (lor_neg a 0) as H. destruct (Z.ltb_spec (fold_left Z.lor a 0) 0) as [L|L].
  - split; [split; [intros _; destruct (proj1 H L); [lia|assumption]|reflexivity]|].
    split; [discriminate|]. intros F. exfalso. destruct (proj1 H L) as [K|K]; [lia|]. apply Exists_exists in K as (x & Hx & Lx).
    rewrite Forall_forall in F. specialize (F x Hx). lia.
  - split; [split; [discriminate|intros K; exfalso; assert (fold_left Z.lor a 0 < 0) by (apply H; now right); lia]|].
    split; [|reflexivity]. intros _. apply Forall_forall. intros x Hx. apply Z.nlt_ge. intros K.
    assert (fold_left Z.lor a 0 < 0) by (apply H; right; apply Exists_exists; eauto). lia.
Qed.
Print Assumptions C46_sign.
(** Dot is the sum of products, and Cross is perpendicular to both operands. *)
Theorem C46_dot : forall a b v, dot true a b = Some v -> length a = length b ->
  v = fold_left Z.add (map (fun p => fst p * snd p) (combine a b)) 0.
Proof.
  assert (G : forall l acc v, fold_left (fun acc p => match acc, arith true (fst p * snd p) with Some u, Some w => arith true (u + w) | _, _ => None end) l acc = Some v ->
    exists u, acc = Some u /\ v = fold_left Z.add (map (fun p : Z * Z => fst p * snd p) l) u).
  { induction l as [|p l IH]; intros acc v E; cbn [fold_left] in E; [exists v; split; [exact E|reflexivity]|].
    destruct (IH _ _ E) as (u & Eu & ->). destruct acc as [u0|]; [|discriminate]. exists u0. split; [reflexivity|].
    destruct (arith true (fst p * snd p)) as [w|] eqn:Ew; [|discriminate].
    apply arith_means in Eu as [Eu _]. apply arith_means in Ew as [Ew _]. cbn in Eu, Ew. now subst. }
  intros a b v E L. destruct a as [|x a], b as [|y b]; try (exfalso; cbn in L; lia).
  { change (Some 0 = Some v) in E. cbn. congruence. }
  unfold dot in E. destruct (G _ _ _ E) as (u & Eu & ->). apply arith_means in Eu as [Eu _]. cbn in Eu. subst u. reflexivity.
Qed.
Print Assumptions C46_dot.
Theorem C46_cross : forall x y z x' y' z' r, cross true [x; y; z] [x'; y'; z'] = Some r ->
  exists i j k, r = [i; j; k] /\ x * i + y * j + z * k = 0 /\ x' * i + y' * j + z' * k = 0 /\
    i * i + j * j + k * k = (x * x + y * y + z * z) * (x' * x' + y' * y' + z' * z') - (x * x' + y * y' + z * z') * (x * x' + y * y' + z * z').
Proof.
  intros x y z x' y' z' r E. unfold cross in E.
  assert (Mn : forall p q s t v, (match arith true (p * q), arith true (s * t) with Some u, Some w => arith true (u - w) | _, _ => None end) = Some v -> v = p * q - s * t).
  { intros p q s t v. destruct (arith true (p * q)) as [u|] eqn:Eu; [|discriminate]. destruct (arith true (s * t)) as [w|] eqn:Ew; [|discriminate].
    intros Ev. apply arith_means in Ev as [Ev _]. apply arith_means in Eu as [Eu _]. apply arith_means in Ew as [Ew _]. cbn in *. now subst. }
  cbv zeta beta in E. destruct (match arith true (y * z') with Some _ => _ | None => None end) as [i|] eqn:Ei; [|discriminate].
  destruct (match arith true (z * x') with Some _ => _ | None => None end) as [j|] eqn:Ej; [|discriminate].
  destruct (match arith true (x * y') with Some _ => _ | None => None end) as [k|] eqn:Ek; [|discriminate].
  apply Mn in Ei. apply Mn in Ej. apply Mn in Ek. injection E as <-. exists i, j, k. split; [reflexivity|]. subst. repeat split; ring.
Qed.
Print Assumptions C46_cross.
Example C46_cross_case : cross true [1; 0; 0] [0; 1; 0] = Some [0; 0; 1] /\ dot true [1; 2; 3; 4] [5; 6; 7; 8] = Some 70.
Proof. split; reflexivity. Qed.

(** *** SSE integer vectors *)
(** Every lane is the result modulo 2^32, the same for int32 and uint32 lanes. *)
Theorem C46_simd_lanes : forall o a b, words a -> words b ->
  words (icompound o a b) /\ forall i, (i < 4)%nat ->
  let x := at_ a i in let y := at_ b i in let z := at_ (icompound o a b) i in
  match o with
  | IAdd => z = (x + y) mod 2 ^ 32 /\ z = (sgn 32 x + sgn 32 y) mod 2 ^ 32
  | ISub => z = (x - y) mod 2 ^ 32 /\ z = (sgn 32 x - sgn 32 y) mod 2 ^ 32
  | IMul => z = (x * y) mod 2 ^ 32 /\ z = (sgn 32 x * sgn 32 y) mod 2 ^ 32
  | IAnd => forall k, 0 <= k -> Z.testbit z k = Z.testbit x k && Z.testbit y k
  | IOr => forall k, 0 <= k -> Z.testbit z k = Z.testbit x k || Z.testbit y k
  | IXor => forall k, 0 <= k -> Z.testbit z k = xorb (Z.testbit x k) (Z.testbit y k)
  end.
Proof.
  intros o a b Wa Wb. split.
  - apply words_of; [apply zipw_length; [apply Wa|apply Wb]|]. intros i Hi. unfold icompound, ibinary. rewrite nth_zipw by (try apply Wa; try apply Wb; lia).
    apply ilane_word; now apply at_word.
  - intros i Hi. cbv zeta. unfold icompound, ibinary. rewrite nth_zipw by (try apply Wa; try apply Wb; lia).
    pose proof (at_word a i Wa Hi) as Hx. pose proof (at_word b i Wb Hi) as Hy. set (x := at_ a i) in *. set (y := at_ b i) in *. clearbody x y.
    destruct o; cbn [ilane].
    + split; [reflexivity|]. rewrite Z.add_mod by lia. rewrite !wrap_sgn_eq by assumption. reflexivity.
    + split; [reflexivity|]. rewrite Zminus_mod. rewrite !wrap_sgn_eq by assumption. reflexivity.
    + split; [reflexivity|]. rewrite Z.mul_mod by lia. rewrite !wrap_sgn_eq by assumption. reflexivity.
    + intros k Hk. apply Z.land_spec.
    + intros k Hk. apply Z.lor_spec.
    + intros k Hk. apply Z.lxor_spec.
Qed.
Print Assumptions C46_simd_lanes.
(** Shifts: a count of 0..31 shifts every lane, the arithmetic one dividing the signed value; any
    other count leaves zero, or copies of the sign. *)
Theorem C46_simd_shifts : forall a n i, words a -> - 2 ^ 31 <= n < 2 ^ 31 -> (i < 4)%nat -> let x := at_ a i in
  (0 <= n < 32 -> at_ (ishl a n) i = (x * 2 ^ n) mod 2 ^ 32 /\ at_ (ishr false a n) i = x / 2 ^ n /\ sgn 32 (at_ (ishr true a n) i) = sgn 32 x / 2 ^ n) /\
  (n < 0 \/ 32 <= n -> at_ (ishl a n) i = 0 /\ at_ (ishr false a n) i = 0 /\ sgn 32 (at_ (ishr true a n) i) = if Z.testbit x 31 then -1 else 0).
Proof.
  intros a n i Wa Hn Hi. cbv zeta. pose proof (at_word a i Wa Hi) as Hx.
  assert (A : forall f, at_ (map f a) i = f (at_ a i)).
  { intros f. unfold at_. destruct Wa as [L _]. rewrite (nth_indep (map f a) 0 (f 0)) by (rewrite map_length; lia). apply map_nth. }
  unfold ishl, ishr. rewrite !A. set (x := at_ a i) in *. clearbody x. unfold is_word in Hx.
  pose proof (sgn_range 32 x ltac:(lia)) as Sx. unfold is_sword in Sx. change (32 - 1) with 31 in Sx.
  split; intros H.
  - assert (C : count n = n) by (apply wrap_small; change (2 ^ 32) with 4294967296; lia). rewrite C. replace (n <? 32) with true by lia.
    split; [unfold wrap; now rewrite Z.shiftl_mul_pow2 by lia|]. split; [apply Z.shiftr_div_pow2; lia|].
    rewrite Z.min_l by lia. rewrite wrap_sgn by lia. rewrite Z.shiftr_div_pow2 by lia. apply sgn_small; [lia|].
    assert (P := pow2_pos n ltac:(lia)). unfold is_sword. change (32 - 1) with 31.
    split; [apply Z.div_le_lower_bound; nia|apply Z.div_lt_upper_bound; nia].
  - assert (C : 32 <= count n).
    { unfold count, wrap. change (2 ^ 32) with 4294967296. change (2 ^ 31) with 2147483648 in Hn. lia. }
    replace (count n <? 32) with false by lia. split; [reflexivity|]. split; [reflexivity|]. rewrite Z.min_r by lia. rewrite wrap_sgn by lia.
    rewrite Z.shiftr_div_pow2 by lia.
    assert (T : Z.testbit x 31 = (2 ^ 31 <=? x)).
    { rewrite Z.testbit_odd, Z.shiftr_div_pow2 by lia. change (2 ^ 31) with 2147483648. change (2 ^ 32) with 4294967296 in Hx.
      destruct (Z.leb_spec 2147483648 x); [replace (x / 2147483648) with 1 by lia|replace (x / 2147483648) with 0 by lia]; reflexivity. }
    rewrite T. unfold sgn at 2. rewrite wrap_small by lia. change (32 - 1) with 31.
    change (2 ^ 31) with 2147483648 in *. change (2 ^ 32) with 4294967296 in *.
    destruct (Z.ltb_spec x 2147483648); destruct (Z.leb_spec 2147483648 x); try lia.
    + replace (x / 2147483648) with 0 by lia. reflexivity.
    + replace ((x - 4294967296) / 2147483648) with (-1) by lia. reflexivity.
Qed.
Print Assumptions C46_simd_shifts.
Theorem C46_simd_not : forall a, words a -> words (inot a) /\ (forall i, (i < 4)%nat -> at_ (inot a) i = 2 ^ 32 - 1 - at_ a i) /\ inot (inot a) = a.
Proof.
  assert (N : forall a, words a -> forall i, (i < 4)%nat -> at_ (inot a) i = 2 ^ 32 - 1 - at_ a i).
  { intros a Wa i Hi. unfold inot, ibinary. rewrite nth_zipw by (try apply Wa; try reflexivity; lia). cbn [ilane].
    replace (at_ (iall 0xffffffff) i) with (2 ^ 32 - 1) by (destruct i as [|[|[|[|]]]]; [reflexivity..|lia]).
    apply lxor_all. now apply at_word. }
  intros a Wa. assert (L : forall b, words b -> words (inot b)).
  { intros b Wb. apply words_of; [apply zipw_length; [apply Wb|reflexivity]|]. intros i Hi. rewrite N by assumption. pose proof (at_word b i Wb Hi). unfold is_word in *. lia. }
  split; [now apply L|]. split; [now apply N|].
  apply vec4_ext; [apply L, L, Wa|apply Wa|]. intros i Hi. rewrite N by (try apply L; assumption). rewrite N by assumption. lia.
Qed.
Print Assumptions C46_simd_not.
Theorem C46_simd_equality : forall a b, words a -> words b -> (iequal a b = true <-> a = b).
Proof.
  intros a b [La Ha] [Lb Hb].
  destruct a as [|a0 [|a1 [|a2 [|a3 [|]]]]]; try discriminate. destruct b as [|b0 [|b1 [|b2 [|b3 [|]]]]]; try discriminate.
  unfold iequal. cbn [combine forallb fst snd].
  assert (T : forall x y, Z.testbit (lcmpeq x y) 31 = (x =? y)) by (intros x y; unfold lcmpeq; destruct (x =? y); reflexivity).
  rewrite !T, !andb_true_iff, !Z.eqb_eq. split; [intros (-> & -> & -> & -> & _); reflexivity|intros E; injection E; intros; subst; tauto].
Qed.
Print Assumptions C46_simd_equality.
Example C46_simd_case : ibinary IAdd [2 ^ 32 - 1; 1; 2; 3] [1; 1; 1; 1] = [0; 2; 3; 4] /\ ishr true [2 ^ 32 - 4; 4; 0; 1] 2 = [2 ^ 32 - 1; 1; 0; 0] /\ inot [0; 1; 2; 3] = [4294967295; 4294967294; 4294967293; 4294967292].
Proof. repeat split. Qed.

(** Conversions.  Signed lanes below 2^24 in size become that float, and back; the conversion to
    integers rounds to the nearest one, halves to even. *)
Theorem C46_to_float_exact : forall a i, words a -> (i < 4)%nat -> Z.abs (sgn 32 (at_ a i)) < 2 ^ 24 ->
  finite (at_ (to_float a) i) /\ val (at_ (to_float a) i) = sgn 32 (at_ a i) * 2 ^ 149.
Proof.
  intros a i [L _] Hi Hz. unfold to_float, at_ in *. rewrite (nth_indep _ 0 ((fun x => to_bits (of_int (sgn 32 x))) 0)) by (rewrite map_length; lia).
  rewrite (map_nth (fun x => to_bits (of_int (sgn 32 x)))). now apply of_int_val.
Qed.
Print Assumptions C46_to_float_exact.
Theorem C46_to_int_nearest : forall a i, words a -> (i < 4)%nat -> let w := at_ a i in
  finite w -> - 2 ^ 31 * 2 ^ 149 <= val w <= (2 ^ 31 - 1) * 2 ^ 149 ->
  let r := sgn 32 (at_ (to_int a) i) in
  2 * Z.abs (val w - r * 2 ^ 149) <= 2 ^ 149 /\ (2 * Z.abs (val w - r * 2 ^ 149) = 2 ^ 149 -> Z.even r = true).
Proof.
  intros a i [L _] Hi w F [Lo Hi'] r. subst r. unfold to_int, at_. rewrite (nth_indep _ 0 (cvt 0)) by (rewrite map_length; lia).
  rewrite map_nth. destruct (cvt_nearest w F Lo Hi') as (A & B & _). split; assumption.
Qed.
Print Assumptions C46_to_int_nearest.
Theorem C46_float_roundtrip : forall a, words a -> (forall i, (i < 4)%nat -> Z.abs (sgn 32 (at_ a i)) < 2 ^ 24) -> to_int (to_float a) = a.
Proof.
  intros a Wa Hz. apply vec4_ext; [unfold to_int, to_float; rewrite !map_length; apply Wa|apply Wa|]. intros i Hi.
  destruct (C46_to_float_exact a i Wa Hi (Hz i Hi)) as [F V]. pose proof (at_word a i Wa Hi) as Hx.
  assert (T : at_ (to_int (to_float a)) i = cvt (at_ (to_float a) i)).
  { unfold to_int, at_. rewrite (nth_indep _ 0 (cvt 0)) by (unfold to_float; rewrite !map_length; destruct Wa; lia). apply map_nth. }
  rewrite T. specialize (Hz i Hi). set (x := sgn 32 (at_ a i)) in *. set (w := at_ (to_float a) i) in *.
  destruct (cvt_nearest w F) as (A & _ & Wd).
  - rewrite V. apply Z.mul_le_mono_nonneg_r; [apply Z.pow_nonneg; lia|change (2 ^ 24) with 16777216 in Hz; change (2 ^ 31) with 2147483648; lia].
  - rewrite V. apply Z.mul_le_mono_nonneg_r; [apply Z.pow_nonneg; lia|change (2 ^ 24) with 16777216 in Hz; change (2 ^ 31) with 2147483648; lia].
  - rewrite V in A. rewrite <- Z.mul_sub_distr_r, Z.abs_mul in A. change (Z.abs (2 ^ 149)) with (2 ^ 149) in A.
    assert (E : sgn 32 (cvt w) = x).
    { assert (P : 0 < 2 ^ 149) by reflexivity. set (p := 2 ^ 149) in *. clearbody p. set (d := Z.abs (x - sgn 32 (cvt w))) in *.
      assert (d = 0) by nia. lia. }
    rewrite <- (wrap_sgn_eq (cvt w) Wd), E. unfold x. now apply wrap_sgn_eq.
Qed.
Print Assumptions C46_float_roundtrip.
(** An unsigned lane of 2^31 or more becomes a negative float (the conversion reads it as signed). *)
Theorem C46_unsigned_to_float_wrong : exists a, words a /\ at_ a 0 = 2 ^ 32 - 1 /\ val (at_ (to_float a) 0) = -1 * 2 ^ 149.
Proof.
  exists [2 ^ 32 - 1; 0; 0; 0]. split; [split; [reflexivity|repeat constructor; unfold is_word; lia]|]. split; [reflexivity|]. vm_compute. reflexivity.
Qed.
Print Assumptions C46_unsigned_to_float_wrong.

(** Not a number, infinity and everything that rounds to 2^31 or more (or below -2^31) become 0x80000000. *)
Theorem C46_to_int_out_of_range : forall a i, words a -> (i < 4)%nat -> let w := at_ a i in
  (~ finite w \/ (2 ^ 31) * 2 ^ 149 <= val w \/ val w < - (2 ^ 31 + 1) * 2 ^ 149) -> at_ (to_int a) i = 2 ^ 31.
Proof.
  intros a i Wa Hi w H. unfold to_int, at_. rewrite (nth_indep _ 0 (cvt 0)) by (rewrite map_length; destruct Wa; lia).
  rewrite map_nth. apply cvt_out; [|exact H]. apply (at_word a i Wa Hi).
Qed.
Print Assumptions C46_to_int_out_of_range.
Example C46_to_int_case : words [0x4f000000; 0x7f800000; 0x7fc00000; 0xcf000001] /\ to_int [0x4f000000; 0x7f800000; 0x7fc00000; 0xcf000001] = [2 ^ 31; 2 ^ 31; 2 ^ 31; 2 ^ 31].
Proof. split; [split; [reflexivity|repeat constructor; unfold is_word; lia]|vm_compute; reflexivity]. Qed.
(** the complement of a float vector turns every bit *)
Theorem C46_float_not : forall a, words a -> words (fnot a) /\ (forall i, (i < 4)%nat -> at_ (fnot a) i = 2 ^ 32 - 1 - at_ a i) /\ fnot (fnot a) = a.
Proof. exact C46_simd_not. Qed.
Print Assumptions C46_float_not.

(** *** Float vectors *)
(** Sign is -1 exactly when a sign bit is set, so also for a negative zero. *)
Theorem C46_float_sign : forall a, (fsign a = -1 <-> exists w, In w a /\ Z.testbit w 31 = true) /\ fsign [0x80000000; 0; 0; 0] = -1 /\ val 0x80000000 = 0.
Proof.
  intros a. split; [|split; reflexivity]. unfold fsign. destruct (existsb _ a) eqn:E.
  - split; [intros _|reflexivity]. apply existsb_exists in E. exact E.
  - split; [discriminate|]. intros (w & Hw & T). exfalso. assert (existsb (fun w => Z.testbit w 31) a = true) by (apply existsb_exists; eauto). congruence.
Qed.
Print Assumptions C46_float_sign.

Local Open Scope R_scope.
Ltac dec := repeat match goal with |- context [Rle_dec ?a ?b] => destruct (Rle_dec a b) | |- context [Rlt_dec ?a ?b] => destruct (Rlt_dec a b) end.
(** In exact arithmetic two vectors are == when every pair of lanes is within epsilon... *)
Theorem C46_float_equality : forall (eps : R) (a b : vecR),
  veq (eps : reals) a b = true <-> within eps (X a) (X b) /\ within eps (Y a) (Y b) /\ within eps (Z_ a) (Z_ b) /\ within eps (W a) (W b).
Proof.
  intros eps [x y z w] [x' y' z' w']. change R in x, y, z, w, x', y', z', w'. unfold within. cbn.
  assert (A : forall u v : R, ((if Rle_dec u (v + eps) then true else false) && (if Rle_dec (v - eps) u then true else false))%bool = true <-> Rabs (u - v) <= eps).
  { intros u v. unfold Rabs. destruct (Rcase_abs (u - v)); dec; cbn; split; intros; try discriminate; try reflexivity; lra. }
  unfold veq, Compare, all_lanes. cbn. rewrite !andb_true_iff in *. rewrite <- !A. rewrite !andb_true_iff. tauto.
Qed.
Print Assumptions C46_float_equality.
(** ... so it is symmetric there, but not with single-precision lanes: 2+2^-21 and 2+2^-22. *)
Theorem C46_float_equality_asymmetric : exists x y : f32,
  let a := all4 (K:=singles) x in let b := all4 (K:=singles) y in let eps := of_bits 0x34000000 in
  veq (K:=singles) eps a b = true /\ veq (K:=singles) eps b a = false.
Proof. exists (of_bits 0x40000002), (of_bits 0x40000001). split; vm_compute; reflexivity. Qed.
Print Assumptions C46_float_equality_asymmetric.
(** <, > compare every lane; <=, >= hold exactly when they do so strictly in every lane or when the vectors are ==. *)
Theorem C46_float_order : forall (eps : R) (a b : vecR),
  let less (u v : vecR) := X u < X v /\ Y u < Y v /\ Z_ u < Z_ v /\ W u < W v in
  let close := within eps (X a) (X b) /\ within eps (Y a) (Y b) /\ within eps (Z_ a) (Z_ b) /\ within eps (W a) (W b) in
  (vlt a b = true <-> less a b) /\ (vgt a b = true <-> less b a) /\
  (vle (eps : reals) a b = true <-> less a b \/ close) /\ (vge (eps : reals) a b = true <-> less b a \/ close).
Proof.
  intros eps a b less close.
  assert (L : forall u v : vecR, vlt u v = true <-> less u v).
  { intros [x y z w] [x' y' z' w']. change R in x, y, z, w, x', y', z', w'. unfold less, vlt, all_lanes. cbn. dec; cbn; split; intros; try discriminate; try reflexivity; try tauto. }
  assert (G : vgt a b = vlt b a) by (destruct a, b; reflexivity).
  pose proof (C46_float_equality eps a b) as E. fold close in E.
  split; [apply L|]. rewrite G. split; [apply L|]. unfold vle, vge. rewrite G, !orb_true_iff, !L, E. tauto.
Qed.
Print Assumptions C46_float_order.
(** So <= is false when some lanes are less and the others equal. *)
Theorem C46_float_le_wrong : exists a b : vecR, X a <= X b /\ Y a <= Y b /\ Z_ a <= Z_ b /\ W a <= W b /\ vle (/ 8388608 : reals) a b = false.
Proof.
  exists (VR 1 1 1 1), (VR 1 2 2 2). unfold vle, vlt, veq, Compare, all_lanes. cbn. repeat split; try lra.
  dec; try reflexivity; exfalso; lra.
Qed.
Print Assumptions C46_float_le_wrong.
(** IsSymetrical never looks at the fourth lane: it holds exactly when Y-Z is within epsilon and
    2X is within epsilon of Y+Z. *)
Theorem C46_float_symmetrical : forall (eps : R) (a : vecR),
  IsSymetrical (eps : reals) a = true <-> within eps (X a + X a) (Y a + Z_ a) /\ within eps (Y a) (Z_ a).
Proof.
  intros eps [x y z w]. change R in x, y, z, w. unfold within. unfold IsSymetrical, Compare, all_lanes. cbn.
  unfold Rabs. destruct (Rcase_abs (x + x - (y + z))), (Rcase_abs (y - z)); dec; cbn; split; intros; try discriminate; try reflexivity; try lra.
Qed.
Print Assumptions C46_float_symmetrical.
Theorem C46_float_symmetrical_wrong : forall w : R, IsSymetrical (/ 8388608 : reals) (VR 1 1 1 w) = true.
Proof. intros w. apply C46_float_symmetrical. unfold within. cbn. split; replace (_ - _) with 0 by ring; rewrite Rabs_R0; lra. Qed.
Print Assumptions C46_float_symmetrical_wrong.

(** Cross is the cross product with fourth lane 0, perpendicular to both operands. *)
Theorem C46_float_cross : forall a b : vecR, let c := Cross a b in
  X c = Y a * Z_ b - Z_ a * Y b /\ Y c = Z_ a * X b - X a * Z_ b /\ Z_ c = X a * Y b - Y a * X b /\ W c = 0 /\ Dot a c = 0 /\ Dot b c = 0.
Proof. intros [x y z w] [x' y' z' w']. change R in x, y, z, w, x', y', z', w'. cbv zeta. repeat split; cbn; ring. Qed.
Print Assumptions C46_float_cross.
(** Normalized has length 1 and the direction of the vector; only the zero vector is returned as is. *)
Theorem C46_float_normalized : forall a : vecR, Dot a a <> 0 ->
  Length (Normalized a) = 1 /\ Normalized a = vdivs a (Length a) /\ 0 < Length a.
Proof.
  intros a H. assert (P : 0 <= Dot a a). { destruct a as [x y z w]. cbn. change R in x, y, z, w. nra. }
  assert (L : 0 < Length a) by (apply sqrt_lt_R0; cbn in *; lra).
  assert (N : Normalized a = vdivs a (Length a)).
  { unfold Normalized. cbv zeta. replace (is_zero (Length a)) with false; [reflexivity|]. unfold is_zero. cbn [s_le reals s_int].
    destruct (Rle_dec (Length a) 0) as [G|G]; [exfalso; apply (Rlt_irrefl 0); apply Rlt_le_trans with (Length a); assumption|reflexivity]. }
  split; [|split; assumption]. rewrite N. assert (S : Length a * Length a = Dot a a) by (apply sqrt_sqrt; exact P).
  change (Length (vdivs a (Length a))) with (sqrt (Dot (vdivs a (Length a)) (vdivs a (Length a)))).
  set (l := Length a) in *. clearbody l. destruct a as [x y z w]. cbn in S. change R in x, y, z, w, l. cbn.
  replace (_ + _ + (_ + _)) with ((x * x + y * y + (z * z + w * w)) / (l * l)) by (field; lra). rewrite <- S.
  replace (l * l / (l * l)) with 1 by (field; lra). apply sqrt_1.
Qed.
Print Assumptions C46_float_normalized.
Theorem C46_float_normalized_zero : forall a : vecR, Dot a a = 0 -> Normalized a = a.
Proof.
  intros a H. unfold Normalized. cbv zeta. assert (L : Length a = 0) by (unfold Length; cbn in *; rewrite H; apply sqrt_0).
  rewrite L. unfold is_zero. cbn. dec; try reflexivity; exfalso; lra.
Qed.
Print Assumptions C46_float_normalized_zero.
(** QComputeElement completes a quaternion whose missing component is zero to a unit one... *)
Theorem C46_quat_element : forall i (a : vecR), (i < 4)%nat -> comp a i = 0 -> Dot a a <= 1 ->
  qnorm2 (QComputeElement i a) = 1 /\ 0 <= comp (QComputeElement i a) i /\ QComputeElementVar i a = QComputeElement i a.
Proof.
  intros i a Hi H0 H1. assert (S : sqrt (1 - Dot a a) * sqrt (1 - Dot a a) = 1 - Dot a a) by (apply sqrt_sqrt; cbn in *; lra).
  pose proof (sqrt_pos (1 - Dot a a)) as P.
  assert (E : QComputeElement i a = set_lane a i (sqrt (1 - Dot a a) : reals)) by reflexivity.
  assert (E2 : QComputeElementVar i a = set_lane a i (sqrt (1 - Dot a a) : reals)) by reflexivity.
  rewrite E2, E. clear E E2. set (r := sqrt (1 - Dot a a)) in *. clearbody r. destruct a as [x y z w]. cbn in S. unfold qnorm2.
  destruct i as [|[|[|[|]]]]; [| | | |lia]; cbn in H0 |- *; rewrite H0 in S; (split; [lra|split; [exact P|reflexivity]]).
Qed.
Print Assumptions C46_quat_element.
(** ... but the old value of that component is counted, so another one spoils the result. *)
Theorem C46_quat_element_stale : exists a : vecR, comp a 3 <> 0 /\ Dot a a <= 1 /\ qnorm2 (QComputeElement 3 a) <> 1.
Proof.
  exists (VR 0 0 0 (3/5)). cbn. split; [lra|]. split; [lra|]. unfold qnorm2. cbn.
  replace (1 - (0 * 0 + 0 * 0 + (0 * 0 + 3 / 5 * (3 / 5)))) with ((4/5) * (4/5)) by lra. rewrite R_sqrt.sqrt_square by lra. lra.
Qed.
Print Assumptions C46_quat_element_stale.
