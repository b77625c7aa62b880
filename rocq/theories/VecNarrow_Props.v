(** C85: vectors with narrow components; length and normalisation. *)
From Coq Require Import Reals Lra.
From Verif Require Import Base Endian_Model Endian_Spec Endian_Proof Reflector_Fmt_Proof Vector_Model Vector_Proof VecNarrow_Model VecNarrow_Spec VecNarrow_Proof.
Local Open Scope Z_scope.

Lemma narrow_bound e x : elem_ok e -> el_bits e < 32 -> holds_number e x ->
  - 32768 <= x < 65536 /\ (el_signed e = true -> x < 32768) /\ (el_signed e = false -> 0 <= x) .
Proof. intros [H|[H|H]] L; unfold holds_number; rewrite H in *; destruct (el_signed e); cbn; lia. Qed.
Lemma narrow_lane e o x y : elem_ok e -> el_bits e < 32 -> holds_number e x -> (match o with Shr | Shl => True | _ => holds_number e y end) ->
  (narrow_defined o x y -> nlane e o x y = Some (cast e (exact_result o x y))) /\ (~ narrow_defined o x y -> nlane e o x y = None).
Proof.
  intros He L Hx Hy. destruct (narrow_bound e x He L Hx) as (Bx & Sx & Ux). unfold nlane. replace (el_bits e <? 32) with true by lia.
  assert (A : forall z, - 2 ^ 31 <= z < 2 ^ 31 -> arith true z = Some z) by (intros z Hz; unfold arith; replace ((- 2 ^ 31 <=? z) && (z <? 2 ^ 31)) with true by lia; reflexivity).
  assert (A' : forall z, 2 ^ 31 <= z -> arith true z = None) by (intros z Hz; unfold arith; replace ((- 2 ^ 31 <=? z) && (z <? 2 ^ 31)) with false by lia; reflexivity).
  destruct o; cbn [lane_op exact_result narrow_defined]; try (destruct (narrow_bound e y He L Hy) as (By & Sy & Uy)).
  - split; [intros _; rewrite A by lia; reflexivity|tauto].
  - split; [intros _; rewrite A by lia; reflexivity|tauto].
  - assert (- 2 ^ 31 <= x * y). { destruct (el_signed e) eqn:S; [specialize (Sx eq_refl); specialize (Sy eq_refl); nia|specialize (Ux eq_refl); specialize (Uy eq_refl); nia]. }
    split; intros H1; [rewrite A by lia; reflexivity|rewrite A' by lia; reflexivity].
  - split; intros H1; [|assert (y = 0) as -> by lia; reflexivity]. replace (y =? 0) with false by lia. rewrite A; [reflexivity|].
    pose proof (Z.quot_abs x y H1) as Q. pose proof (Z.quot_le_upper_bound (Z.abs x) (Z.abs y) (Z.abs x) ltac:(lia) ltac:(nia)) as Q2. pose proof (Z.quot_pos (Z.abs x) (Z.abs y) ltac:(lia) ltac:(lia)). lia.
  - split; [reflexivity|tauto].
  - split; [reflexivity|tauto].
  - split; intros H1.
    + replace ((0 <=? y) && (y <? 32)) with true by lia. rewrite Z.shiftr_div_pow2 by lia. reflexivity.
    + replace ((0 <=? y) && (y <? 32)) with false by lia. reflexivity.
  - destruct ((0 <=? y) && (y <? 32)) eqn:C; [|split; [lia|reflexivity]]. destruct (Z.leb_spec 0 x) as [P|P]; [|split; [lia|reflexivity]].
    rewrite Z.shiftl_mul_pow2 by lia. assert (0 < 2 ^ y) by (apply Z.pow_pos_nonneg; lia). split; intros H1; [rewrite A by nia; reflexivity|rewrite A' by nia; reflexivity].
Qed.
Lemma nth_holds e a i : Forall (holds_number e) a -> (i < length a)%nat -> holds_number e (component a i).
Proof. intros H Hi. rewrite Forall_forall in H. apply H, nth_In, Hi. Qed.
Lemma nbinary_spec e o a b : length a = length b ->
  (forall r, nbinary e o a b = Some r -> length r = length a /\ forall i, (i < length a)%nat -> nlane e o (component a i) (component b i) = Some (component r i)) /\
  ((exists r, nbinary e o a b = Some r) <-> forall i, (i < length a)%nat -> nlane e o (component a i) (component b i) <> None).
Proof.
  intros L. split; [intros r; apply lanes2_spec; exact L|]. split; [|apply lanes2_total; exact L].
  intros [r E] i Hi. destruct (lanes2_spec _ _ _ _ L E) as [_ H]. unfold component. rewrite (H i Hi). discriminate.
Qed.

(** 8- and 16-bit components: every operator computes in int and stores the result modulo the width of the
    component; it is undefined exactly for division by zero, for products of 2^31 and more (16-bit unsigned), and
    for shifts out of range. *)
Theorem C85_narrow_operators e o a b :
  elem_ok e -> el_bits e < 32 -> length a = length b -> Forall (holds_number e) a ->
  (match o with Shr | Shl => True | _ => Forall (holds_number e) b end) ->
  ((exists r, nbinary e o a b = Some r) <-> forall i, (i < length a)%nat -> narrow_defined o (component a i) (component b i)) /\
  forall r, nbinary e o a b = Some r -> length r = length a /\
    forall i, (i < length a)%nat -> stored e (exact_result o (component a i) (component b i)) (component r i).
Proof.
  intros He Lb L Ha Hb.
  assert (N : forall i, (i < length a)%nat -> (narrow_defined o (component a i) (component b i) -> nlane e o (component a i) (component b i) = Some (cast e (exact_result o (component a i) (component b i)))) /\
    (~ narrow_defined o (component a i) (component b i) -> nlane e o (component a i) (component b i) = None)).
  { intros i Hi. apply narrow_lane; [exact He|exact Lb|apply nth_holds; assumption|]. destruct o; try exact I; apply nth_holds; try assumption; lia. }
  destruct (nbinary_spec e o a b L) as [V D].
  assert (Dec : forall x y, narrow_defined o x y \/ ~ narrow_defined o x y) by (intros x y; destruct o; cbn; lia).
  split.
  - rewrite D. split; intros H i Hi; specialize (H i Hi); destruct (N i Hi) as [N1 N2].
    + destruct (Dec (component a i) (component b i)) as [|K]; [assumption|]. exfalso. apply H, N2, K.
    + rewrite (N1 H). discriminate.
  - intros r E. destruct (V r E) as [Lr H]. split; [exact Lr|]. intros i Hi. specialize (H i Hi). destruct (N i Hi) as [N1 N2].
    destruct (Dec (component a i) (component b i)) as [K|K]; [|rewrite (N2 K) in H; discriminate]. rewrite (N1 K) in H. injection H as <-. apply cast_stored, He.
Qed.
Print Assumptions C85_narrow_operators.
Example C85_narrow_case : let i8 := Elem true 8 in let u16 := Elem false 16 in
  nbinary i8 Add [100; -3] [100; 1] = Some [-56; -2] /\ nbinary i8 Div [-128; 7] [-1; 2] = Some [-128; 3] /\
  nbinary u16 Sub [1; 9] [2; 3] = Some [65535; 6] /\ nbinary u16 Mul [65535; 1] [65535; 1] = None /\
  nbinary (Elem false 8) Shl [255] [4] = Some [240] /\ Forall (holds_number i8) [100; -3].
Proof. repeat split; try reflexivity; repeat constructor; cbn; discriminate. Qed.

(** Unary minus stores the negative modulo the width; undefined for the smallest int32, and for unsigned 16-bit
    components above 32768. *)
Definition negate_defined (e : elem) (x : Z) : Prop :=
  (el_signed e = true -> el_bits e = 32 -> x <> - 2 ^ 31) /\ (el_signed e = false -> el_bits e = 16 -> x <= 32768).
Theorem C85_negate e a : elem_ok e -> Forall (holds_number e) a ->
  ((exists r, negate e a = Some r) <-> forall i, (i < length a)%nat -> negate_defined e (component a i)) /\
  forall r, negate e a = Some r -> length r = length a /\ forall i, (i < length a)%nat -> stored e (- component a i) (component r i).
Proof.
  intros He Ha. unfold negate, nscalar. set (b := repeat (cast e (-1)) (length a)).
  assert (Lb : length a = length b) by (unfold b; rewrite repeat_length; reflexivity).
  assert (Cb : forall i, (i < length a)%nat -> component b i = cast e (-1)).
  { intros i Hi. unfold component, b. rewrite (nth_indep _ 0 (cast e (-1))) by (rewrite repeat_length; exact Hi). apply nth_repeat. }
  assert (N : forall x, holds_number e x -> (negate_defined e x -> exists z, nlane e Mul x (cast e (-1)) = Some z /\ stored e (- x) z) /\ (~ negate_defined e x -> nlane e Mul x (cast e (-1)) = None)).
  { intros x Hx. unfold negate_defined. destruct (Z.eq_dec (el_bits e) 32) as [E32|E32].
    - unfold nlane. rewrite E32. cbn [Z.ltb]. change (32 <? 32) with false. cbv iota. unfold holds_number in Hx. rewrite E32 in Hx. cbn [lane_op]. unfold cast, arith. rewrite E32. destruct (el_signed e) eqn:S.
      + change (wrap 32 (-1)) with (2 ^ 32 - 1). change (true && (2 ^ (32 - 1) <=? 2 ^ 32 - 1)) with true. cbv iota. replace (x * (2 ^ 32 - 1 - 2 ^ 32)) with (- x) by ring.
        destruct (Z.eq_dec x (- 2 ^ 31)) as [->|NE].
        * split; [intros [K _]; exfalso; apply K; [reflexivity|reflexivity|reflexivity]|reflexivity].
        * split; [|intros K; exfalso; apply K; split; [intros _ _; exact NE|discriminate]]. intros _. replace ((- 2 ^ 31 <=? - x) && (- x <? 2 ^ 31)) with true by lia.
          exists (- x). split; [reflexivity|]. split; [unfold holds_number; rewrite S, E32; lia|]. exists 0. ring.
      + cbn [andb]. split; [|intros K; exfalso; apply K; split; [discriminate|lia]]. intros _. exists (wrap 32 (x * wrap 32 (-1))). split; [reflexivity|].
        unfold stored, holds_number. rewrite S, E32. unfold wrap. change ((-1) mod 2 ^ 32) with (2 ^ 32 - 1).
        pose proof (Z.mod_pos_bound (x * (2 ^ 32 - 1)) (2 ^ 32) ltac:(lia)). split; [lia|]. rewrite Z.mod_eq by lia. exists (x - x * (2 ^ 32 - 1) / 2 ^ 32). ring.
    - assert (L : el_bits e < 32) by (destruct He as [K|[K|K]]; lia). destruct (cast_stored e (-1) He) as [C1 C2].
      destruct (narrow_lane e Mul x (cast e (-1)) He L Hx C1) as [A B]. cbn [narrow_defined exact_result] in A, B. destruct (narrow_bound e x He L Hx) as (Bx & Sx & Ux).
      assert (Cv : cast e (-1) = if el_signed e then -1 else 2 ^ el_bits e - 1) by (unfold cast; destruct He as [K|[K|K]]; rewrite K; destruct (el_signed e); reflexivity).
      assert (Q : x * cast e (-1) < 2 ^ 31 <-> negate_defined e x).
      { unfold negate_defined. rewrite Cv. destruct (el_signed e) eqn:S; [split; [intros _; split; [intros _ K; lia|discriminate]|intros _; lia]|]. specialize (Ux eq_refl). unfold holds_number in Hx. rewrite S in Hx.
        destruct He as [K|[K|K]]; rewrite K in *; [split; [intros _; split; [discriminate|lia]|intros _; cbn in *; lia]| |lia].
        split; [intros H; split; [discriminate|intros _ _; cbn in H; lia]|intros [_ H]; specialize (H eq_refl eq_refl); cbn; lia]. }
      change ((el_signed e = true -> el_bits e = 32 -> x <> - 2 ^ 31) /\ (el_signed e = false -> el_bits e = 16 -> x <= 32768)) with (negate_defined e x). rewrite <- Q. split; [|exact B]. intros K. eexists. split; [apply A; exact K|].
      destruct (cast_stored e (x * cast e (-1)) He) as [S1 [u S2]]. split; [exact S1|]. destruct C2 as [v C2].
      exists (u + x * v). replace (cast e (x * cast e (-1)) - - x) with ((cast e (x * cast e (-1)) - x * cast e (-1)) + x * (cast e (-1) - -1)) by ring. rewrite S2, C2. ring. }
  destruct (nbinary_spec e Mul a b Lb) as [V D]. assert (Dec : forall x, negate_defined e x \/ ~ negate_defined e x).
  { intros x. unfold negate_defined. destruct (el_signed e); destruct He as [K|[K|K]]; rewrite K; destruct (Z.eq_dec x (- 2 ^ 31)); destruct (Z.le_gt_cases x 32768);
      first [left; split; intros; (discriminate || lia)|right; intros [P Q]; first [specialize (P eq_refl eq_refl); lia|specialize (Q eq_refl eq_refl); lia]]. }
  split.
  - rewrite D. split; intros H i Hi; specialize (H i Hi); destruct (N _ (nth_holds e a i Ha Hi)) as [N1 N2]; rewrite (Cb i Hi) in *.
    + destruct (Dec (component a i)) as [|K]; [assumption|]. exfalso. apply H, N2, K.
    + destruct (N1 H) as (z & -> & _). discriminate.
  - intros r E. destruct (V r E) as [Lr H]. split; [exact Lr|]. intros i Hi. specialize (H i Hi). rewrite (Cb i Hi) in H. destruct (N _ (nth_holds e a i Ha Hi)) as [N1 N2].
    destruct (Dec (component a i)) as [K|K]; [|rewrite (N2 K) in H; discriminate]. destruct (N1 K) as (z & Z1 & Z2). rewrite Z1 in H. injection H as <-. exact Z2.
Qed.
Print Assumptions C85_negate.
Theorem C85_negate_refuted : negate (Elem false 16) [40000; 1] = None /\ negate (Elem false 16) [1; 0] = Some [65535; 0] /\ negate (Elem true 8) [-128; 5] = Some [-128; -5].
Proof. repeat split. Qed.
Print Assumptions C85_negate_refuted.

(** ** Length *)
Lemma sum_bound e a : elem_ok e -> Forall (holds_number e) a -> sum_of_squares a <= Z.of_nat (length a) * (if el_bits e <? 32 then 2 ^ 32 else 2 ^ 64).
Proof.
  intros He H. induction H as [|x a Hx H IH]; [cbn; lia|]. cbn [sum_of_squares length].
  assert (x * x <= if el_bits e <? 32 then 2 ^ 32 else 2 ^ 64). { unfold holds_number in Hx. destruct He as [K|[K|K]]; rewrite K in *; destruct (el_signed e); cbn in *; nia. }
  lia.
Qed.
Lemma whole_unique a l : whole_length a l -> l = Z.sqrt (sum_of_squares a).
Proof. intros (P & Q). symmetry. apply Z.sqrt_unique. unfold Z.succ. lia. Qed.
(** The length of a vector with 8- or 16-bit components, or with 32-bit ones and a sum of squares below 2^52, is
    the whole part of the real length; it is undefined if that number does not fit the component type. *)
Theorem C85_length e a l : elem_ok e -> (length a <= 4)%nat -> Forall (holds_number e) a -> el_bits e < 32 \/ sum_of_squares a < 2 ^ 52 -> whole_length a l ->
  (holds_number e l -> Length e a = Some l) /\ (~ holds_number e l -> Length e a = None).
Proof.
  intros He L Ha Hs Hl. assert (S : sum_of_squares a < 2 ^ 52). { destruct Hs as [Hs|Hs]; [|exact Hs]. pose proof (sum_bound e a He Ha) as B. replace (el_bits e <? 32) with true in B by lia. nia. }
  pose proof (sum_nonneg a). unfold Length. rewrite squares_exact by lia. rewrite root_exact by lia. rewrite <- (whole_unique a l Hl). cbv zeta.
  destruct (fits e l) eqn:F; rewrite <- fits_ok, F; split; try reflexivity; try discriminate; intros K; exfalso; apply K; reflexivity.
Qed.
Print Assumptions C85_length.
(** In general it differs from it by at most one. *)
Theorem C85_length_close e a l L : elem_ok e -> (length a <= 4)%nat -> Forall (holds_number e) a -> whole_length a l -> Length e a = Some L -> l - 1 <= L <= l + 1 /\ holds_number e L.
Proof.
  intros He Ln Ha Hl E. unfold Length in E. cbv zeta in E. destruct (fits e (root (squares a))) eqn:F; [|discriminate]. injection E as <-. split; [|apply fits_ok; exact F].
  destruct (squares_close a Ln) as [S0 S1]. pose proof (sum_nonneg a). destruct Hl as (H1 & H2). destruct (Z.eq_dec (squares a) 0) as [Z|NZ].
  - rewrite Z. change (root 0) with 0. assert (sum_of_squares a = 0) by lia. nia.
  - pose proof (sum_bound e a He Ha) as B. assert (sum_of_squares a <= 2 ^ 66) by (destruct (el_bits e <? 32); nia). assert (l < 2 ^ 34) by nia.
    apply root_close with (S := sum_of_squares a); try assumption; lia.
Qed.
Print Assumptions C85_length_close.
(** 32-bit components can be one too long; the length of an int8 vector may not exist. *)
Theorem C85_length_refuted : let a := [8192; 8192; 67108864] in
  whole_length a 67108864 /\ Length (Elem true 32) a = Some 67108865 /\
  whole_length [127; 127] 179 /\ Length (Elem true 8) [127; 127] = None.
Proof. cbv zeta. unfold whole_length. repeat split; vm_compute; congruence. Qed.
Print Assumptions C85_length_refuted.
Example C85_length_case : whole_length [3; -4] 5 /\ Length (Elem true 16) [3; -4] = Some 5 /\ Length (Elem false 16) [65535; 0; 0; 1] = Some 65535 /\ whole_length [65535; 0; 0; 1] 65535.
Proof. unfold whole_length. repeat split; vm_compute; congruence. Qed.

(** ** Normalize *)
(** Where the length is the whole part, the normalised vector has -1, 0 and 1 only: a component keeps its sign if
    the squares of the others add up to at most twice its size, and is zero otherwise. *)
Theorem C85_normalize e a l : elem_ok e -> (length a = 2 \/ length a = 3)%nat -> Forall (holds_number e) a -> el_bits e < 32 \/ sum_of_squares a < 2 ^ 52 ->
  whole_length a l -> holds_number e l ->
  exists r, Normalize e a = Some r /\ length r = length a /\
    forall i, (i < length a)%nat -> let x := component a i in
      component r i = if sum_of_squares a - x * x <=? 2 * Z.abs x then Z.sgn x else 0.
Proof.
  intros He L Ha Hs Hl Fl. destruct (C85_length e a l He ltac:(lia) Ha Hs Hl) as [E _]. specialize (E Fl). unfold Normalize. rewrite E. destruct Hl as (H1 & H2 & H3).
  assert (Le : forall b i, (i < length b)%nat -> component b i * component b i <= sum_of_squares b).
  { clear. induction b as [|x b IH]; intros i Hi; cbn [length sum_of_squares] in *; [lia|]. pose proof (sum_nonneg b). destruct i as [|i]; [unfold component; cbn; nia|]. specialize (IH i ltac:(lia)). unfold component in *. cbn [nth]. nia. }
  destruct (Z.eqb_spec l 0) as [->|N].
  - exists a. split; [reflexivity|]. split; [reflexivity|]. intros i Hi. cbv zeta. specialize (Le a i Hi). assert (component a i = 0) as -> by nia. destruct (_ <=? _); reflexivity.
  - set (b := repeat l (length a)). assert (Lb : length a = length b) by (unfold b; rewrite repeat_length; reflexivity).
    assert (Cb : forall i, (i < length a)%nat -> component b i = l). { intros i Hi. unfold component, b. rewrite (nth_indep _ 0 l) by (rewrite repeat_length; exact Hi). apply nth_repeat. }
    assert (Q : forall i, (i < length a)%nat -> let x := component a i in Z.quot x l = if sum_of_squares a - x * x <=? 2 * Z.abs x then Z.sgn x else 0).
    { intros i Hi x. specialize (Le a i Hi). fold x in Le. assert (X : Z.abs x <= l) by nia. destruct (Z.leb_spec (sum_of_squares a - x * x) (2 * Z.abs x)) as [G|G].
      - assert (Z.abs x = l) by nia. destruct (Z.lt_trichotomy x 0) as [K|[K|K]]; [|lia|].
        + replace x with (- l) by lia. rewrite Z.quot_opp_l, Z.quot_same by lia. replace (Z.sgn (- l)) with (-1) by lia. reflexivity.
        + replace x with l by lia. rewrite Z.quot_same by lia. replace (Z.sgn l) with 1 by lia. reflexivity.
      - assert (Z.abs x < l) by nia. destruct (Z.le_gt_cases 0 x); [apply Z.quot_small; lia|]. replace x with (- - x) by ring. rewrite Z.quot_opp_l, Z.quot_small by lia. reflexivity. }
    assert (Nl : forall i, (i < length a)%nat -> nlane e Div (component a i) (component b i) = Some (Z.quot (component a i) l)).
    { intros i Hi. rewrite (Cb i Hi). pose proof (Q i Hi) as Qi. cbv zeta in Qi. pose proof (nth_holds e a i Ha Hi) as Hx. set (x := component a i) in *.
      assert (Small : -1 <= Z.quot x l <= 1 /\ (0 <= x -> 0 <= Z.quot x l)) by (rewrite Qi; destruct (_ <=? _); lia).
      assert (Hq : holds_number e (Z.quot x l)). { unfold holds_number in *. destruct He as [K|[K|K]]; rewrite K in *; destruct (el_signed e); cbn in *; lia. }
      destruct (Z.lt_ge_cases (el_bits e) 32) as [B|B].
      - destruct (narrow_lane e Div x l He B Hx Fl) as [A _]. rewrite (A N). cbn [exact_result]. rewrite cast_id by assumption. reflexivity.
      - unfold nlane. replace (el_bits e <? 32) with false by lia. cbn [lane_op]. replace (l =? 0) with false by lia. unfold arith. unfold holds_number in Hq.
        assert (K : el_bits e = 32) by (destruct He as [K|[K|K]]; lia). rewrite K in Hq. destruct (el_signed e); [replace ((- 2 ^ 31 <=? Z.quot x l) && (Z.quot x l <? 2 ^ 31)) with true by lia; reflexivity|].
        unfold wrap. rewrite Z.mod_small by lia. reflexivity. }
    destruct (nbinary_spec e Div a b Lb) as [V D]. destruct (proj2 D) as [r E2]; [intros i Hi; rewrite (Nl i Hi); discriminate|].
    destruct (V r E2) as [Lr H]. exists r. split; [exact E2|]. split; [exact Lr|]. intros i Hi. specialize (H i Hi). rewrite (Nl i Hi) in H. injection H as <-. apply Q. exact Hi.
Qed.
Print Assumptions C85_normalize.
(** So the result need not have length one: it can be zero, or longer. *)
Theorem C85_normalize_refuted : Normalize (Elem true 32) [3; 4] = Some [0; 0] /\ Normalize (Elem true 16) [1; -1; 1] = Some [1; -1; 1] /\ Normalize (Elem true 8) [-100; 14] = Some [-1; 0].
Proof. repeat split; vm_compute; reflexivity. Qed.
Print Assumptions C85_normalize_refuted.

(** ** Conversions and byte order *)
Theorem C85_convert e2 a i : elem_ok e2 -> (i < length a)%nat ->
  length (Convert e2 a) = length a /\ stored e2 (component a i) (component (Convert e2 a) i) /\ (holds_number e2 (component a i) -> component (Convert e2 a) i = component a i).
Proof.
  intros He Hi. assert (C : component (Convert e2 a) i = cast e2 (component a i)) by (unfold component, Convert; rewrite (nth_indep _ 0 (cast e2 0)) by (rewrite map_length; exact Hi); apply map_nth).
  split; [apply map_length|]. rewrite C. split; [apply cast_stored; exact He|apply cast_id; exact He].
Qed.
Print Assumptions C85_convert.
(** Between the classes the leading components are kept, and the new fourth one is zero. *)
Theorem C85_classes a : (length a = 3)%nat -> length (to_two a) = 2%nat /\ length (to_four a) = 4%nat /\ component (to_four a) 3 = 0 /\
  to_three (to_four a) = a /\ (forall i, (i < 2)%nat -> component (to_two a) i = component a i).
Proof. intros L. destruct a as [|x [|y [|z [|w a]]]]; try discriminate L. repeat split. intros i Hi. destruct i as [|[|i]]; try reflexivity; lia. Qed.
Print Assumptions C85_classes.
(** Swapping the byte order reverses the bytes of every component, and twice restores the vector; 8-bit
    components stay. *)
Theorem C85_swap e a : elem_ok e -> Forall (holds_number e) a ->
  exists r, SwapEndian e a = Some r /\ length r = length a /\ Forall (holds_number e) r /\
    (forall i, (i < length a)%nat -> let n := Z.to_nat (el_bits e / 8) in le_bytes n (component r i) = rev (le_bytes n (component a i))) /\
    SwapEndian e r = Some a.
Proof.
  intros He Ha. destruct (Z.eq_dec (el_bits e) 8) as [E8|N8].
  - assert (S : forall b, SwapEndian e b = Some b) by (intros b; destruct b; cbn [SwapEndian]; rewrite E8; reflexivity). exists a. rewrite S. repeat split; try assumption. intros i Hi. rewrite E8. reflexivity.
  - assert (S8 : el_bits e =? 8 = false) by lia. set (n := Z.to_nat (el_bits e / 8)). assert (Sz : (el_bits e / 8 = 2 \/ el_bits e / 8 = 4 \/ el_bits e / 8 = 8) /\ 256 ^ Z.of_nat n = 2 ^ el_bits e /\ 256 ^ (el_bits e / 8) = 2 ^ el_bits e) by (unfold n; destruct He as [K|[K|K]]; rewrite K; [lia|split; [auto|split; reflexivity]|split; [auto|split; reflexivity]]).
    destruct Sz as (Sz & W & W2). destruct (bits_pow e He) as [P P2].
    induction Ha as [|x a Hx Ha IH]; [exists []; cbn [SwapEndian]; rewrite S8; repeat split; [constructor|cbn; lia]|]. destruct IH as (r & R1 & R2 & R3 & R4 & R5).
    destruct (FByteswapper_involution (el_bits e / 8) (wrap (el_bits e) x) Sz) as (y & Y1 & Y2 & Y3 & Y4); [rewrite W2; apply Z.mod_pos_bound; lia|]. rewrite W2 in Y2. fold n in Y3.
    destruct (cast_stored e y He) as [C1 [u C2]].
    assert (Wy : wrap (el_bits e) (cast e y) = y). { unfold wrap. replace (cast e y) with (y + u * 2 ^ el_bits e) by lia. rewrite Z.mod_add by lia. apply Z.mod_small. exact Y2. }
    assert (Wx : cast e (wrap (el_bits e) x) = x). { apply (stored_unique e (wrap (el_bits e) x)); [exact He|apply cast_stored; exact He|]. split; [exact Hx|]. unfold wrap. exists (x / 2 ^ el_bits e). rewrite Z.mod_eq by lia. ring. }
    exists (cast e y :: r). split; [cbn [SwapEndian]; rewrite S8, Y1, R1; reflexivity|]. split; [cbn; lia|]. split; [constructor; assumption|]. split.
    + intros i Hi. destruct i as [|i]; [|apply (R4 i); cbn in Hi; lia]. unfold component. cbn [nth]. cbv zeta.
      rewrite (le_bytes_mod n (cast e y) y), Y3; [f_equal; apply le_bytes_mod|]; rewrite W; [unfold wrap; apply Z.mod_mod; lia|]. replace (cast e y) with (y + u * 2 ^ el_bits e) by lia. apply Z.mod_add. lia.
    + cbn [SwapEndian]. rewrite S8, Wy, Y4, R5, Wx. reflexivity.
Qed.
Print Assumptions C85_swap.
Example C85_swap_case : SwapEndian (Elem true 16) [1; -2; 255] = Some [256; -257; -256] /\ SwapEndian (Elem false 8) [1; 2] = Some [1; 2].
Proof. split; vm_compute; reflexivity. Qed.

(** ** Floating point components, exactly *)
Local Open Scope R_scope.
Lemma squaresR_sum a : squaresR a = sum_of_squaresR a.
Proof.
  unfold squaresR. assert (G : forall a s, fold_left (fun s x => s + x * x) a s = s + sum_of_squaresR a) by (induction a0 as [|x b IH]; intros s; cbn; [lra|rewrite IH; lra]). rewrite G. lra.
Qed.
Lemma sumR_nonneg a : 0 <= sum_of_squaresR a.
Proof. induction a as [|x a IH]; cbn; [lra|]. pose proof (Rle_0_sqr x). unfold Rsqr in *. lra. Qed.
(** The length is the root of the sum of squares, zero only for the zero vector. *)
Theorem C85_real_length a : 0 <= LengthR a /\ LengthR a * LengthR a = sum_of_squaresR a /\ (LengthR a = 0 <-> Forall (fun x => x = 0) a).
Proof.
  unfold LengthR. rewrite squaresR_sum. pose proof (sumR_nonneg a) as N. split; [apply sqrt_pos|]. split; [apply sqrt_sqrt; exact N|].
  assert (Z : sum_of_squaresR a = 0 <-> Forall (fun x => x = 0) a).
  { clear N. induction a as [|x a IH]; cbn; [split; [constructor|reflexivity]|]. pose proof (sumR_nonneg a). pose proof (Rle_0_sqr x). unfold Rsqr in *. split.
    - intros E. assert (x * x = 0) by lra. constructor; [apply Rmult_integral in H1; tauto|apply IH; lra].
    - intros F. inversion F; subst. rewrite (proj2 IH) by assumption. lra. }
  rewrite <- Z. split; [intros E; apply sqrt_eq_0; assumption|intros ->; apply sqrt_0].
Qed.
Print Assumptions C85_real_length.
(** Normalize makes the length one without turning the vector; the zero vector stays. *)
Theorem C85_real_normalize a : (Forall (fun x => x = 0) a -> NormalizeR a = a) /\
  (~ Forall (fun x => x = 0) a -> LengthR (NormalizeR a) = 1 /\ exists c, 0 < c /\ a = map (fun x => c * x) (NormalizeR a)).
Proof.
  destruct (C85_real_length a) as (L0 & L1 & L2). unfold NormalizeR. destruct (Req_EM_T (LengthR a) 0) as [E|E]; (split; [intros H|intros H]).
  - reflexivity.
  - exfalso. apply H, L2, E.
  - exfalso. apply E, L2, H.
  - set (l := LengthR a) in *. assert (0 < l) by lra. split.
    + unfold LengthR. rewrite squaresR_sum. assert (S : sum_of_squaresR (map (fun x => x / l) a) = sum_of_squaresR a / (l * l)).
      { clear L1 L2 H. clearbody l. induction a as [|x a IH]; cbn; [field; lra|]. rewrite IH. field. lra. }
      rewrite S, <- L1. replace (l * l / (l * l)) with 1 by (field; lra). apply sqrt_1.
    + exists l. split; [assumption|]. rewrite map_map. rewrite <- (map_id a) at 1. apply map_ext. intros x. field. lra.
Qed.
Print Assumptions C85_real_normalize.
Theorem C85_real_equal eps a b : length a = length b -> (equalR eps a b = true <-> forall i, (i < length a)%nat -> Rabs (nth i a 0 - nth i b 0) <= eps).
Proof.
  revert b. induction a as [|x a IH]; intros [|y b] L; try discriminate L; cbn [equalR length] in *; [split; [intros; lia|reflexivity]|].
  rewrite andb_true_iff, (IH b) by lia. assert (F : fltcmpR eps x y = true <-> Rabs (x - y) <= eps).
  { unfold fltcmpR. destruct (Rle_dec x (y + eps)), (Rle_dec (y - eps) x); split; intros H; try discriminate; try reflexivity; try (apply Rabs_le; lra); exfalso; unfold Rabs in H; destruct (Rcase_abs (x - y)); lra. }
  rewrite F. split.
  - intros [H1 H2] [|i] Hi; cbn; [exact H1|apply H2; lia].
  - intros H. split; [apply (H 0%nat); lia|]. intros i Hi. apply (H (S i)). lia.
Qed.
Print Assumptions C85_real_equal.
