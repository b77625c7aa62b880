From Verif Require Import Base Endian_Model Endian_Spec Endian_Proof Vector_Model Vector_Proof VecNarrow_Model VecNarrow_Spec.

Lemma fits_ok e z : fits e z = true <-> holds_number e z.
Proof. unfold fits, holds_number. destruct (el_signed e); lia. Qed.
Lemma bits_pow e : elem_ok e -> 0 < 2 ^ (el_bits e - 1) /\ 2 ^ el_bits e = 2 * 2 ^ (el_bits e - 1).
Proof. intros [->|[->| ->]]; cbn; lia. Qed.
Lemma cast_stored e v : elem_ok e -> stored e v (cast e v).
Proof.
  intros H. destruct (bits_pow e H) as [P Q]. unfold stored, holds_number, cast, wrap.
  pose proof (Z.mod_pos_bound v (2 ^ el_bits e) ltac:(lia)) as B. pose proof (Z.div_mod v (2 ^ el_bits e) ltac:(lia)) as D.
  destruct (el_signed e); cbn [andb].
  - destruct (Z.leb_spec (2 ^ (el_bits e - 1)) (v mod 2 ^ el_bits e)).
    + split; [lia|]. exists (- (v / 2 ^ el_bits e) - 1). rewrite D at 2. ring.
    + split; [lia|]. exists (- (v / 2 ^ el_bits e)). rewrite D at 2. ring.
  - split; [lia|]. exists (- (v / 2 ^ el_bits e)). rewrite D at 2. ring.
Qed.
Lemma stored_unique e v z z' : elem_ok e -> stored e v z -> stored e v z' -> z = z'.
Proof.
  intros H [A [p Hp]] [B [q Hq]]. destruct (bits_pow e H) as [P Q]. unfold holds_number in *.
  assert (z - z' = (p - q) * 2 ^ el_bits e) by lia. assert (p - q = 0) by (destruct (el_signed e); nia). lia.
Qed.
Lemma stored_self e z : elem_ok e -> holds_number e z -> stored e z z.
Proof. intros _ H. split; [exact H|]. exists 0. ring. Qed.
Lemma cast_id e z : elem_ok e -> holds_number e z -> cast e z = z.
Proof. intros H A. apply (stored_unique e z); [exact H|apply cast_stored; exact H|apply stored_self; assumption]. Qed.

(** ** double precision *)
Lemma dbl_small z : z < 2 ^ 53 -> dbl z = z.
Proof. intros H. unfold dbl. replace (z <? 2 ^ 53) with true by lia. reflexivity. Qed.
Lemma dbl_close z : 0 <= z -> 0 <= dbl z /\ 2 ^ 53 * Z.abs (dbl z - z) <= z.
Proof.
  intros H. unfold dbl. destruct (Z.ltb_spec z (2 ^ 53)) as [L|L]; [rewrite Z.sub_diag; split; [exact H|exact H]|].
  destruct (Z.log2_spec z ltac:(lia)) as [A _]. assert (52 <= Z.log2 z) by (apply Z.log2_le_pow2; lia).
  set (u := 2 ^ (Z.log2 z - 52)). assert (U : 0 < u) by (apply Z.pow_pos_nonneg; lia).
  assert (UZ : 2 ^ 52 * u <= z) by (unfold u; rewrite <- Z.pow_add_r by lia; replace (52 + (Z.log2 z - 52)) with (Z.log2 z) by lia; exact A).
  pose proof (Z.div_mod z u ltac:(lia)) as D. pose proof (Z.mod_pos_bound z u U) as M. set (q := z / u) in *. set (r := z mod u) in *.
  assert (0 <= q) by (apply Z.div_pos; lia). clearbody q r u. clear A.
  destruct ((u <? 2 * r) || ((u =? 2 * r) && Z.odd q)) eqn:C.
  - assert (u <= 2 * r) by lia. split; [nia|]. replace ((q + 1) * u - z) with (u - r) by nia. rewrite Z.abs_eq by lia. lia.
  - assert (2 * r <= u) by (destruct (Z.ltb_spec u (2 * r)); [discriminate|assumption]). split; [nia|]. replace (q * u - z) with (- r) by nia. rewrite Z.abs_opp, Z.abs_eq by lia. lia.
Qed.
Lemma squares_close_from : forall r s S j, 1 <= j -> j + Z.of_nat (length r) <= 1000 -> 0 <= s -> 0 <= S -> 2 ^ 53 * Z.abs (s - S) <= (2 * j - 1) * S ->
  let s' := fold_left (fun s y => dbl (s + pow2 y)) r s in let S' := S + sum_of_squares r in
  0 <= s' /\ 2 ^ 53 * Z.abs (s' - S') <= (2 * (j + Z.of_nat (length r)) - 1) * S'.
Proof.
  induction r as [|x r IH]; intros s S j J1 J2 Hs HS H; cbn [fold_left sum_of_squares length] in *.
  - rewrite !Z.add_0_r. split; assumption.
  - destruct (dbl_close (x * x) ltac:(nia)) as [P1 P2]. change (dbl (x * x)) with (pow2 x) in *. set (p := pow2 x) in *. clearbody p.
    destruct (dbl_close (s + p) ltac:(lia)) as [Q1 Q2]. set (t := dbl (s + p)) in *. clearbody t.
    assert (X : 0 <= x * x) by nia. set (y := x * x) in *. clearbody y.
    assert (T : 2 ^ 53 * Z.abs (t - (S + y)) <= (2 * (j + 1) - 1) * (S + y)).
    { assert (A1 : s + p <= 2 * (S + y)). { assert (Z.abs (s - S) <= S) by nia. assert (Z.abs (p - y) <= y) by lia. lia. }
      assert (A2 : 2 ^ 53 * Z.abs (t - (S + y)) <= 2 ^ 53 * Z.abs (t - (s + p)) + 2 ^ 53 * Z.abs (s - S) + 2 ^ 53 * Z.abs (p - y)) by lia.
      assert (A3 : y <= (2 * j - 1) * y) by nia. nia. }
    specialize (IH t (S + y) (j + 1) ltac:(lia) ltac:(lia) Q1 ltac:(lia) T). cbv zeta in IH. rewrite Z.add_assoc.
    replace (j + Z.of_nat (Datatypes.S (length r))) with (j + 1 + Z.of_nat (length r)) by lia. exact IH.
Qed.
Lemma sum_nonneg a : 0 <= sum_of_squares a.
Proof. induction a; cbn [sum_of_squares]; nia. Qed.
Lemma squares_close a : (length a <= 4)%nat -> 0 <= squares a /\ 2 ^ 53 * Z.abs (squares a - sum_of_squares a) <= 7 * sum_of_squares a.
Proof.
  intros L. destruct a as [|x r]; [cbn; lia|]. cbn [squares sum_of_squares length] in *.
  destruct (dbl_close (x * x) ltac:(nia)) as [P1 P2]. change (dbl (x * x)) with (pow2 x) in *.
  destruct (squares_close_from r (pow2 x) (x * x) 1 ltac:(lia) ltac:(lia) P1 ltac:(nia) ltac:(lia)) as [A B]. cbv zeta in *. split; [exact A|].
  pose proof (sum_nonneg r). assert (0 <= x * x + sum_of_squares r) by nia. nia.
Qed.
Lemma squares_exact a : sum_of_squares a < 2 ^ 53 -> squares a = sum_of_squares a.
Proof.
  assert (G : forall r s, 0 <= s -> s + sum_of_squares r < 2 ^ 53 -> fold_left (fun s y => dbl (s + pow2 y)) r s = s + sum_of_squares r).
  { induction r as [|x r IH]; intros s Hs H; cbn [fold_left sum_of_squares] in *; [lia|]. pose proof (sum_nonneg r).
    assert (0 <= x * x) by nia. unfold pow2. rewrite (dbl_small (x * x)), dbl_small by lia. rewrite IH by lia. lia. }
  destruct a as [|x r]; [reflexivity|]. cbn [squares sum_of_squares]. intros H. pose proof (sum_nonneg r). unfold pow2 at 2. rewrite (dbl_small (x * x)) by lia. apply G; [nia|exact H].
Qed.

(** ** the root *)
Lemma root_parts n : 0 < n < 2 ^ 100 -> exists k s r, 1 <= k /\ 0 <= s /\ s * s <= n * (2 ^ k * 2 ^ k) < (s + 1) * (s + 1) /\
  (r = s \/ r = s + 1 /\ s < n * (2 ^ k * 2 ^ k) - s * s) /\ root n = r / 2 ^ k /\ 2 ^ 52 <= Z.sqrt n * 2 ^ k < 2 ^ 53.
Proof.
  intros H. destruct (Z.sqrt_spec n ltac:(lia)) as [A B]. assert (M : 0 < Z.sqrt n) by (apply Z.sqrt_pos; lia).
  destruct (Z.log2_spec (Z.sqrt n) M) as [C D]. set (L := Z.log2 (Z.sqrt n)) in *. assert (L0 : 0 <= L) by apply Z.log2_nonneg.
  assert (L1 : L < 50). { apply (Z.pow_lt_mono_r_iff 2); [lia|lia|]. assert (Z.sqrt n < 2 ^ 50) by nia. lia. }
  set (k := 52 - L). assert (K : 1 <= k) by lia. assert (F : 4 ^ k = 2 ^ k * 2 ^ k) by (change 4 with (2 * 2); apply Z.pow_mul_l).
  assert (PK : 0 < 2 ^ k) by (apply Z.pow_pos_nonneg; lia).
  exists k, (Z.sqrt (n * 4 ^ k)), (if Z.sqrt (n * 4 ^ k) <? n * 4 ^ k - Z.sqrt (n * 4 ^ k) * Z.sqrt (n * 4 ^ k) then Z.sqrt (n * 4 ^ k) + 1 else Z.sqrt (n * 4 ^ k)).
  destruct (Z.sqrt_spec (n * 4 ^ k) ltac:(nia)) as [E1 E2]. split; [exact K|]. split; [apply Z.sqrt_nonneg|]. rewrite <- F.
  split; [split; [exact E1|replace (Z.sqrt (n * 4 ^ k) + 1) with (Z.succ (Z.sqrt (n * 4 ^ k))) by lia; exact E2]|]. split; [destruct (Z.ltb_spec (Z.sqrt (n * 4 ^ k)) (n * 4 ^ k - Z.sqrt (n * 4 ^ k) * Z.sqrt (n * 4 ^ k))); [right; split; [reflexivity|assumption]|left; reflexivity]|].
  split; [unfold root; replace (n =? 0) with false by lia; fold L; fold k; reflexivity|].
  assert (P1 : 2 ^ 52 = 2 ^ L * 2 ^ k) by (rewrite <- Z.pow_add_r by lia; f_equal; lia). assert (P2 : 2 ^ 53 = 2 ^ Z.succ L * 2 ^ k) by (rewrite <- Z.pow_add_r by lia; f_equal; lia).
  rewrite P1, P2. split; [apply Z.mul_le_mono_nonneg_r; lia|apply Z.mul_lt_mono_pos_r; lia].
Qed.
Lemma root_exact n : 0 <= n < 2 ^ 52 -> root n = Z.sqrt n.
Proof.
  intros H. destruct (Z.eq_dec n 0) as [->|N]; [reflexivity|]. destruct (root_parts n ltac:(lia)) as (k & s & r & K & S0 & S1 & R & -> & Lk).
  destruct (Z.sqrt_spec n ltac:(lia)) as [A B]. set (m := Z.sqrt n) in *. assert (M : 0 < m) by (apply Z.sqrt_pos; lia). assert (P : 0 < 2 ^ k) by (apply Z.pow_pos_nonneg; lia).
  assert (Mb : m < 2 ^ 26) by nia. set (u := 2 ^ k) in *. assert (U : m + 1 <= u) by nia.
  assert (S2 : m * u <= s) by nia. assert (S3 : s < (m + 1) * u) by nia.
  symmetry. apply Z.div_unique_pos with (r := r - u * m); [|ring]. destruct R as [->|[-> Rg]]; [nia|]. split; [nia|].
  destruct (Z.eq_dec (s + 1) ((m + 1) * u)) as [Q|Q]; [exfalso|nia]. set (T := (m + 1) * u) in *.
  assert (Up : n * (u * u) <= T * T - u * u) by (unfold T; nia). assert (Lo : T * T - T + 1 <= n * (u * u)) by nia. assert (T >= u * u + 1) by lia. unfold T in *. nia.
Qed.
Lemma root_close n S l : 0 < n -> 2 ^ 53 * Z.abs (n - S) <= 7 * S -> 0 <= l < 2 ^ 34 -> l * l <= S < (l + 1) * (l + 1) -> l - 1 <= root n <= l + 1.
Proof.
  intros Hn E Hl HS. assert (S < 2 ^ 69) by nia. assert (n < 2 ^ 100) by lia.
  destruct (root_parts n ltac:(lia)) as (k & s & r & K & S0 & S1 & R & -> & Lk). destruct (Z.sqrt_spec n ltac:(lia)) as [A B]. set (m := Z.sqrt n) in *.
  assert (M : 0 < m) by (apply Z.sqrt_pos; lia). assert (U : 2 <= 2 ^ k) by (change 2 with (2 ^ 1) at 1; apply Z.pow_le_mono_r; lia). set (u := 2 ^ k) in *. clearbody u.
  assert (Rs : s <= r <= s + 1) by lia. assert (S2 : m * u <= s) by nia. split.
  - assert (l - 1 <= m).
    { destruct (Z.lt_ge_cases m (l - 1)) as [Lt|]; [exfalso|assumption].
      assert (N1 : n < (l - 1) * (l - 1)) by (apply Z.lt_le_trans with (1 := B); apply Z.mul_le_mono_nonneg; lia).
      assert (N2 : 2 ^ 53 * (2 * l - 1) <= 7 * S) by lia.
      assert (N3 : (l + 1) * (l + 1) <= 2 ^ 35 * (l + 1)) by (apply Z.mul_le_mono_nonneg_r; lia). lia. }
    apply Z.div_le_lower_bound; [lia|]. apply Z.le_trans with (2 := proj1 Rs). apply Z.le_trans with (2 := S2). rewrite Z.mul_comm. apply Z.mul_le_mono_nonneg_r; lia.
  - assert (r < (l + 2) * u); [|assert (r / u < l + 2) by (apply Z.div_lt_upper_bound; lia); lia].
    destruct (Z.lt_ge_cases r ((l + 2) * u)) as [|G]; [assumption|exfalso]. assert (G2 : (l + 2) * u - 1 <= s) by lia.
    assert (G0 : 0 <= (l + 2) * u - 1) by nia.
    assert (G3 : ((l + 2) * u - 1) * ((l + 2) * u - 1) <= n * (u * u)) by (apply Z.le_trans with (s * s); [apply Z.mul_le_mono_nonneg; lia|lia]).
    assert (N3 : (l + 1) * (l + 1) <= 2 ^ 35 * (l + 1)) by (apply Z.mul_le_mono_nonneg_r; lia).
    assert (G5 : n <= (l + 1) * (l + 1) + l) by lia.
    assert (G6 : n * (u * u) <= ((l + 1) * (l + 1) + l) * (u * u)) by (apply Z.mul_le_mono_nonneg_r; nia).
    assert (G7 : (l + 1) * u * u <= (l + 1) * u * (2 * (u - 1))) by (apply Z.mul_le_mono_nonneg_l; nia). nia.
Qed.
