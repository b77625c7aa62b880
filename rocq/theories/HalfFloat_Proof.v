(** Proofs for C44: the domain is finite, so each statement is computed for every pattern. *)
From Verif Require Import Base Float_Model Float_Proof HalfFloat_Model HalfFloat_Spec.

Fixpoint all_from (p : Z -> bool) (n : nat) (x : Z) {struct n} : bool :=
  match n with O => true | S n' => p x && all_from p n' (x + 1) end.
Lemma all_from_ok p n : forall x, all_from p n x = true -> forall w, x <= w < x + Z.of_nat n -> p w = true.
Proof.
  induction n as [|n IH]; intros x H w Hw; [lia|]. cbn [all_from] in H. apply andb_true_iff in H as [H1 H2].
  destruct (Z.eq_dec w x) as [->|Hn]; [exact H1|]. apply (IH (x + 1) H2). lia.
Qed.
Lemma all_below p n : all_from p (Z.to_nat n) 0 = true -> forall w, 0 <= w < n -> p w = true.
Proof. intros H w Hw. apply (all_from_ok p (Z.to_nat n) 0 H). lia. Qed.

Definition same (a b : number) : bool :=
  match a, b with
  | Finite s v, Finite s' v' => Bool.eqb s s' && (v =? v')
  | Infinite s, Infinite s' => Bool.eqb s s'
  | NotANumber, NotANumber => true
  | _, _ => false
  end.
Lemma same_iff a b : same a b = true <-> a = b.
Proof.
  split.
  - destruct a, b; cbn; intros H; try discriminate; auto.
    + apply andb_true_iff in H as [H1 H2]. apply Bool.eqb_prop in H1. apply Z.eqb_eq in H2. congruence.
    + apply Bool.eqb_prop in H. congruence.
  - intros <-. destruct a; cbn; rewrite ?Bool.eqb_reflx, ?Z.eqb_refl; auto.
Qed.

(** ** Fields of a pattern *)
Definition pattern (mb eb : Z) (s : bool) (E M : Z) : Z := (if s then 2 ^ (mb + eb) else 0) + E * 2 ^ mb + M.
Definition reading (mb eb : Z) (s : bool) (E M : Z) : number :=
  if E =? 2 ^ eb - 1 then (if M =? 0 then Infinite s else NotANumber)
  else if E =? 0 then Finite s (M * 2 ^ (150 - (2 ^ (eb - 1) - 1) - mb))
  else Finite s ((2 ^ mb + M) * 2 ^ (149 + E - (2 ^ (eb - 1) - 1) - mb)).

Lemma pattern_parts mb eb s E M : 0 <= mb -> 0 <= eb -> 0 <= E < 2 ^ eb -> 0 <= M < 2 ^ mb ->
  Z.testbit (pattern mb eb s E M) (mb + eb) = s /\
  (pattern mb eb s E M / 2 ^ mb) mod 2 ^ eb = E /\ pattern mb eb s E M mod 2 ^ mb = M /\
  0 <= pattern mb eb s E M < 2 ^ (mb + eb + 1) /\
  pattern mb eb s E M = (if s then 2 ^ (mb + eb) else 0) + E * 2 ^ mb + M.
Proof.
  intros Hm He HE HM. unfold pattern.
  assert (Pm : 0 < 2 ^ mb) by (apply pow2_pos; lia). assert (Pe : 0 < 2 ^ eb) by (apply pow2_pos; lia).
  assert (Ps : 2 ^ (mb + eb) = 2 ^ mb * 2 ^ eb) by (apply Z.pow_add_r; lia).
  assert (Ps' : 2 ^ (mb + eb + 1) = 2 * (2 ^ mb * 2 ^ eb)).
  { rewrite Z.pow_add_r, Ps by lia. change (2 ^ 1) with 2. lia. }
  set (b := if s then 1 else 0). replace (if s then 2 ^ (mb + eb) else 0) with (b * 2 ^ (mb + eb)) by (destruct s; unfold b; lia).
  assert (Hb : 0 <= b <= 1) by (unfold b; destruct s; lia).
  assert (B : 0 <= E * 2 ^ mb + M < 2 ^ mb * 2 ^ eb).
  { assert (E * 2 ^ mb <= (2 ^ eb - 1) * 2 ^ mb) by (apply Z.mul_le_mono_nonneg_r; lia).
    assert (0 <= E * 2 ^ mb) by (apply Z.mul_nonneg_nonneg; lia). lia. }
  rewrite Ps' , Ps in *.
  assert (D : (b * (2 ^ mb * 2 ^ eb) + E * 2 ^ mb + M) / 2 ^ mb = b * 2 ^ eb + E).
  { replace (b * (2 ^ mb * 2 ^ eb) + E * 2 ^ mb + M) with (M + (b * 2 ^ eb + E) * 2 ^ mb) by ring.
    rewrite Z.div_add, Z.div_small by lia. lia. }
  split; [|split; [|split; [|split]]].
  - rewrite Z.testbit_odd, Z.shiftr_div_pow2 by lia. rewrite Ps, <- Z.div_div by lia. rewrite D.
    rewrite Z.div_add_l, Z.div_small by lia. unfold b. destruct s; reflexivity.
  - rewrite D. rewrite Z.add_comm, Z.mod_add by lia. apply Z.mod_small. lia.
  - replace (b * (2 ^ mb * 2 ^ eb) + E * 2 ^ mb + M) with (M + (b * 2 ^ eb + E) * 2 ^ mb) by ring.
    rewrite Z.mod_add by lia. apply Z.mod_small. lia.
  - assert (b * (2 ^ mb * 2 ^ eb) <= 1 * (2 ^ mb * 2 ^ eb)) by (apply Z.mul_le_mono_nonneg_r; lia).
    assert (0 <= b * (2 ^ mb * 2 ^ eb)) by (apply Z.mul_nonneg_nonneg; lia). lia.
  - reflexivity.
Qed.
Lemma ieee_pattern mb eb s E M : 0 <= mb -> 0 <= eb -> 0 <= E < 2 ^ eb -> 0 <= M < 2 ^ mb ->
  ieee mb eb (pattern mb eb s E M) = reading mb eb s E M.
Proof.
  intros Hm He HE HM. destruct (pattern_parts mb eb s E M Hm He HE HM) as (A & B & C & _).
  unfold ieee, reading. now rewrite A, B, C.
Qed.
Lemma split_pattern mb eb w : 0 <= mb -> 0 <= eb -> 0 <= w < 2 ^ (mb + eb + 1) ->
  w = pattern mb eb (Z.testbit w (mb + eb)) ((w / 2 ^ mb) mod 2 ^ eb) (w mod 2 ^ mb).
Proof.
  intros Hm He Hw. unfold pattern.
  assert (Pm : 0 < 2 ^ mb) by (apply pow2_pos; lia). assert (Pe : 0 < 2 ^ eb) by (apply pow2_pos; lia).
  assert (Ps : 2 ^ (mb + eb) = 2 ^ mb * 2 ^ eb) by (apply Z.pow_add_r; lia).
  rewrite Z.testbit_odd, Z.shiftr_div_pow2 by lia.
  rewrite (Z.pow_add_r 2 (mb + eb) 1) in Hw by lia. change (2 ^ 1) with 2 in Hw.
  assert (Q : 0 <= w / 2 ^ (mb + eb) < 2).
  { split; [apply Z.div_pos; lia|apply Z.div_lt_upper_bound; lia]. }
  rewrite (Z.div_mod w (2 ^ mb)) at 1 by lia. rewrite (Z.div_mod (w / 2 ^ mb) (2 ^ eb)) at 1 by lia.
  rewrite Z.div_div, <- Ps by lia.
  assert (C : w / 2 ^ (mb + eb) = 0 \/ w / 2 ^ (mb + eb) = 1) by lia.
  destruct C as [C|C]; rewrite C; cbn [Z.odd]; rewrite ?Ps; ring.
Qed.
Lemma half_parts w : half w -> exists s E M, 0 <= E < 32 /\ 0 <= M < 1024 /\ w = pattern 10 5 s E M.
Proof.
  intros Hw. do 3 eexists. split; [|split]; [| |apply (split_pattern 10 5 w); [lia|lia|exact Hw]];
  apply Z.mod_pos_bound; lia.
Qed.
Lemma float_parts w : 0 <= w < 2 ^ 32 -> exists s E M, 0 <= E < 256 /\ 0 <= M < 2 ^ 23 /\ w = pattern 23 8 s E M.
Proof.
  intros Hw. do 3 eexists. split; [|split]; [| |apply (split_pattern 23 8 w); [lia|lia|exact Hw]];
  apply Z.mod_pos_bound; lia.
Qed.

(** masks *)
Lemma land_field w n k mask : 0 <= n -> 0 <= k -> mask = Z.shiftl (2 ^ n - 1) k ->
  Z.land w mask = ((w / 2 ^ k) mod 2 ^ n) * 2 ^ k.
Proof.
  intros Hn Hk ->. rewrite <- Z.shiftl_mul_pow2, <- Z.shiftr_div_pow2 by lia.
  rewrite <- Z.land_ones by lia. rewrite Z.ones_equiv, <- Z.sub_1_r.
  apply Z.bits_inj'. intros i Hi. rewrite Z.land_spec, !Z.shiftl_spec by lia.
  destruct (Z_lt_le_dec i k) as [Hik|Hik].
  - rewrite !(Z.testbit_neg_r _ (i - k)) by lia. apply andb_false_r.
  - rewrite Z.land_spec, Z.shiftr_spec by lia. do 2 f_equal. lia.
Qed.

Definition b2z (s : bool) : Z := if s then 1 else 0.
Lemma sign_div s E M : 0 <= E < 32 -> 0 <= M < 1024 -> (pattern 10 5 s E M / 2 ^ 15) mod 2 ^ 1 = b2z s.
Proof.
  intros HE HM. unfold pattern, b2z. change (2 ^ (10 + 5)) with 32768. change (2 ^ 10) with 1024.
  change (2 ^ 15) with 32768. change (2 ^ 1) with 2. destruct s; lia.
Qed.

(** ** Decoding a half *)
Lemma ToFloat_normal s E M : 0 < E < 32 -> 0 <= M < 1024 ->
  ToFloat 10 5 true (pattern 10 5 s E M) = pattern 23 8 s (if E =? 31 then 255 else E + 112) (M * 8192).
Proof.
  intros HE HM. destruct (pattern_parts 10 5 s E M ltac:(lia) ltac:(lia) ltac:(lia) ltac:(lia)) as (_ & A & B & R & _).
  change (2 ^ (10 + 5 + 1)) with 65536 in R. unfold ToFloat.
  rewrite (wrap_small 32) by (change (2 ^ 32) with 4294967296; lia).
  rewrite (land_field _ 5 10 (EXPONENT_MASK 10 5)) by (lia || reflexivity).
  rewrite (land_field _ 10 0 (MANTISSA_MASK 10)) by (lia || reflexivity).
  rewrite (land_field _ 1 15 (SIGN_MASK 10 5 true)) by (lia || reflexivity).
  change (2 ^ 0) with 1. rewrite Z.div_1_r, A, B, sign_div by lia. cbv zeta.
  change (EXPONENT_MASK 10 5) with 31744. change (2 ^ 10) with 1024. change (EXP_REF 5) with 0x38000000.
  change (Z.shiftl 1 (23 - 10)) with 8192. change (Z.shiftl 1 (32 - TOTAL_SIZE 10 5 true)) with 65536.
  change (2 ^ 15) with 32768. unfold ladd, lmul, wrap, pattern. change (2 ^ 32) with 4294967296.
  change (2 ^ (23 + 8)) with 2147483648. change (2 ^ 23) with 8388608.
  replace (E * 1024 =? 0) with false by lia. cbv iota beta delta [negb].
  destruct (Z.eqb_spec E 31) as [->|HE31].
  - replace (31 * 1024 =? 31744) with true by lia. destruct s; unfold b2z; lia.
  - replace (E * 1024 =? 31744) with false by lia. destruct s; unfold b2z; lia.
Qed.
Lemma to_lane_normal s E M : 0 < E < 32 -> 0 <= M < 1024 ->
  to_lane 10 5 true (pattern 10 5 s E M) =
  if E =? 31 then pattern 23 8 s 255 0 else pattern 23 8 s (E + 112) (M * 8192).
Proof.
  intros HE HM. destruct (pattern_parts 10 5 s E M ltac:(lia) ltac:(lia) ltac:(lia) ltac:(lia)) as (_ & A & B & R & _).
  change (2 ^ (10 + 5 + 1)) with 65536 in R. unfold to_lane. cbv zeta.
  rewrite (land_field _ 5 10 (EXPONENT_MASK 10 5)) by (lia || reflexivity).
  rewrite (land_field _ 10 0 (MANTISSA_MASK 10)) by (lia || reflexivity).
  rewrite (land_field _ 1 15 (SIGN_MASK 10 5 true)) by (lia || reflexivity).
  change (2 ^ 0) with 1. rewrite Z.div_1_r, A, B, sign_div by lia.
  change (EXPONENT_MASK 10 5) with 31744. change (2 ^ 10) with 1024. change (EXP_REF 5) with 0x38000000.
  change (23 - 10) with 13. change (32 - TOTAL_SIZE 10 5 true) with 16. unfold lshl.
  rewrite !Z.shiftl_mul_pow2 by lia. change (2 ^ 15) with 32768. change (2 ^ 13) with 8192. change (2 ^ 16) with 65536.
  unfold lcmpeq at 2. replace (E * 1024 =? 0) with false by lia.
  unfold lblend at 1. change (Z.testbit 0 31) with false. cbv iota.
  replace (wrap 32 (b2z s * 32768 * 65536)) with (b2z s * 2 ^ 31) by (unfold b2z; destruct s; reflexivity).
  unfold lcmpeq. destruct (Z.eqb_spec E 31) as [->|HE31].
  - change (31 * 1024 =? 31744) with true. cbv iota. change (lblend ?a ?b (2 ^ 32 - 1)) with b.
    unfold lblend. change (Z.testbit (2 ^ 32 - 1) 31) with true. cbv iota.
    rewrite lor_low_shift by lia. unfold pattern, b2z. destruct s; reflexivity.
  - replace (E * 1024 =? 31744) with false by lia. unfold lblend. change (Z.testbit 0 31) with false. cbv iota.
    unfold ladd. rewrite !(wrap_small 32) by (rewrite ?(wrap_small 32) by (change (2 ^ 32) with 4294967296; lia); change (2 ^ 32) with 4294967296; lia).
    replace (E * 1024 * 8192 + 939524096) with ((E + 112) * 2 ^ 23) by (change (2 ^ 23) with 8388608; lia).
    rewrite (Z.mul_1_r M), (Z.lor_comm ((E + 112) * 2 ^ 23)).
    rewrite (lor_low_shift (M * 8192) (E + 112) 23) by (change (2 ^ 23) with 8388608; lia).
    rewrite lor_low_shift by (change (2 ^ 31) with 2147483648; change (2 ^ 23) with 8388608; lia).
    unfold pattern, b2z. change (2 ^ (23 + 8)) with (2 ^ 31). destruct s; lia.
Qed.

(** the 1024 patterns of exponent 0, of either sign *)
Definition at_least_one (n : number) : bool := match n with Finite true v => 2 ^ 149 <=? v | _ => false end.
Definition zero_check (M : Z) : bool :=
  same (ieee 23 8 (ToFloat 10 5 true M)) (Finite false (M * 2 ^ 125)) &&
  at_least_one (ieee 23 8 (ToFloat 10 5 true (0x8000 + M))) &&
  same (ieee 23 8 (to_lane 10 5 true M)) (Finite false (M * 2 ^ 125)) &&
  same (ieee 23 8 (to_lane 10 5 true (0x8000 + M))) (Finite true (M * 2 ^ 125)) &&
  (FromFloat 10 5 true (ToFloat 10 5 true M) =? M) &&
  Bool.eqb (FromFloat 10 5 true (ToFloat 10 5 true (0x8000 + M)) =? 0x8000 + M) (Z.even M) &&
  (from_lane 10 5 true (to_lane 10 5 true M) =? M) &&
  Bool.eqb (from_lane 10 5 true (to_lane 10 5 true (0x8000 + M)) =? 0x8000 + M) (M =? 0).
Lemma zero_sweep : all_from zero_check (Z.to_nat 1024) 0 = true.
Proof. vm_cast_no_check (eq_refl true). Qed.
Lemma zero_ok M : 0 <= M < 1024 ->
  ieee 23 8 (ToFloat 10 5 true M) = Finite false (M * 2 ^ 125) /\
  (exists v, ieee 23 8 (ToFloat 10 5 true (0x8000 + M)) = Finite true v /\ 2 ^ 149 <= v) /\
  ieee 23 8 (to_lane 10 5 true M) = Finite false (M * 2 ^ 125) /\
  ieee 23 8 (to_lane 10 5 true (0x8000 + M)) = Finite true (M * 2 ^ 125) /\
  FromFloat 10 5 true (ToFloat 10 5 true M) = M /\
  (FromFloat 10 5 true (ToFloat 10 5 true (0x8000 + M)) = 0x8000 + M <-> Z.even M = true) /\
  from_lane 10 5 true (to_lane 10 5 true M) = M /\
  (from_lane 10 5 true (to_lane 10 5 true (0x8000 + M)) = 0x8000 + M <-> M = 0).
Proof.
  intros HM. pose proof (all_below _ _ zero_sweep M HM) as H. unfold zero_check in H.
  rewrite !andb_true_iff, !same_iff, !Z.eqb_eq in H. destruct H as (((((((H1 & H2) & H3) & H4) & H5) & H6) & H7) & H8).
  apply Bool.eqb_prop in H6, H8. repeat split; auto.
  - destruct (ieee 23 8 (ToFloat 10 5 true (0x8000 + M))) as [[] v| |]; cbn [at_least_one] in H2; try discriminate.
    exists v. split; [reflexivity|]. now apply Z.leb_le.
  - intros E. apply Z.eqb_eq in E. congruence.
  - intros E. apply Z.eqb_eq. congruence.
  - intros E. apply Z.eqb_eq in E. apply Z.eqb_eq. congruence.
  - intros E. apply Z.eqb_eq in E. apply Z.eqb_eq. congruence.
Qed.

Definition u6_check (w : Z) : bool :=
  let f := to_lane 6 5 false w in
  if (0 <? w) && (w <? 64) then same (ieee 23 8 f) (Finite false (w * 2 ^ 125)) && same (ieee 6 5 w) (Finite false (w * 2 ^ 129))
  else if 0x7c0 <? w then same (ieee 23 8 f) (Infinite false) && same (ieee 6 5 w) NotANumber
  else same (ieee 23 8 f) (ieee 6 5 w).
Lemma u6_sweep : all_from u6_check (Z.to_nat 2048) 0 = true.
Proof. vm_cast_no_check (eq_refl true). Qed.

Definition s5_check (w : Z) : bool :=
  let f := to_lane 5 5 true w in
  let a := w mod 1024 in
  let neg := 1024 <=? w in
  if (0 <? a) && (a <? 32) then same (ieee 23 8 f) (Finite neg (a * 2 ^ 125)) && same (ieee 5 5 w) (Finite neg (a * 2 ^ 130))
  else if 0x3e0 <? a then same (ieee 23 8 f) (Infinite neg) && same (ieee 5 5 w) NotANumber
  else same (ieee 23 8 f) (ieee 5 5 w).
Lemma s5_sweep : all_from s5_check (Z.to_nat 2048) 0 = true.
Proof. vm_cast_no_check (eq_refl true). Qed.

(** the 11-bit field of VectorR11G11B10_UFLOAT, before and after sign extension *)
Definition field_lane (c : Z) : Z := to_lane 11 5 false (wrap 32 (sgn 11 c)).
Definition u11_check (c : Z) : bool :=
  let f := field_lane c in
  if c <? 1024 then same (ieee 23 8 f) (Finite false (c * 2 ^ 125))
  else same (ieee 23 8 f) (Infinite false).
Lemma u11_sweep : all_from u11_check (Z.to_nat 2048) 0 = true.
Proof. vm_cast_no_check (eq_refl true). Qed.
Definition u11_wrong (c : Z) : bool :=
  (c =? 0) || (0x7c0 <=? c) || negb (same (ieee 23 8 (field_lane c)) (ieee 6 5 c)).
Lemma u11_wrong_sweep : all_from u11_wrong (Z.to_nat 2048) 0 = true.
Proof. vm_cast_no_check (eq_refl true). Qed.

(** multiplying by 2^21, 2^10 or 1 and shifting right by 21 arithmetically extracts a field *)
Lemma field_of data k : 0 <= data < 2 ^ 32 -> 0 <= k <= 21 ->
  lsar (lmul data (2 ^ k)) 21 = wrap 32 (sgn 11 ((data / 2 ^ (21 - k)) mod 2048)).
Proof.
  intros Hd Hk. unfold lsar, lmul. f_equal.
  set (f := (data / 2 ^ (21 - k)) mod 2048).
  assert (Ef : exists r, wrap 32 (data * 2 ^ k) = f * 2 ^ 21 + r /\ 0 <= r < 2 ^ 21).
  { exists ((data mod 2 ^ (21 - k)) * 2 ^ k). unfold wrap.
    assert (P : 2 ^ 21 = 2 ^ (21 - k) * 2 ^ k) by (rewrite <- Z.pow_add_r by lia; f_equal; lia).
    assert (Pk : 0 < 2 ^ k) by (apply pow2_pos; lia).
    assert (Pj : 0 < 2 ^ (21 - k)) by (apply pow2_pos; lia).
    pose proof (Z.mod_pos_bound data (2 ^ (21 - k)) Pj) as Hm.
    assert (Hr : 0 <= data mod 2 ^ (21 - k) * 2 ^ k < 2 ^ 21).
    { split; [apply Z.mul_nonneg_nonneg; lia|]. rewrite P. apply Z.mul_lt_mono_pos_r; lia. }
    split; [|exact Hr].
    assert (Hf : 0 <= f < 2048) by (apply Z.mod_pos_bound; lia).
    symmetry. apply Z.mod_unique_pos with (q := data / 2 ^ (21 - k) / 2048).
    - change (2 ^ 32) with (2048 * 2 ^ 21). lia.
    - pose proof (Z.div_mod data (2 ^ (21 - k)) ltac:(lia)) as D1.
      pose proof (Z.div_mod (data / 2 ^ (21 - k)) 2048 ltac:(lia)) as D2. fold f in D2.
      set (q := data / 2 ^ (21 - k)) in *. set (r := data mod 2 ^ (21 - k)) in *.
      rewrite D1 at 1. rewrite Z.mul_add_distr_r.
      replace (2 ^ (21 - k) * q * 2 ^ k) with (2 ^ 21 * q) by (rewrite P; ring).
      rewrite D2 at 1. change (2 ^ 32) with (2048 * 2 ^ 21). ring. }
  destruct Ef as (r & Er & Hr).
  assert (Hf : 0 <= f < 2048) by (apply Z.mod_pos_bound; lia).
  unfold sgn at 1. rewrite wrap_wrap by lia. rewrite Er.
  unfold sgn. rewrite (wrap_small 11 f) by (change (2 ^ 11) with 2048; lia).
  rewrite Z.shiftr_div_pow2 by lia.
  change (2 ^ (32 - 1)) with 2147483648. change (2 ^ (11 - 1)) with 1024. change (2 ^ 32) with 4294967296.
  change (2 ^ 11) with 2048. change (2 ^ 21) with 2097152 in *.
  destruct (Z.ltb_spec (f * 2097152 + r) 2147483648), (Z.ltb_spec f 1024); lia.
Qed.

(** ** Encoding a half: the result in terms of the pattern of v + 0.5 *)
Lemma cvt_mantissa s E M : 0 <= E < 256 -> 0 <= M < 2 ^ 23 -> (pattern 23 8 s E M / 2 ^ 13) mod 2 ^ 10 = M / 8192.
Proof.
  intros HE HM. unfold pattern. change (2 ^ (23 + 8)) with 2147483648. change (2 ^ 23) with 8388608 in *.
  change (2 ^ 13) with 8192. change (2 ^ 10) with 1024. destruct s; lia.
Qed.
Lemma cvt_sign s E M : 0 <= E < 256 -> 0 <= M < 2 ^ 23 -> (pattern 23 8 s E M / 2 ^ 31) mod 2 ^ 1 = b2z s.
Proof.
  intros HE HM. unfold pattern. change (2 ^ (23 + 8)) with 2147483648. change (2 ^ 23) with 8388608 in *.
  change (2 ^ 31) with 2147483648. change (2 ^ 1) with 2. unfold b2z. destruct s; lia.
Qed.
(** the exponents treated as subnormal by the scalar encoder *)
Definition sub_class (T : Z) : bool := (T / 2 ^ 24) mod 2 ^ 6 =? 63.
Lemma FromFloat_form s E M : 0 <= E < 256 -> 0 <= M < 2 ^ 23 ->
  let w := pattern 23 8 s E M in let T := fadd_bits w 0x3f000000 in
  FromFloat 10 5 true w =
  pattern 10 5 s (if E =? 255 then 31 else if sub_class T then 0 else (E - 112) mod 32)
                 (if sub_class T then T mod 1024 else M / 8192).
Proof.
  intros HE HM w T. unfold FromFloat. fold T.
  destruct (pattern_parts 23 8 s E M ltac:(lia) ltac:(lia) ltac:(lia) ltac:(lia)) as (_ & A & B & R & _). fold w in A, B, R.
  rewrite (land_field w 8 23 0x7f800000) by (lia || reflexivity). rewrite A.
  rewrite (land_field T 6 24 0x3f000000) by (lia || reflexivity).
  rewrite (land_field w 1 31 0x80000000) by (lia || reflexivity).
  rewrite (cvt_sign s E M HE HM : (w / 2 ^ 31) mod 2 ^ 1 = b2z s).
  replace ((T / 2 ^ 24) mod 2 ^ 6 * 2 ^ 24 =? 0x3f000000) with (sub_class T).
  2:{ unfold sub_class. change (2 ^ 24) with 16777216. destruct (Z.eqb_spec ((T / 16777216) mod 2 ^ 6) 63), (Z.eqb_spec ((T / 16777216) mod 2 ^ 6 * 16777216) 0x3f000000); lia. }
  change (MANTISSA_MASK 10) with (2 ^ 10 - 1). rewrite land_pow2m1 by lia. rewrite Z.shiftr_div_pow2 by lia.
  change (23 - 10) with 13.
  set (Y := (if sub_class T then T else w / 2 ^ 13) mod 2 ^ 10).
  assert (EY : Y = if sub_class T then T mod 1024 else M / 8192).
  { unfold Y. destruct (sub_class T); [reflexivity|]. apply cvt_mantissa; lia. }
  assert (RY : 0 <= Y < 2 ^ 10) by (apply Z.mod_pos_bound; lia). rewrite <- EY. clearbody Y. clear EY.
  cbv zeta.
  replace (if true && negb (b2z s * 2 ^ 31 =? 0) then Z.lor Y (SIGN_MASK 10 5 true) else Y) with (Y + b2z s * 2 ^ 15).
  2:{ destruct s; cbn [b2z].
      - change (true && negb (1 * 2 ^ 31 =? 0)) with true. cbv iota. change (SIGN_MASK 10 5 true) with (1 * 2 ^ 15).
        rewrite lor_low_shift; [reflexivity|lia|]. change (2 ^ 15) with 32768. change (2 ^ 10) with 1024 in RY. lia.
      - change (true && negb (0 * 2 ^ 31 =? 0)) with false. cbv iota. lia. }
  assert (J : forall F, 0 <= F < 32 -> Z.lor (Y + b2z s * 2 ^ 15) (F * 2 ^ 10) = pattern 10 5 s F Y).
  { intros F HF. rewrite <- (lor_low_shift Y (b2z s) 15) by (change (2 ^ 15) with 32768; change (2 ^ 10) with 1024 in RY; lia).
    rewrite <- Z.lor_assoc, (Z.lor_comm (b2z s * 2 ^ 15)), Z.lor_assoc.
    rewrite (lor_low_shift Y F 10) by lia.
    rewrite lor_low_shift by (change (2 ^ 15) with 32768; change (2 ^ 10) with 1024 in *; lia).
    unfold pattern, b2z. change (2 ^ (10 + 5)) with (2 ^ 15). destruct s; lia. }
  replace (E * 2 ^ 23 =? 0x7f800000) with (E =? 255) by (change (2 ^ 23) with 8388608; destruct (Z.eqb_spec E 255), (Z.eqb_spec (E * 8388608) 0x7f800000); lia).
  destruct (Z.eqb_spec E 255) as [E255|E255].
  - change (EXPONENT_MASK 10 5) with (31 * 2 ^ 10). apply J. lia.
  - destruct (sub_class T); cbn [negb].
    + unfold pattern, b2z. change (2 ^ (10 + 5)) with (2 ^ 15). destruct s; lia.
    + rewrite (land_field _ 5 10 (EXPONENT_MASK 10 5)) by (lia || reflexivity).
      rewrite J by (apply Z.mod_pos_bound; lia). f_equal.
      rewrite Z.shiftr_div_pow2 by lia. unfold wrap. change (EXP_REF 5) with 0x38000000.
      change (2 ^ 23) with 8388608. change (2 ^ 64) with 18446744073709551616. change (2 ^ 13) with 8192. change (2 ^ 10) with 1024.
      change (2 ^ 5) with 32. lia.
Qed.

(** the exponent treated as subnormal by the vector encoder *)
Definition den_class (T : Z) : bool := (T / 2 ^ 23) mod 2 ^ 8 =? 126.
Lemma lsar_field w k n j : 0 <= n -> 0 <= k -> 0 <= j -> k + j + n <= 32 ->
  (lsar w k / 2 ^ j) mod 2 ^ n = (w / 2 ^ (k + j)) mod 2 ^ n.
Proof.
  intros Hn Hk Hj H. unfold lsar.
  rewrite <- !Z.shiftr_div_pow2, <- !Z.land_ones by lia.
  apply Z.bits_inj'. intros i Hi. rewrite !Z.land_spec.
  destruct (Z_lt_le_dec i n) as [L|L].
  2:{ rewrite !Z.ones_spec_high by lia. now rewrite !andb_false_r. }
  rewrite !Z.ones_spec_low, !andb_true_r by lia. rewrite !Z.shiftr_spec by lia.
  unfold wrap. rewrite Z.mod_pow2_bits_low by lia. rewrite Z.shiftr_spec by lia.
  replace (i + j + k) with (i + (k + j)) by lia.
  pose proof (sgn_wrap 32 w ltac:(lia)) as SW. unfold wrap in SW.
  rewrite <- (Z.mod_pow2_bits_low (sgn 32 w) 32) by lia. rewrite SW. apply Z.mod_pow2_bits_low. lia.
Qed.
Lemma from_lane_form s E M : 0 <= E < 256 -> 0 <= M < 2 ^ 23 ->
  let w := pattern 23 8 s E M in let T := fadd_bits w 0x3f000000 in
  from_lane 10 5 true w =
  pattern 10 5 s (if den_class T then 0 else if E =? 255 then 31 else (E - 112) mod 32)
                 (if den_class T then T mod 1024 else M / 8192).
Proof.
  intros HE HM w T. unfold from_lane. fold T. cbv zeta.
  destruct (pattern_parts 23 8 s E M ltac:(lia) ltac:(lia) ltac:(lia) ltac:(lia)) as (_ & A & B & R & _). fold w in A, B, R.
  rewrite (land_field w 8 23 0x7f800000) by (lia || reflexivity). rewrite A.
  rewrite (land_field T 8 23 0x7f800000) by (lia || reflexivity).
  rewrite (land_field w 1 31 0x80000000) by (lia || reflexivity).
  rewrite (cvt_sign s E M HE HM : (w / 2 ^ 31) mod 2 ^ 1 = b2z s).
  replace (Z.land (lsar (b2z s * 2 ^ 31) (32 - TOTAL_SIZE 10 5 true)) (SIGN_MASK 10 5 true)) with (b2z s * 2 ^ 15)
    by (destruct s; reflexivity).
  replace (lcmpeq ((T / 2 ^ 23) mod 2 ^ 8 * 2 ^ 23) 0x3f000000) with (if den_class T then 2 ^ 32 - 1 else 0).
  2:{ unfold den_class, lcmpeq. change (2 ^ 23) with 8388608.
      destruct (Z.eqb_spec ((T / 8388608) mod 2 ^ 8) 126), (Z.eqb_spec ((T / 8388608) mod 2 ^ 8 * 8388608) 0x3f000000); lia. }
  replace (lcmpeq (E * 2 ^ 23) 0x7f800000) with (if E =? 255 then 2 ^ 32 - 1 else 0).
  2:{ unfold lcmpeq. change (2 ^ 23) with 8388608. destruct (Z.eqb_spec E 255), (Z.eqb_spec (E * 8388608) 0x7f800000); lia. }
  assert (LB : forall a b (c : bool), lblend a b (if c then 2 ^ 32 - 1 else 0) = if c then b else a).
  { intros a b []; reflexivity. }
  rewrite !LB. change (23 - 10) with 13.
  change (MANTISSA_MASK 10) with (2 ^ 10 - 1). rewrite land_pow2m1 by lia.
  set (Y := (if den_class T then T else lsar w 13) mod 2 ^ 10).
  assert (EY : Y = if den_class T then T mod 1024 else M / 8192).
  { unfold Y. destruct (den_class T); [reflexivity|].
    rewrite <- (cvt_mantissa s E M) by lia. fold w.
    pose proof (lsar_field w 13 10 0 ltac:(lia) ltac:(lia) ltac:(lia) ltac:(lia)) as LF.
    change (2 ^ 0) with 1 in LF. rewrite Z.div_1_r in LF. exact LF. }
  assert (RY : 0 <= Y < 2 ^ 10) by (apply Z.mod_pos_bound; lia). rewrite <- EY. clearbody Y. clear EY.
  assert (J : forall F, 0 <= F < 32 -> Z.lor (Z.lor (F * 2 ^ 10) Y) (b2z s * 2 ^ 15) = pattern 10 5 s F Y).
  { intros F HF. rewrite (Z.lor_comm (F * 2 ^ 10)). rewrite (lor_low_shift Y F 10) by lia.
    rewrite lor_low_shift by (change (2 ^ 15) with 32768; change (2 ^ 10) with 1024 in *; lia).
    unfold pattern, b2z. change (2 ^ (10 + 5)) with (2 ^ 15). destruct s; lia. }
  rewrite (land_field _ 5 10 (EXPONENT_MASK 10 5)) by (lia || reflexivity).
  rewrite lsar_field by lia. change (13 + 10) with 23.
  replace ((wrap 32 (E * 2 ^ 23 - EXP_REF 5) / 2 ^ 23) mod 2 ^ 5) with ((E - 112) mod 32).
  2:{ unfold wrap. change (EXP_REF 5) with 0x38000000. change (2 ^ 23) with 8388608. change (2 ^ 32) with 4294967296. change (2 ^ 5) with 32. lia. }
  change (EXPONENT_MASK 10 5) with (31 * 2 ^ 10).
  destruct (den_class T).
  - change 0 with (0 * 2 ^ 10) at 1. apply J. lia.
  - destruct (E =? 255); apply J; [lia|apply Z.mod_pos_bound; lia].
Qed.

(** ** Which floats are taken for subnormals *)
Lemma ieee_finite w neg V : 0 <= w < 2 ^ 32 -> ieee 23 8 w = Finite neg V ->
  exists E M, w = pattern 23 8 neg E M /\ 0 <= E < 255 /\ 0 <= M < 2 ^ 23 /\ finite w /\ mag w = V /\
    val w = (if neg then - V else V) /\ V = (if E =? 0 then M else (M + 2 ^ 23) * 2 ^ (E - 1)).
Proof.
  intros Hw H. destruct (float_parts w Hw) as (s & E & M & HE & HM & Ew).
  rewrite Ew, ieee_pattern in H by lia. unfold reading in H. change (2 ^ 8 - 1) with 255 in H.
  change (2 ^ (8 - 1) - 1) with 127 in H.
  destruct (Z.eqb_spec E 255) as [E255|E255]; [destruct (M =? 0); discriminate|].
  destruct (pattern_parts 23 8 s E M ltac:(lia) ltac:(lia) ltac:(lia) ltac:(lia)) as (A & B & C & R & _).
  rewrite <- Ew in A, B, C, R. change (23 + 8) with 31 in A.
  assert (HV : mag w = (if E =? 0 then M else (M + 2 ^ 23) * 2 ^ (E - 1))) by (unfold mag; rewrite B, C; reflexivity).
  assert (HVV : V = mag w /\ s = neg).
  { rewrite HV. destruct (Z.eqb_spec E 0) as [E0|E0].
    - change (150 - 127 - 23) with 0 in H. change (2 ^ 0) with 1 in H. rewrite Z.mul_1_r in H. split; congruence.
    - replace (149 + E - 127 - 23) with (E - 1) in H by lia. rewrite (Z.add_comm M). split; congruence. }
  destruct HVV as [-> ->]. exists E, M. split; [exact Ew|]. split; [lia|]. split; [exact HM|].
  split; [split; [exact Hw|rewrite B; exact E255]|]. split; [reflexivity|]. split; [unfold val; now rewrite A|exact HV].
Qed.
Lemma half_one_half : finite 0x3f000000 /\ val 0x3f000000 = 2 ^ 148.
Proof. split; [split; [lia|discriminate]|reflexivity]. Qed.

(** the exponent field of v + 0.5 *)
Lemma exponent_of_sum w neg V : 0 <= w < 2 ^ 32 -> ieee 23 8 w = Finite neg V ->
  let N := (if neg then - V else V) + 2 ^ 148 in
  let T := fadd_bits w 0x3f000000 in
  V < 2 ^ 276 -> N <> 0 ->
  T = sign_bit (N <? 0) + enc (Z.abs N) /\ (T / 2 ^ 23) mod 2 ^ 8 = enc (Z.abs N) / 2 ^ 23 /\ 0 <= enc (Z.abs N) < 2 ^ 31.
Proof.
  intros Hw H N T HV HN. destruct (ieee_finite w neg V Hw H) as (E & M & _ & _ & _ & Fw & Mw & Vw & _).
  destruct half_one_half as [Fh Vh]. pose proof (mag_nonneg w) as Hp.
  assert (Hov : Z.abs N < 2 ^ 277).
  { unfold N. change (2 ^ 277) with (2 * 2 ^ 276). assert (2 ^ 148 < 2 ^ 276) by reflexivity. destruct neg; lia. }
  pose proof (fadd_bits_val w 0x3f000000 Fw Fh) as F. rewrite Vw, Vh in F. fold N in F. specialize (F HN Hov).
  fold T in F. rewrite F. pose proof (enc_range (Z.abs N) ltac:(lia) Hov) as RE.
  split; [reflexivity|]. set (X := enc (Z.abs N)) in *. clearbody X. unfold sign_bit.
  change (2 ^ 23) with 8388608 in *. change (2 ^ 31) with 2147483648. change (2 ^ 8) with 256.
  destruct (N <? 0); lia.
Qed.
Lemma classes T : sub_class T = ((T / 2 ^ 23) mod 2 ^ 8 =? 126) || ((T / 2 ^ 23) mod 2 ^ 8 =? 127) || (254 <=? (T / 2 ^ 23) mod 2 ^ 8).
Proof.
  unfold sub_class. change (2 ^ 24) with (2 ^ 23 * 2). rewrite <- Z.div_div by lia.
  set (x := T / 2 ^ 23). clearbody x. change (2 ^ 6) with 64. change (2 ^ 8) with 256.
  pose proof (Z.mod_pos_bound x 256 ltac:(lia)).
  destruct (Z.eqb_spec ((x / 2) mod 64) 63), (Z.eqb_spec (x mod 256) 126), (Z.eqb_spec (x mod 256) 127), (Z.leb_spec 254 (x mod 256)); cbn [orb]; lia.
Qed.
(** thresholds: the exponent of v + 0.5 from bounds on |v + 0.5| *)
Definition sum_class (w lo hi : Z) : Prop := let x := (fadd_bits w 0x3f000000 / 2 ^ 23) mod 2 ^ 8 in lo <= x < hi.
Lemma class_between w neg V lo hi : 0 <= w < 2 ^ 32 -> ieee 23 8 w = Finite neg V -> V < 2 ^ 276 ->
  1 <= lo -> 2 <= hi ->
  let N := Z.abs ((if neg then - V else V) + 2 ^ 148) in
  2 ^ (lo + 22) <= N -> N <= 2 ^ (hi + 22) - 2 ^ (hi - 2) -> sum_class w lo hi.
Proof.
  intros Hw H HV Hlo Hhi N HL HU. assert (P : 0 < 2 ^ (lo + 22)) by (apply pow2_pos; lia).
  destruct (exponent_of_sum w neg V Hw H HV) as (_ & Ex & Rx); [unfold N in *; lia|].
  fold N in Ex, Rx. unfold sum_class. cbv zeta. rewrite Ex.
  pose proof (enc_ge N (lo + 22) ltac:(lia) HL) as G. replace (lo + 22 - 22) with lo in G by lia.
  pose proof (enc_lt N (hi + 22) ltac:(lia) ltac:(lia)) as L. replace (hi + 22 - 24) with (hi - 2) in L by lia.
  specialize (L HU). replace (hi + 22 - 22) with hi in L by lia.
  split; [apply Z.div_le_lower_bound; lia|apply Z.div_lt_upper_bound; lia].
Qed.
Lemma class_below w neg V hi : 0 <= w < 2 ^ 32 -> ieee 23 8 w = Finite neg V -> V < 2 ^ 276 -> 2 <= hi ->
  let N := Z.abs ((if neg then - V else V) + 2 ^ 148) in
  0 < N -> N <= 2 ^ (hi + 22) - 2 ^ (hi - 2) -> sum_class w 0 hi.
Proof.
  intros Hw H HV Hhi N HL HU.
  destruct (exponent_of_sum w neg V Hw H HV) as (_ & Ex & Rx); [unfold N in *; lia|].
  fold N in Ex, Rx. unfold sum_class. cbv zeta. rewrite Ex.
  pose proof (enc_lt N (hi + 22) ltac:(lia) ltac:(lia)) as L. replace (hi + 22 - 24) with (hi - 2) in L by lia.
  specialize (L HU). replace (hi + 22 - 22) with hi in L by lia.
  split; [apply Z.div_pos; lia|apply Z.div_lt_upper_bound; lia].
Qed.

Lemma not_sub w lo hi : sum_class w lo hi -> hi <= 126 \/ (128 <= lo /\ hi <= 254) -> sub_class (fadd_bits w 0x3f000000) = false.
Proof.
  unfold sum_class. cbv zeta. rewrite classes. set (x := (fadd_bits w 0x3f000000 / 2 ^ 23) mod 2 ^ 8). clearbody x.
  intros H1 H2. destruct (Z.eqb_spec x 126), (Z.eqb_spec x 127), (Z.leb_spec 254 x); cbn [orb]; lia.
Qed.
Lemma is_sub w lo hi : sum_class w lo hi -> 126 <= lo -> hi <= 128 -> sub_class (fadd_bits w 0x3f000000) = true.
Proof.
  unfold sum_class. cbv zeta. rewrite classes. set (x := (fadd_bits w 0x3f000000 / 2 ^ 23) mod 2 ^ 8). clearbody x.
  intros H1 H2 H3. destruct (Z.eqb_spec x 126), (Z.eqb_spec x 127), (Z.leb_spec 254 x); cbn [orb]; lia.
Qed.
Lemma not_den w lo hi : sum_class w lo hi -> hi <= 126 \/ 127 <= lo -> den_class (fadd_bits w 0x3f000000) = false.
Proof.
  unfold sum_class, den_class. cbv zeta. set (x := (fadd_bits w 0x3f000000 / 2 ^ 23) mod 2 ^ 8). clearbody x.
  intros H1 H2. destruct (Z.eqb_spec x 126); lia.
Qed.
Lemma is_den w : sum_class w 126 127 -> den_class (fadd_bits w 0x3f000000) = true.
Proof.
  unfold sum_class, den_class. cbv zeta. set (x := (fadd_bits w 0x3f000000 / 2 ^ 23) mod 2 ^ 8). clearbody x.
  intros H1. destruct (Z.eqb_spec x 126); lia.
Qed.

(** a float below 2^j in magnitude (2^j > 2^23) is at least one of its own steps below *)
Lemma step_below w neg V j : 0 <= w < 2 ^ 32 -> ieee 23 8 w = Finite neg V -> 24 <= j -> V < 2 ^ j -> V <= 2 ^ j - 2 ^ (j - 24).
Proof.
  intros Hw H Hj HV. destruct (ieee_finite w neg V Hw H) as (E & M & _ & HE & HM & _ & _ & _ & EV).
  assert (P : 0 < 2 ^ (j - 24)) by (apply pow2_pos; lia).
  assert (Ej : 2 ^ j = 2 ^ 24 * 2 ^ (j - 24)) by (rewrite <- Z.pow_add_r by lia; f_equal; lia).
  destruct (Z.eqb_spec E 0) as [E0|E0].
  - rewrite EV, Ej. change (2 ^ 23) with 8388608 in HM. change (2 ^ 24) with 16777216.
    assert (8388608 * 2 ^ (j - 24) >= 8388608) by lia. lia.
  - assert (Pe : 0 < 2 ^ (E - 1)) by (apply pow2_pos; lia).
    assert (E - 1 <= j - 24).
    { destruct (Z_le_gt_dec (E - 1) (j - 24)) as [|G]; [assumption|]. exfalso.
      assert (2 ^ j <= 2 ^ 23 * 2 ^ (E - 1)) by (rewrite <- Z.pow_add_r by lia; apply Z.pow_le_mono_r; lia).
      assert (2 ^ 23 * 2 ^ (E - 1) <= (M + 2 ^ 23) * 2 ^ (E - 1)) by (apply Z.mul_le_mono_nonneg_r; lia). lia. }
    assert (2 ^ (E - 1) <= 2 ^ (j - 24)) by (apply Z.pow_le_mono_r; lia).
    assert ((M + 2 ^ 23) * 2 ^ (E - 1) <= (2 ^ 24 - 1) * 2 ^ (E - 1)) by (apply Z.mul_le_mono_nonneg_r; lia).
    assert ((2 ^ 24 - 1) * 2 ^ (E - 1) <= (2 ^ 24 - 1) * 2 ^ (j - 24)) by (apply Z.mul_le_mono_nonneg_l; lia).
    lia.
Qed.

(** *** Zones *)
Definition zone (w : Z) (neg : bool) (V : Z) : Prop := 0 <= w < 2 ^ 32 /\ ieee 23 8 w = Finite neg V.
Ltac zsub := match goal with |- context [Z.abs ?x] => set (ab := x) end.
Lemma p148 : 2 ^ 148 = 1 * 2 ^ 148. Proof. reflexivity. Qed.
Ltac pows := repeat match goal with
  | |- context [2 ^ ?n] => progress (let v := eval vm_compute in (2 ^ n) in change (2 ^ n) with v)
  | H : context [2 ^ ?n] |- _ => progress (let v := eval vm_compute in (2 ^ n) in change (2 ^ n) with v in H) end.

Lemma zone_pos_big w V : zone w false V -> 3 * 2 ^ 148 <= V < 2 ^ 165 -> sum_class w 128 146.
Proof.
  intros (Hw & H) HV. apply (class_between w false V); try assumption; cbv iota zeta; pows; lia.
Qed.
Lemma zone_pos_mid w V : zone w false V -> 2 ^ 148 <= V < 2 ^ 165 -> sum_class w 127 146.
Proof.
  intros (Hw & H) HV. apply (class_between w false V); try assumption; cbv iota zeta; pows; lia.
Qed.
Lemma zone_pos_small w V : zone w false V -> V < 3 * 2 ^ 148 -> sum_class w 126 128.
Proof.
  intros (Hw & H) HV. pose proof (step_below w false V 150 Hw H ltac:(lia)) as S1.
  assert (0 <= V) by (destruct (ieee_finite w false V Hw H) as (? & ? & _ & _ & _ & _ & <- & _); apply mag_nonneg).
  assert (V <= 3 * 2 ^ 148 - 2 ^ 126).
  { destruct (ieee_finite w false V Hw H) as (E & M & _ & HE & HM & _ & _ & _ & EV).
    destruct (Z_lt_le_dec V (2 ^ 149)) as [L|L]; [pows; lia|].
    destruct (Z.eqb_spec E 0) as [E0|E0]; [pows; lia|].
    assert (E = 127).
    { assert (126 < E).
      { destruct (Z_lt_le_dec 126 E); [assumption|]. exfalso.
        assert (2 ^ (E - 1) <= 2 ^ 125) by (apply Z.pow_le_mono_r; lia). assert (0 < 2 ^ (E - 1)) by (apply pow2_pos; lia).
        assert ((M + 2 ^ 23) * 2 ^ (E - 1) <= (2 ^ 24 - 1) * 2 ^ 125) by (apply Z.mul_le_mono_nonneg; lia). pows. lia. }
      assert (E < 128); [|lia].
      destruct (Z_lt_le_dec E 128); [assumption|]. exfalso.
      assert (2 ^ 127 <= 2 ^ (E - 1)) by (apply Z.pow_le_mono_r; lia).
      assert (2 ^ 23 * 2 ^ 127 <= (M + 2 ^ 23) * 2 ^ (E - 1)) by (apply Z.mul_le_mono_nonneg; lia). pows. lia. }
    subst E. change (127 - 1) with 126 in EV. pows. lia. }
  apply (class_between w false V); try assumption; cbv iota zeta; pows; lia.
Qed.
Lemma zone_pos_tiny w V : zone w false V -> V <= 2 ^ 148 - 2 ^ 125 -> sum_class w 126 127.
Proof.
  intros (Hw & H) HV.
  assert (0 <= V) by (destruct (ieee_finite w false V Hw H) as (? & ? & _ & _ & _ & _ & <- & _); apply mag_nonneg).
  apply (class_between w false V); try assumption; cbv iota zeta; pows; lia.
Qed.
Lemma zone_neg_small w V : zone w true V -> 2 ^ 135 <= V < 2 ^ 149 -> V <> 2 ^ 148 -> sum_class w 0 126.
Proof.
  intros (Hw & H) HV HN. pose proof (step_below w true V 149 Hw H ltac:(lia) ltac:(lia)) as S1.
  apply (class_below w true V); try assumption; cbv iota zeta; pows; lia.
Qed.
Lemma zone_neg_big w V : zone w true V -> 5 * 2 ^ 148 <= V < 2 ^ 165 -> sum_class w 128 146.
Proof.
  intros (Hw & H) HV. apply (class_between w true V); try assumption; cbv iota zeta; pows; lia.
Qed.
Lemma zone_neg_mid w V : zone w true V -> 3 * 2 ^ 148 <= V < 2 ^ 165 -> sum_class w 127 146.
Proof.
  intros (Hw & H) HV. apply (class_between w true V); try assumption; cbv iota zeta; pows; lia.
Qed.
Lemma step_between w neg V j : 0 <= w < 2 ^ 32 -> ieee 23 8 w = Finite neg V -> 23 <= j -> 2 ^ j <= V -> (2 ^ (j - 23) | V).
Proof.
  intros Hw H Hj HV. destruct (ieee_finite w neg V Hw H) as (E & M & _ & HE & HM & _ & _ & _ & EV).
  destruct (Z.eqb_spec E 0) as [E0|E0].
  - exfalso. assert (2 ^ 23 <= 2 ^ j) by (apply Z.pow_le_mono_r; lia). lia.
  - assert (j - 23 <= E - 1).
    { destruct (Z_le_gt_dec (j - 23) (E - 1)) as [|G]; [assumption|]. exfalso.
      assert (2 ^ 24 * 2 ^ (E - 1) <= 2 ^ j) by (rewrite <- Z.pow_add_r by lia; apply Z.pow_le_mono_r; lia).
      assert (0 < 2 ^ (E - 1)) by (apply pow2_pos; lia).
      assert ((M + 2 ^ 23) * 2 ^ (E - 1) < 2 ^ 24 * 2 ^ (E - 1)) by (apply Z.mul_lt_mono_pos_r; lia). lia. }
    rewrite EV. exists ((M + 2 ^ 23) * 2 ^ (E - 1 - (j - 23))).
    rewrite <- Z.mul_assoc, <- Z.pow_add_r by lia. do 2 f_equal. lia.
Qed.
Lemma zone_neg_sub w V : zone w true V -> 2 ^ 149 <= V < 5 * 2 ^ 148 -> sum_class w 126 128.
Proof.
  intros (Hw & H) HV. destruct (step_between w true V 149 Hw H ltac:(lia) ltac:(lia)) as (q & Hq).
  change (149 - 23) with 126 in Hq.
  apply (class_between w true V); try assumption; cbv iota zeta; pows; lia.
Qed.
Lemma zone_neg_den w V : zone w true V -> 2 ^ 149 <= V < 3 * 2 ^ 148 -> sum_class w 126 127.
Proof.
  intros (Hw & H) HV. destruct (step_between w true V 149 Hw H ltac:(lia) ltac:(lia)) as (q & Hq).
  change (149 - 23) with 126 in Hq.
  apply (class_between w true V); try assumption; cbv iota zeta; pows; lia.
Qed.

(** *** Results *)
Lemma half_finite h n H : half h -> ieee 10 5 h = Finite n H ->
  exists E M, 0 <= M < 1024 /\ h = pattern 10 5 n E M /\ ((E = 0 /\ H = M * 2 ^ 125) \/ (1 <= E <= 30 /\ H = (1024 + M) * 2 ^ (E + 124))).
Proof.
  intros Hh HI. destruct (half_parts h Hh) as (s & E & M & HE & HM & Eh).
  rewrite Eh, ieee_pattern in HI by lia. unfold reading in HI. change (2 ^ 5 - 1) with 31 in HI.
  change (2 ^ (5 - 1) - 1) with 15 in HI. change (2 ^ 10) with 1024 in HI.
  destruct (Z.eqb_spec E 31); [destruct (M =? 0); discriminate|].
  exists E, M. split; [exact HM|]. destruct (Z.eqb_spec E 0).
  - assert (s = n) by congruence. assert (M * 2 ^ (150 - 15 - 10) = H) by congruence. subst s.
    split; [exact Eh|]. left. split; auto.
  - assert (s = n) by congruence. assert ((1024 + M) * 2 ^ (149 + E - 15 - 10) = H) by congruence. subst s.
    split; [exact Eh|]. right. split; [lia|]. subst H. do 2 f_equal. lia.
Qed.

Lemma floor_half V K Q : 12 <= K -> 1024 <= Q < 2048 -> Q * 2 ^ (K + 113) <= V < (Q + 1) * 2 ^ (K + 113) ->
  rounded_down V (Q * 2 ^ (K + 113)).
Proof.
  intros HK HQ HV. split; [lia|]. intros h n H' Hh HI HH.
  destruct (half_finite h n H' Hh HI) as (E & M & HM & _ & C).
  assert (P : 0 < 2 ^ (K + 113)) by (apply pow2_pos; lia).
  assert (C' : exists q j, H' = q * 2 ^ j /\ 0 <= q < 2048 /\ 125 <= j).
  { destruct C as [(_ & ->)|(HE & ->)]; [exists M, 125; lia|exists (1024 + M), (E + 124); lia]. }
  destruct C' as (q & j & -> & Hq & Hj).
  destruct (Z_le_gt_dec (K + 113) j) as [L|G].
  - replace (2 ^ j) with (2 ^ (j - (K + 113)) * 2 ^ (K + 113)) in * by (rewrite <- Z.pow_add_r by lia; f_equal; lia).
    rewrite Z.mul_assoc in *. set (a := q * 2 ^ (j - (K + 113))) in *. clearbody a.
    assert (a * 2 ^ (K + 113) < (Q + 1) * 2 ^ (K + 113)) by lia.
    apply Z.mul_lt_mono_pos_r in H; [|lia]. apply Z.mul_le_mono_nonneg_r; lia.
  - assert (2 ^ (j + 1) <= 2 ^ (K + 113)) by (apply Z.pow_le_mono_r; lia).
    rewrite Z.pow_add_r in H by lia. change (2 ^ 1) with 2 in H.
    assert (0 < 2 ^ j) by (apply pow2_pos; lia).
    assert (q * 2 ^ j <= 2048 * 2 ^ j) by (apply Z.mul_le_mono_nonneg_r; lia).
    assert (1024 * 2 ^ (K + 113) <= Q * 2 ^ (K + 113)) by (apply Z.mul_le_mono_nonneg_r; lia). lia.
Qed.

(** the pattern written when the float is not taken for a subnormal *)
Lemma truncated w neg V : zone w neg V -> 2 ^ 135 <= V < 2 ^ 165 ->
  exists E M, w = pattern 23 8 neg E M /\ 113 <= E <= 142 /\ 0 <= M < 2 ^ 23 /\ V = (M + 2 ^ 23) * 2 ^ (E - 1) /\
    exists H, ieee 10 5 (pattern 10 5 neg ((E - 112) mod 32) (M / 8192)) = Finite neg H /\ rounded_down V H.
Proof.
  intros (Hw & HI) HV. destruct (ieee_finite w neg V Hw HI) as (E & M & Ew & HE & HM & _ & _ & _ & EV).
  destruct (Z.eqb_spec E 0) as [E0|E0]; [exfalso; pows; lia|].
  assert (Pe : 0 < 2 ^ (E - 1)) by (apply pow2_pos; lia).
  assert (L : 113 <= E).
  { destruct (Z_le_gt_dec 113 E) as [|G]; [assumption|]. exfalso.
    assert (2 ^ (E - 1) <= 2 ^ 111) by (apply Z.pow_le_mono_r; lia).
    assert ((M + 2 ^ 23) * 2 ^ (E - 1) < 2 ^ 24 * 2 ^ 111); [|pows; lia].
    apply Z.lt_le_trans with (2 ^ 24 * 2 ^ (E - 1)); [apply Z.mul_lt_mono_pos_r; lia|apply Z.mul_le_mono_nonneg_l; lia]. }
  assert (U : E <= 142).
  { destruct (Z_le_gt_dec E 142) as [|G]; [assumption|]. exfalso.
    assert (2 ^ 142 <= 2 ^ (E - 1)) by (apply Z.pow_le_mono_r; lia).
    assert (2 ^ 23 * 2 ^ 142 <= (M + 2 ^ 23) * 2 ^ (E - 1)) by (apply Z.mul_le_mono_nonneg; lia). pows; lia. }
  exists E, M. split; [exact Ew|]. split; [lia|]. split; [exact HM|]. split; [exact EV|].
  rewrite Z.mod_small by lia. change (2 ^ 23) with 8388608 in HM.
  rewrite ieee_pattern by (change (2 ^ 5) with 32; change (2 ^ 10) with 1024; lia).
  unfold reading. change (2 ^ 5 - 1) with 31. change (2 ^ (5 - 1) - 1) with 15. change (2 ^ 10) with 1024.
  replace (E - 112 =? 31) with false by lia. replace (E - 112 =? 0) with false by lia.
  replace (149 + (E - 112) - 15 - 10) with ((E - 101) + 113) by lia.
  eexists. split; [reflexivity|]. apply floor_half; [lia|lia|].
  replace (2 ^ (E - 101 + 113)) with (8192 * 2 ^ (E - 1)) by (change 8192 with (2 ^ 13); rewrite <- Z.pow_add_r by lia; f_equal; lia).
  rewrite EV, !Z.mul_assoc. split; [apply Z.mul_le_mono_nonneg_r|apply Z.mul_lt_mono_pos_r]; change (2 ^ 23) with 8388608; lia.
Qed.

(** the float of a normal half *)
Lemma normal_float s E M : 0 < E < 31 -> 0 <= M < 1024 ->
  zone (pattern 23 8 s (E + 112) (M * 8192)) s ((1024 + M) * 2 ^ (E + 124)).
Proof.
  intros HE HM. assert (HM' : 0 <= M * 8192 < 2 ^ 23) by (change (2 ^ 23) with 8388608; lia).
  destruct (pattern_parts 23 8 s (E + 112) (M * 8192) ltac:(lia) ltac:(lia) ltac:(change (2 ^ 8) with 256; lia) HM') as (_ & _ & _ & R & _).
  split; [exact R|]. rewrite ieee_pattern by (lia || (change (2 ^ 8) with 256; lia) || exact HM').
  unfold reading. change (2 ^ 8 - 1) with 255. change (2 ^ (8 - 1) - 1) with 127.
  replace (E + 112 =? 255) with false by lia. replace (E + 112 =? 0) with false by lia. f_equal.
  replace (2 ^ 23 + M * 8192) with ((1024 + M) * 2 ^ 13) by (change (2 ^ 23) with 8388608; change (2 ^ 13) with 8192; lia).
  rewrite <- Z.mul_assoc, <- Z.pow_add_r by lia. do 2 f_equal. lia.
Qed.
Lemma back_normal s E M : 0 < E < 31 -> 0 <= M < 1024 ->
  let w := pattern 23 8 s (E + 112) (M * 8192) in let T := fadd_bits w 0x3f000000 in
  (FromFloat 10 5 true w = pattern 10 5 s E M <-> sub_class T = false) /\
  (from_lane 10 5 true w = pattern 10 5 s E M <-> den_class T = false).
Proof.
  intros HE HM w T. assert (HM' : 0 <= M * 8192 < 2 ^ 23) by (change (2 ^ 23) with 8388608; lia).
  pose proof (FromFloat_form s (E + 112) (M * 8192) ltac:(lia) HM') as A. cbv zeta in A. fold w in A. fold T in A.
  pose proof (from_lane_form s (E + 112) (M * 8192) ltac:(lia) HM') as B. cbv zeta in B. fold w in B. fold T in B.
  replace (E + 112 =? 255) with false in * by lia.
  replace ((E + 112 - 112) mod 32) with E in * by (replace (E + 112 - 112) with E by lia; symmetry; apply Z.mod_small; lia).
  replace (M * 8192 / 8192) with M in * by lia.
  assert (K : forall m, 0 <= m < 1024 -> pattern 10 5 s 0 m <> pattern 10 5 s E M).
  { intros m Hm. unfold pattern. change (2 ^ 10) with 1024. lia. }
  assert (HT : 0 <= T mod 1024 < 1024) by (apply Z.mod_pos_bound; lia).
  split.
  - rewrite A. destruct (sub_class T); [|tauto]. split; [|discriminate]. intros X. exfalso. exact (K _ HT X).
  - rewrite B. destruct (den_class T); [|tauto]. split; [|discriminate]. intros X. exfalso. exact (K _ HT X).
Qed.

(** the zone a normal half falls in *)
Lemma mag_vs E M E0 M0 : 0 < E < 31 -> 0 <= M < 1024 -> 0 < E0 < 31 -> 0 <= M0 < 1024 ->
  ((1024 + M0) * 2 ^ (E0 + 124) <= (1024 + M) * 2 ^ (E + 124) <-> E0 * 1024 + M0 <= E * 1024 + M).
Proof.
  intros HE HM HE0 HM0.
  assert (S : forall a b x y, 0 < a < b -> b < 31 -> 0 <= x < 1024 -> 0 <= y < 1024 -> (1024 + x) * 2 ^ (a + 124) < (1024 + y) * 2 ^ (b + 124)).
  { intros a b x y Hab Hb Hx Hy.
    replace (2 ^ (b + 124)) with (2 ^ (b - a) * 2 ^ (a + 124)) by (rewrite <- Z.pow_add_r by lia; f_equal; lia).
    assert (2 ^ 1 <= 2 ^ (b - a)) by (apply Z.pow_le_mono_r; lia). change (2 ^ 1) with 2 in H.
    assert (0 < 2 ^ (a + 124)) by (apply pow2_pos; lia). rewrite Z.mul_assoc. apply Z.mul_lt_mono_pos_r; [lia|].
    assert (1024 * 2 <= (1024 + y) * 2 ^ (b - a)) by (apply Z.mul_le_mono_nonneg; lia). lia. }
  destruct (Z.lt_trichotomy E0 E) as [L|[->|G]].
  - pose proof (S E0 E M0 M ltac:(lia) ltac:(lia) HM0 HM). lia.
  - assert (0 < 2 ^ (E + 124)) by (apply pow2_pos; lia). rewrite <- Z.mul_le_mono_pos_r by lia. lia.
  - pose proof (S E E0 M M0 ltac:(lia) ltac:(lia) HM HM0). lia.
Qed.
Lemma mag_top E M : 0 < E < 31 -> 0 <= M < 1024 -> 2 ^ 135 <= (1024 + M) * 2 ^ (E + 124) < 2 ^ 165.
Proof.
  intros HE HM. assert (2 ^ 125 <= 2 ^ (E + 124) <= 2 ^ 154) by (split; apply Z.pow_le_mono_r; lia).
  assert (1024 * 2 ^ 125 <= (1024 + M) * 2 ^ (E + 124)) by (apply Z.mul_le_mono_nonneg; lia).
  assert ((1024 + M) * 2 ^ (E + 124) <= 2047 * 2 ^ 154) by (apply Z.mul_le_mono_nonneg; lia). pows. lia.
Qed.
Lemma back_scalar_normal s E M : 0 < E < 31 -> 0 <= M < 1024 ->
  (sub_class (fadd_bits (pattern 23 8 s (E + 112) (M * 8192)) 0x3f000000) = false <->
   if s then E * 1024 + M < 0x3c00 \/ 0x4100 <= E * 1024 + M else 0x3e00 <= E * 1024 + M).
Proof.
  intros HE HM. pose proof (normal_float s E M HE HM) as Z1. pose proof (mag_top E M HE HM) as MT.
  pose proof (mag_vs E M 15 0 HE HM ltac:(lia) ltac:(lia)) as C1.
  pose proof (mag_vs E M 15 512 HE HM ltac:(lia) ltac:(lia)) as C2.
  pose proof (mag_vs E M 16 256 HE HM ltac:(lia) ltac:(lia)) as C3.
  change ((1024 + 0) * 2 ^ (15 + 124)) with (2 ^ 149) in C1. change ((1024 + 512) * 2 ^ (15 + 124)) with (3 * 2 ^ 148) in C2.
  change ((1024 + 256) * 2 ^ (16 + 124)) with (5 * 2 ^ 148) in C3.
  set (w := pattern 23 8 s (E + 112) (M * 8192)) in *. set (V := (1024 + M) * 2 ^ (E + 124)) in *.
  destruct s.
  - destruct (Z_lt_le_dec V (2 ^ 149)) as [L|L].
    + destruct (Z.eq_dec V (2 ^ 148)) as [E148|N148].
      * assert (E = 14 /\ M = 0).
        { pose proof (mag_vs E M 14 0 HE HM ltac:(lia) ltac:(lia)) as D1. pose proof (mag_vs 14 0 E M ltac:(lia) ltac:(lia) HE HM) as D2.
          fold V in D1, D2. change ((1024 + 0) * 2 ^ (14 + 124)) with (2 ^ 148) in D1, D2. lia. }
        destruct H as [-> ->]. unfold w. split; [intros _; left; lia|intros _; vm_compute; reflexivity].
      * rewrite (not_sub w 0 126) by (try lia; apply (zone_neg_small w V); auto; lia). split; [intros _; left; lia|reflexivity].
    + destruct (Z_lt_le_dec V (5 * 2 ^ 148)) as [L5|L5].
      * rewrite (is_sub w 126 128) by (try lia; apply (zone_neg_sub w V); auto; lia). split; [discriminate|lia].
      * rewrite (not_sub w 128 146) by (try lia; apply (zone_neg_big w V); auto; lia). split; [lia|reflexivity].
  - destruct (Z_lt_le_dec V (3 * 2 ^ 148)) as [L|L].
    + rewrite (is_sub w 126 128) by (try lia; apply (zone_pos_small w V); auto; lia). split; [discriminate|lia].
    + rewrite (not_sub w 128 146) by (try lia; apply (zone_pos_big w V); auto; lia). split; [lia|reflexivity].
Qed.
Lemma half_top E M : 0 < E < 14 -> 0 <= M < 1024 -> (1024 + M) * 2 ^ (E + 124) <= 2 ^ 148 - 2 ^ 125.
Proof.
  intros HE HM. assert (2 ^ (E + 124) <= 2 ^ 137) by (apply Z.pow_le_mono_r; lia). assert (0 < 2 ^ (E + 124)) by (apply pow2_pos; lia).
  assert ((1024 + M) * 2 ^ (E + 124) <= 2047 * 2 ^ 137) by (apply Z.mul_le_mono_nonneg; lia). pows. lia.
Qed.
Lemma back_lane_normal s E M : 0 < E < 31 -> 0 <= M < 1024 ->
  (den_class (fadd_bits (pattern 23 8 s (E + 112) (M * 8192)) 0x3f000000) = false <->
   if s then E * 1024 + M < 0x3c00 \/ 0x3e00 <= E * 1024 + M else 0x3800 <= E * 1024 + M).
Proof.
  intros HE HM. pose proof (normal_float s E M HE HM) as Z1. pose proof (mag_top E M HE HM) as MT.
  pose proof (mag_vs E M 15 0 HE HM ltac:(lia) ltac:(lia)) as C1.
  pose proof (mag_vs E M 15 512 HE HM ltac:(lia) ltac:(lia)) as C2.
  pose proof (mag_vs E M 14 0 HE HM ltac:(lia) ltac:(lia)) as C3.
  change ((1024 + 0) * 2 ^ (15 + 124)) with (2 ^ 149) in C1. change ((1024 + 512) * 2 ^ (15 + 124)) with (3 * 2 ^ 148) in C2.
  change ((1024 + 0) * 2 ^ (14 + 124)) with (2 ^ 148) in C3.
  pose proof (half_top E M) as HT.
  set (w := pattern 23 8 s (E + 112) (M * 8192)) in *. set (V := (1024 + M) * 2 ^ (E + 124)) in *.
  destruct s.
  - destruct (Z_lt_le_dec V (2 ^ 149)) as [L|L].
    + destruct (Z.eq_dec V (2 ^ 148)) as [E148|N148].
      * assert (E = 14 /\ M = 0).
        { pose proof (mag_vs 14 0 E M ltac:(lia) ltac:(lia) HE HM) as D2.
          fold V in D2. change ((1024 + 0) * 2 ^ (14 + 124)) with (2 ^ 148) in D2. lia. }
        destruct H as [-> ->]. unfold w. split; [intros _; left; lia|intros _; vm_compute; reflexivity].
      * rewrite (not_den w 0 126) by (try lia; apply (zone_neg_small w V); auto; lia). split; [intros _; left; lia|reflexivity].
    + destruct (Z_lt_le_dec V (3 * 2 ^ 148)) as [L5|L5].
      * rewrite (is_den w) by (apply (zone_neg_den w V); auto; lia). split; [discriminate|lia].
      * rewrite (not_den w 127 146) by (try lia; apply (zone_neg_mid w V); auto; lia). split; [lia|reflexivity].
  - destruct (Z_lt_le_dec V (2 ^ 148)) as [L|L].
    + rewrite (is_den w) by (apply (zone_pos_tiny w V); auto; apply HT; lia). split; [discriminate|lia].
    + rewrite (not_den w 127 146) by (try lia; apply (zone_pos_mid w V); auto; lia). split; [lia|reflexivity].
Qed.

(** small positive floats: rounded to the nearest subnormal *)
Lemma rne_nearest V k : 0 <= V -> 0 < k -> 2 * Z.abs (V - rne V k * 2 ^ k) <= 2 ^ k.
Proof.
  intros HV Hk. unfold rne. destruct (Z.leb_spec k 0); [lia|]. assert (P : 0 < 2 ^ k) by (apply pow2_pos; lia).
  pose proof (Z.div_mod V (2 ^ k) ltac:(lia)) as D. pose proof (Z.mod_pos_bound V (2 ^ k) P) as B. cbv zeta.
  set (r := V mod 2 ^ k) in *. set (q := V / 2 ^ k) in *. set (t := 2 ^ k) in *. clearbody r q t.
  assert (A1 : V - q * t = r) by (rewrite D; ring). assert (A2 : V - (q + 1) * t = r - t) by (rewrite D; ring).
  destruct (Z.ltb_spec (2 * r) t); [rewrite A1; lia|]. destruct (Z.ltb_spec t (2 * r)); [rewrite A2; lia|].
  destruct (Z.even q); rewrite ?A1, ?A2; lia.
Qed.
Lemma tiny_sum w V : zone w false V -> V < 2047 * 2 ^ 124 ->
  fadd_bits w 0x3f000000 = 126 * 2 ^ 23 + rne V 125 /\ 0 <= rne V 125 < 1024.
Proof.
  intros (Hw & HI) HV.
  assert (H0 : 0 <= V) by (destruct (ieee_finite w false V Hw HI) as (? & ? & _ & _ & _ & _ & <- & _); apply mag_nonneg).
  destruct (exponent_of_sum w false V Hw HI) as (ET & _); [pows; lia|cbv iota; pows; lia|].
  cbv iota zeta in ET. rewrite ET. replace (V + 2 ^ 148 <? 0) with false by (pows; lia). cbn [sign_bit].
  rewrite Z.abs_eq by (pows; lia).
  assert (RB : 0 <= rne V 125 < 1024).
  { pose proof (rne_nearest V 125 H0 ltac:(lia)) as RN. set (r := rne V 125) in *. clearbody r.
    change (2 ^ 125) with (2 * 2 ^ 124) in RN. set (t := 2 ^ 124) in *. assert (0 < t) by reflexivity. clearbody t. split; nia. }
  split; [|exact RB].
  unfold enc. replace (Z.log2 (V + 2 ^ 148)) with 148.
  2:{ symmetry. apply Z.log2_unique; [lia|]. change (2 ^ Z.succ 148) with (2 ^ 149). pows. lia. }
  change (Z.max (148 - 23) 0) with 125. cbv zeta.
  assert (Q : rne (V + 2 ^ 148) 125 = 2 ^ 23 + rne V 125).
  { unfold rne. change (125 <=? 0) with false. cbv iota zeta.
    change (2 ^ 148) with (2 ^ 23 * 2 ^ 125). rewrite Z.div_add, Z.mod_add by (pows; lia).
    replace (Z.even (V / 2 ^ 125 + 2 ^ 23)) with (Z.even (V / 2 ^ 125)).
    2:{ rewrite Z.even_add. change (Z.even (2 ^ 23)) with true. destruct (Z.even (V / 2 ^ 125)); reflexivity. }
    set (q := V / 2 ^ 125). set (r := V mod 2 ^ 125). clearbody q r. generalize (2 ^ 125) (2 ^ 23). intros t u.
    destruct (2 * r <? t); [lia|]. destruct (t <? 2 * r); [lia|]. destruct (Z.even q); lia. }
  rewrite Q. lia.
Qed.
Lemma nearest_small V r : 0 <= V -> V < 2047 * 2 ^ 124 -> 0 <= r < 1024 -> 2 * Z.abs (V - r * 2 ^ 125) <= 2 ^ 125 -> nearest_half V (r * 2 ^ 125).
Proof.
  intros H0 HV Hr HN h n H' Hh HI. destruct (half_finite h n H' Hh HI) as (E & M & HM & _ & C).
  assert (D : (2 ^ 125 | H')).
  { destruct C as [(_ & ->)|(HE & ->)]; [now exists M|]. exists ((1024 + M) * 2 ^ (E - 1)).
    rewrite <- Z.mul_assoc, <- Z.pow_add_r by lia. do 2 f_equal. lia. }
  destruct D as (q & ->). destruct (Z.eq_dec q r) as [->|Hq]; [lia|].
  assert (2 ^ 125 <= Z.abs (q * 2 ^ 125 - r * 2 ^ 125)).
  { rewrite <- Z.mul_sub_distr_r, Z.abs_mul, (Z.abs_eq (2 ^ 125)) by (pows; lia).
    assert (1 * 2 ^ 125 <= Z.abs (q - r) * 2 ^ 125) by (apply Z.mul_le_mono_nonneg_r; [pows|]; lia). lia. }
  lia.
Qed.
