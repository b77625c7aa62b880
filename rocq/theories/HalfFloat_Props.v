(** C44: small float conversions, datas/float.hpp.  [ieee mb eb w] is the IEEE 754 reading of a
    pattern (HalfFloat_Spec.v); [ieee 23 8] that of a float, [ieee 10 5] that of a half. *)
From Verif Require Import Base Float_Model Float_Proof HalfFloat_Model HalfFloat_Spec HalfFloat_Proof.

Lemma tiny_split w : negative_tiny w -> exists M, 0 <= M < 1024 /\ w = 0x8000 + M /\ ieee 10 5 w = Finite true (M * 2 ^ 125).
Proof.
  intros Hw. unfold negative_tiny in Hw. exists (w - 0x8000). split; [lia|]. split; [lia|].
  replace w with (pattern 10 5 true 0 (w - 0x8000)) at 1 by (unfold pattern; change (2 ^ (10 + 5)) with 0x8000; lia).
  rewrite ieee_pattern by (lia || (change (2 ^ 10) with 1024; lia)). reflexivity.
Qed.
Lemma ieee_zero_exp M : 0 <= M < 1024 -> ieee 10 5 M = Finite false (M * 2 ^ 125).
Proof.
  intros HM. replace M with (pattern 10 5 false 0 M) at 1 by (unfold pattern; lia).
  rewrite ieee_pattern by (lia || (change (2 ^ 10) with 1024; lia)). reflexivity.
Qed.

(** *** Decoding *)
(** ToFloat gives every half its value, infinity or NaN, except minus zero and the negative
    subnormals. *)
Theorem C44_ToFloat_exact : forall w, half w ->
  ~ negative_tiny w -> ieee 23 8 (ToFloat 10 5 true w) = ieee 10 5 w.
Proof.
  intros w Hw Ht. destruct (half_parts w Hw) as (s & E & M & HE & HM & ->).
  destruct (Z.eq_dec E 0) as [->|E0].
  - destruct s.
    + exfalso. apply Ht. unfold negative_tiny, pattern. change (2 ^ (10 + 5)) with 0x8000. lia.
    + replace (pattern 10 5 false 0 M) with M by (unfold pattern; lia). rewrite ieee_zero_exp by lia. now apply zero_ok.
  - rewrite ToFloat_normal by lia. assert (HM' : 0 <= M * 8192 < 2 ^ 23) by (change (2 ^ 23) with 8388608; lia).
    rewrite !ieee_pattern by (lia || (change (2 ^ 10) with 1024; lia) || (destruct (E =? 31); change (2 ^ 8) with 256; lia)).
    unfold reading. change (2 ^ 8 - 1) with 255. change (2 ^ 5 - 1) with 31. change (2 ^ (8 - 1) - 1) with 127. change (2 ^ (5 - 1) - 1) with 15.
    destruct (Z.eqb_spec E 31) as [->|E31].
    + change (255 =? 255) with true. destruct (Z.eqb_spec M 0), (Z.eqb_spec (M * 8192) 0); try lia; reflexivity.
    + replace (E + 112 =? 255) with false by lia. replace (E + 112 =? 0) with false by lia. replace (E =? 0) with false by lia.
      f_equal. replace (2 ^ 23 + M * 8192) with ((2 ^ 10 + M) * 2 ^ 13) by (change (2 ^ 23) with 8388608; change (2 ^ 13) with 8192; change (2 ^ 10) with 1024; lia).
      rewrite <- Z.mul_assoc, <- Z.pow_add_r by lia. do 2 f_equal. lia.
Qed.
Print Assumptions C44_ToFloat_exact.

(** Those come out as -1 or less instead of at most 2^-14 away from zero. *)
Theorem C44_ToFloat_negative_tiny_wrong : forall w, negative_tiny w ->
  exists v, ieee 23 8 (ToFloat 10 5 true w) = Finite true v /\ 2 ^ 149 <= v /\
    exists v', ieee 10 5 w = Finite true v' /\ v' < 2 ^ 135.
Proof.
  intros w Hw. destruct (tiny_split w Hw) as (M & HM & -> & E). destruct (zero_ok M HM) as (_ & (v & Ev & Hv) & _).
  exists v. split; [exact Ev|]. split; [exact Hv|]. exists (M * 2 ^ 125). split; [exact E|].
  change (2 ^ 135) with (1024 * 2 ^ 125). apply Z.mul_lt_mono_pos_r; [reflexivity|lia].
Qed.
Print Assumptions C44_ToFloat_negative_tiny_wrong.

(** The vector decoder gives every half its value, signed zeros and subnormals included; a NaN
    comes out as an infinity of its sign. *)
Theorem C44_ToVector4_exact : forall ws, Forall half ws ->
  Forall2 (fun w f => (ieee 10 5 w <> NotANumber -> ieee 23 8 f = ieee 10 5 w) /\
                      (ieee 10 5 w = NotANumber -> ieee 23 8 f = Infinite (Z.testbit w 15))) ws (ToVector4 10 5 true ws).
Proof.
  intros ws Hs. unfold ToVector4. induction Hs as [|w ws Hw _ IH]; constructor; auto. clear IH.
  destruct (half_parts w Hw) as (s & E & M & HE & HM & ->).
  destruct (pattern_parts 10 5 s E M ltac:(lia) ltac:(lia) ltac:(lia) ltac:(lia)) as (Sb & _). change (10 + 5) with 15 in Sb. rewrite Sb.
  destruct (Z.eq_dec E 0) as [->|E0].
  - replace (ieee 10 5 (pattern 10 5 s 0 M)) with (Finite s (M * 2 ^ 125))
      by (rewrite ieee_pattern by (lia || (change (2 ^ 10) with 1024; lia)); reflexivity).
    split; [intros _|discriminate].
    destruct (zero_ok M HM) as (_ & _ & A & B & _). destruct s.
    + replace (pattern 10 5 true 0 M) with (0x8000 + M) by (unfold pattern; change (2 ^ (10 + 5)) with 0x8000; lia). exact B.
    + replace (pattern 10 5 false 0 M) with M by (unfold pattern; lia). exact A.
  - rewrite to_lane_normal by lia. assert (HM' : 0 <= M * 8192 < 2 ^ 23) by (change (2 ^ 23) with 8388608; lia).
    rewrite (ieee_pattern 10 5) by (lia || (change (2 ^ 10) with 1024; lia)). unfold reading at 1 2 3.
    change (2 ^ 5 - 1) with 31. destruct (Z.eqb_spec E 31) as [->|E31].
    + rewrite ieee_pattern by (reflexivity || lia). change (reading 23 8 s 255 0) with (Infinite s).
      destruct (M =? 0); split; auto; try discriminate; congruence.
    + rewrite ieee_pattern by (lia || (change (2 ^ 8) with 256; lia)).
      replace (E =? 0) with false by lia. split; [intros _|discriminate].
      unfold reading. change (2 ^ 8 - 1) with 255. change (2 ^ (8 - 1) - 1) with 127. change (2 ^ (5 - 1) - 1) with 15.
      replace (E + 112 =? 255) with false by lia. replace (E + 112 =? 0) with false by lia.
      f_equal. replace (2 ^ 23 + M * 8192) with ((2 ^ 10 + M) * 2 ^ 13) by (change (2 ^ 23) with 8388608; change (2 ^ 13) with 8192; change (2 ^ 10) with 1024; lia).
      rewrite <- Z.mul_assoc, <- Z.pow_add_r by lia. do 2 f_equal. lia.
Qed.
Print Assumptions C44_ToVector4_exact.

(** *** Encoding.  Magnitudes are in units of 2^-149: 2^149 is 1.0, 2^148 is 0.5, 2^165 is 65536. *)
(** A float of magnitude at least 1.5 (2.5 if negative) and below 65536, or negative above -1 and
    at most -2^-14, becomes the half next to it toward zero. *)
Theorem C44_FromFloat_truncates : forall w neg V, 0 <= w < 2 ^ 32 -> ieee 23 8 w = Finite neg V ->
  (if neg then 2 ^ 135 <= V < 2 ^ 149 \/ 5 * 2 ^ 148 <= V < 2 ^ 165 else 3 * 2 ^ 148 <= V < 2 ^ 165) ->
  exists H, ieee 10 5 (FromFloat 10 5 true w) = Finite neg H /\ rounded_down V H.
Proof.
  intros w neg V Hw HI HV. assert (HR : 2 ^ 135 <= V < 2 ^ 165) by (pows; destruct neg; lia).
  destruct (truncated w neg V (conj Hw HI) HR) as (E & M & Ew & HE & HM & EV & H & EH & RD).
  exists H. split; [|exact RD]. rewrite <- EH. f_equal.
  pose proof (FromFloat_form neg E M ltac:(lia) HM) as F. cbv zeta in F. rewrite <- Ew in F. rewrite F.
  assert (Esub : sub_class (fadd_bits w 0x3f000000) = false).
  { destruct neg.
    - destruct HV as [HV|HV].
      + destruct (Z.eq_dec V (2 ^ 148)) as [E148|N148]; [|apply (not_sub w 0 126); [apply (zone_neg_small w V); [split; assumption|lia|assumption]|lia]].
        assert (E = 126 /\ M = 0).
        { assert (E - 1 = 125).
          { destruct (Z.lt_trichotomy (E - 1) 125) as [L|[L|L]]; [|exact L|]; exfalso.
            - assert (2 ^ (E - 1) <= 2 ^ 124) by (apply Z.pow_le_mono_r; lia). assert (0 < 2 ^ (E - 1)) by (apply pow2_pos; lia).
              assert ((M + 2 ^ 23) * 2 ^ (E - 1) < 2 ^ 24 * 2 ^ 124); [|pows; lia].
              apply Z.lt_le_trans with (2 ^ 24 * 2 ^ (E - 1)); [apply Z.mul_lt_mono_pos_r; lia|apply Z.mul_le_mono_nonneg_l; lia].
            - assert (2 ^ 126 <= 2 ^ (E - 1)) by (apply Z.pow_le_mono_r; lia).
              assert (2 ^ 23 * 2 ^ 126 <= (M + 2 ^ 23) * 2 ^ (E - 1)) by (apply Z.mul_le_mono_nonneg; lia). pows; lia. }
          split; [lia|]. rewrite H0 in EV. pows. lia. }
        destruct H0 as [-> ->]. rewrite Ew. vm_compute. reflexivity.
      + apply (not_sub w 128 146); [apply (zone_neg_big w V); [split; assumption|lia]|lia].
    - apply (not_sub w 128 146); [apply (zone_pos_big w V); [split; assumption|lia]|lia]. }
  rewrite Esub. replace (E =? 255) with false by lia. reflexivity.
Qed.
Print Assumptions C44_FromFloat_truncates.

(** A non-negative float below 1023.5 * 2^-24 becomes the nearest half. *)
Theorem C44_FromFloat_subnormal : forall w V, 0 <= w < 2 ^ 32 -> ieee 23 8 w = Finite false V -> V < 2047 * 2 ^ 124 ->
  exists H, ieee 10 5 (FromFloat 10 5 true w) = Finite false H /\ nearest_half V H.
Proof.
  intros w V Hw HI HV. destruct (tiny_sum w V (conj Hw HI) HV) as [ET HR].
  destruct (ieee_finite w false V Hw HI) as (E & M & Ew & HE & HM & _ & MV & _).
  assert (H0 : 0 <= V) by (rewrite <- MV; apply mag_nonneg).
  pose proof (FromFloat_form false E M ltac:(lia) HM) as F. cbv zeta in F. rewrite <- Ew in F. rewrite F.
  rewrite (is_sub w 126 128) by (first [lia | apply (zone_pos_small w V); [split; assumption|pows; lia]]).
  replace (E =? 255) with false by lia. rewrite ET.
  replace ((126 * 2 ^ 23 + rne V 125) mod 1024) with (rne V 125) by (change (2 ^ 23) with 8388608; lia).
  exists (rne V 125 * 2 ^ 125). split.
  - rewrite ieee_pattern by (lia || (change (2 ^ 10) with 1024; lia)). reflexivity.
  - apply nearest_small; auto. apply rne_nearest; lia.
Qed.
Print Assumptions C44_FromFloat_subnormal.

(** Every other finite float of magnitude 2^-14 up to 65536 - those in [2^-14, 1.5) and (-2.5, -1]
    - is taken for a subnormal: the result is below 2^-14. *)
Theorem C44_FromFloat_loses : forall w neg V, 0 <= w < 2 ^ 32 -> ieee 23 8 w = Finite neg V ->
  (if neg then 2 ^ 149 <= V < 5 * 2 ^ 148 else 2 ^ 135 <= V < 3 * 2 ^ 148) ->
  exists H, ieee 10 5 (FromFloat 10 5 true w) = Finite neg H /\ H < 2 ^ 135.
Proof.
  intros w neg V Hw HI HV. destruct (ieee_finite w neg V Hw HI) as (E & M & Ew & HE & HM & _).
  pose proof (FromFloat_form neg E M ltac:(lia) HM) as F. cbv zeta in F. rewrite <- Ew in F. rewrite F.
  assert (Esub : sub_class (fadd_bits w 0x3f000000) = true).
  { apply (is_sub w 126 128); [|lia|lia]. destruct neg; [apply (zone_neg_sub w V)|apply (zone_pos_small w V)]; first [split; assumption | lia]. }
  rewrite Esub. replace (E =? 255) with false by lia.
  set (m := fadd_bits w 0x3f000000 mod 1024). assert (Hm : 0 <= m < 1024) by (apply Z.mod_pos_bound; lia). clearbody m.
  exists (m * 2 ^ 125). split; [rewrite ieee_pattern by (lia || (change (2 ^ 10) with 1024; lia)); reflexivity|].
  change (2 ^ 135) with (1024 * 2 ^ 125). apply Z.mul_lt_mono_pos_r; [reflexivity|lia].
Qed.
Print Assumptions C44_FromFloat_loses.
Example C44_FromFloat_cases :
  map (FromFloat 10 5 true) [0x3fc00000; 0x4454e000; 0xbf7fffff; 0xc0200000; 0x3f800000; 0x3eaaaaab; 0x48000000] =
    [0x3e00; 0x62a7; 0xbbff; 0xc100; 0; 342; 0].
Proof. vm_compute. reflexivity. Qed.

(** The vector encoder: truncation from 0.5 up, from -1.5 down, and between -1 and -2^-14. *)
Theorem C44_FromVector4_truncates : forall w neg V, 0 <= w < 2 ^ 32 -> ieee 23 8 w = Finite neg V ->
  (if neg then (2 ^ 135 <= V < 2 ^ 149 /\ V <> 2 ^ 148) \/ 3 * 2 ^ 148 <= V < 2 ^ 165 else 2 ^ 148 <= V < 2 ^ 165) ->
  exists h H, FromVector4 10 5 true [w] = [h] /\ ieee 10 5 h = Finite neg H /\ rounded_down V H.
Proof.
  intros w neg V Hw HI HV. assert (HR : 2 ^ 135 <= V < 2 ^ 165) by (pows; destruct neg; lia).
  destruct (truncated w neg V (conj Hw HI) HR) as (E & M & Ew & HE & HM & EV & H & EH & RD).
  exists (from_lane 10 5 true w), H. split; [reflexivity|]. split; [|exact RD]. rewrite <- EH. f_equal.
  pose proof (from_lane_form neg E M ltac:(lia) HM) as F. cbv zeta in F. rewrite <- Ew in F. rewrite F.
  assert (Esub : den_class (fadd_bits w 0x3f000000) = false).
  { destruct neg.
    - destruct HV as [HV|HV].
      + apply (not_den w 0 126); [apply (zone_neg_small w V); [split; assumption|lia|tauto]|lia].
      + apply (not_den w 127 146); [apply (zone_neg_mid w V); [split; assumption|lia]|lia].
    - apply (not_den w 127 146); [apply (zone_pos_mid w V); [split; assumption|lia]|lia]. }
  rewrite Esub. replace (E =? 255) with false by lia. reflexivity.
Qed.
Print Assumptions C44_FromVector4_truncates.
Theorem C44_FromVector4_subnormal : forall w V, 0 <= w < 2 ^ 32 -> ieee 23 8 w = Finite false V -> V < 2047 * 2 ^ 124 ->
  exists h H, FromVector4 10 5 true [w] = [h] /\ ieee 10 5 h = Finite false H /\ nearest_half V H.
Proof.
  intros w V Hw HI HV. destruct (tiny_sum w V (conj Hw HI) HV) as [ET HR].
  destruct (ieee_finite w false V Hw HI) as (E & M & Ew & HE & HM & _ & MV & _).
  assert (H0 : 0 <= V) by (rewrite <- MV; apply mag_nonneg).
  pose proof (from_lane_form false E M ltac:(lia) HM) as F. cbv zeta in F. rewrite <- Ew in F.
  exists (from_lane 10 5 true w), (rne V 125 * 2 ^ 125). split; [reflexivity|]. rewrite F.
  rewrite (is_den w) by (apply (zone_pos_tiny w V); [split; assumption|pows; lia]).
  rewrite ET. replace ((126 * 2 ^ 23 + rne V 125) mod 1024) with (rne V 125) by (change (2 ^ 23) with 8388608; lia).
  split.
  - rewrite ieee_pattern by (lia || (change (2 ^ 10) with 1024; lia)). reflexivity.
  - apply nearest_small; auto. apply rne_nearest; lia.
Qed.
Print Assumptions C44_FromVector4_subnormal.
Theorem C44_FromVector4_loses : forall w neg V, 0 <= w < 2 ^ 32 -> ieee 23 8 w = Finite neg V ->
  (if neg then 2 ^ 149 <= V < 3 * 2 ^ 148 else 2 ^ 135 <= V <= 2 ^ 148 - 2 ^ 125) ->
  exists h H, FromVector4 10 5 true [w] = [h] /\ ieee 10 5 h = Finite neg H /\ H < 2 ^ 135.
Proof.
  intros w neg V Hw HI HV. destruct (ieee_finite w neg V Hw HI) as (E & M & Ew & HE & HM & _).
  pose proof (from_lane_form neg E M ltac:(lia) HM) as F. cbv zeta in F. rewrite <- Ew in F.
  assert (Esub : den_class (fadd_bits w 0x3f000000) = true).
  { apply (is_den w). destruct neg; [apply (zone_neg_den w V)|apply (zone_pos_tiny w V)]; first [split; assumption | lia]. }
  rewrite Esub in F.
  set (m := fadd_bits w 0x3f000000 mod 1024) in *. assert (Hm : 0 <= m < 1024) by (apply Z.mod_pos_bound; lia). clearbody m.
  exists (from_lane 10 5 true w), (m * 2 ^ 125). split; [reflexivity|]. rewrite F.
  split; [rewrite ieee_pattern by (lia || (change (2 ^ 10) with 1024; lia)); reflexivity|].
  change (2 ^ 135) with (1024 * 2 ^ 125). apply Z.mul_lt_mono_pos_r; [reflexivity|lia].
Qed.
Print Assumptions C44_FromVector4_loses.
Example C44_FromVector4_cases :
  FromVector4 10 5 true [0x3f000000; 0x4454e000; 0xbf7fffff; 0xbfc00000; 0x3e800000; 0xbf800000] = [0x3800; 0x62a7; 0xbbff; 0xbe00; 0; 0x8000].
Proof. vm_compute. reflexivity. Qed.

(** *** Round trips *)
(** The scalar pair gives a half back exactly for: non-negative subnormals and zero; 1.5 and above
    up to infinity; negative subnormals of even mantissa; the other negatives above -1; and -2.5
    and below.  In particular every normal half in (0, 1.5) is lost, and every NaN. *)
Theorem C44_scalar_round_trip : forall w, half w ->
  (FromFloat 10 5 true (ToFloat 10 5 true w) = w <->
   w < 0x400 \/ 0x3e00 <= w <= 0x7c00 \/ (negative_tiny w /\ Z.even w = true) \/
   0x8400 <= w < 0xbc00 \/ 0xc100 <= w <= 0xfc00).
Proof.
  intros w Hw. destruct (half_parts w Hw) as (s & E & M & HE & HM & ->). unfold negative_tiny.
  destruct (Z.eq_dec E 0) as [->|E0]; [|destruct (Z.eq_dec E 31) as [->|E31]].
  - destruct (zero_ok M HM) as (_ & _ & _ & _ & A & B & _). destruct s.
    + replace (pattern 10 5 true 0 M) with (0x8000 + M) by (unfold pattern; change (2 ^ (10 + 5)) with 0x8000; lia).
      rewrite B. replace (Z.even (0x8000 + M)) with (Z.even M) by (rewrite Z.even_add; destruct (Z.even M); reflexivity).
      generalize (Z.even M). intros b. split; [intros ->; right; right; left; lia|].
      intros [X|[X|[X|X]]]; [lia|lia|tauto|lia].
    + replace (pattern 10 5 false 0 M) with M by (unfold pattern; lia). split; [intros _; lia|intros _; exact A].
  - rewrite ToFloat_normal by lia. change (31 =? 31) with true. cbv iota.
    assert (HM' : 0 <= M * 8192 < 2 ^ 23) by (change (2 ^ 23) with 8388608; lia).
    pose proof (FromFloat_form s 255 (M * 8192) ltac:(lia) HM') as F. cbv zeta in F. rewrite F. clear F.
    change (255 =? 255) with true. cbv iota.
    destruct (Z.eq_dec M 0) as [->|M0].
    + replace (if sub_class (fadd_bits (pattern 23 8 s 255 (0 * 8192)) 1056964608) then _ else _) with 0 by (destruct s; vm_compute; reflexivity).
      unfold pattern. change (2 ^ (10 + 5)) with 0x8000. change (2 ^ 10) with 1024. destruct s; lia.
    + destruct (pattern_parts 23 8 s 255 (M * 8192) ltac:(lia) ltac:(lia) ltac:(change (2 ^ 8) with 256; lia) HM') as (_ & A & B & R & _).
      set (f := pattern 23 8 s 255 (M * 8192)) in *.
      assert (ET : fadd_bits f 0x3f000000 = Z.lor f (2 ^ 22)).
      { unfold fadd_bits, is_nan_bits. rewrite A, B. change (255 =? 255) with true. replace (M * 8192 =? 0) with false by lia. reflexivity. }
      rewrite ET.
      assert (Es : sub_class (Z.lor f (2 ^ 22)) = true).
      { unfold sub_class. rewrite <- Z.shiftr_div_pow2, Z.shiftr_lor, !Z.shiftr_div_pow2 by lia.
        change (2 ^ 22 / 2 ^ 24) with 0. rewrite Z.lor_0_r. unfold f, pattern.
        change (2 ^ (23 + 8)) with 2147483648. change (2 ^ 23) with 8388608. change (2 ^ 24) with 16777216. change (2 ^ 6) with 64.
        apply Z.eqb_eq. destruct s; lia. }
      rewrite Es.
      assert (Em : Z.lor f (2 ^ 22) mod 1024 = 0).
      { change 1024 with (2 ^ 10). rewrite <- Z.land_ones, Z.land_lor_distr_l, !Z.land_ones by lia.
        change (2 ^ 22 mod 2 ^ 10) with 0. rewrite Z.lor_0_r. unfold f, pattern.
        change (2 ^ (23 + 8)) with 2147483648. change (2 ^ 23) with 8388608. change (2 ^ 10) with 1024. destruct s; lia. }
      rewrite Em. unfold pattern. change (2 ^ (10 + 5)) with 0x8000. change (2 ^ 10) with 1024. destruct s; lia.
  - rewrite ToFloat_normal by lia. replace (E =? 31) with false by lia.
    rewrite (proj1 (back_normal s E M ltac:(lia) HM)), back_scalar_normal by lia.
    unfold pattern. change (2 ^ (10 + 5)) with 0x8000. change (2 ^ 10) with 1024. destruct s; lia.
Qed.
Print Assumptions C44_scalar_round_trip.

(** 1.5, 1.0 and 0.5 as halves; the last two do not survive. *)
Example C44_scalar_cases :
  map (fun w => FromFloat 10 5 true (ToFloat 10 5 true w)) [0x3e00; 0x3c00; 0x3800; 0x62a7; 0x1f; 0x7c00] =
    [0x3e00; 0; 0; 0x62a7; 0x1f; 0x7c00] /\ half 0x3c00.
Proof. split; [vm_compute; reflexivity|split; vm_compute; congruence]. Qed.

(** The vector pair: likewise from 0.5 up, minus zero, negatives above -1 but no subnormals, and
    -1.5 and below. *)
Theorem C44_vector_round_trip : forall w, half w ->
  (FromVector4 10 5 true (ToVector4 10 5 true [w]) = [w] <->
   w < 0x400 \/ 0x3800 <= w <= 0x7c00 \/ w = 0x8000 \/ 0x8400 <= w < 0xbc00 \/ 0xbe00 <= w <= 0xfc00).
Proof.
  intros w Hw. cbn [ToVector4 FromVector4 map].
  transitivity (from_lane 10 5 true (to_lane 10 5 true w) = w); [split; [congruence|now intros ->]|].
  destruct (half_parts w Hw) as (s & E & M & HE & HM & ->).
  destruct (Z.eq_dec E 0) as [->|E0]; [|destruct (Z.eq_dec E 31) as [->|E31]].
  - destruct (zero_ok M HM) as (_ & _ & _ & _ & _ & _ & A & B). destruct s.
    + replace (pattern 10 5 true 0 M) with (0x8000 + M) by (unfold pattern; change (2 ^ (10 + 5)) with 0x8000; lia).
      rewrite B. lia.
    + replace (pattern 10 5 false 0 M) with M by (unfold pattern; lia). split; [intros _; lia|intros _; exact A].
  - rewrite to_lane_normal by lia. change (31 =? 31) with true. cbv iota.
    replace (from_lane 10 5 true (pattern 23 8 s 255 0)) with (pattern 10 5 s 31 0) by (destruct s; vm_compute; reflexivity).
    unfold pattern. change (2 ^ (10 + 5)) with 0x8000. change (2 ^ 10) with 1024. destruct s; lia.
  - rewrite to_lane_normal by lia. replace (E =? 31) with false by lia.
    rewrite (proj2 (back_normal s E M ltac:(lia) HM)), back_lane_normal by lia.
    unfold pattern. change (2 ^ (10 + 5)) with 0x8000. change (2 ^ 10) with 1024. destruct s; lia.
Qed.
Print Assumptions C44_vector_round_trip.

(** Lanes are independent in both directions. *)
Theorem C44_lanes_independent : forall m e s a b,
  ToVector4 m e s (a ++ b) = ToVector4 m e s a ++ ToVector4 m e s b /\
  FromVector4 m e s (a ++ b) = FromVector4 m e s a ++ FromVector4 m e s b.
Proof. intros. unfold ToVector4, FromVector4. now rewrite !map_app. Qed.
Print Assumptions C44_lanes_independent.

(** The 5+6 bit unsigned float of the vertex formats: exact for zero, normals and infinity;
    subnormals are 16 times too small, NaNs become infinity. *)
Theorem C44_ufloat_6_5 : forall w, 0 <= w < 2048 ->
  (w = 0 \/ 64 <= w <= 0x7c0 -> ieee 23 8 (to_lane 6 5 false w) = ieee 6 5 w) /\
  (0 < w < 64 -> ieee 6 5 w = Finite false (w * 2 ^ 129) /\
                 ieee 23 8 (to_lane 6 5 false w) = Finite false (w * 2 ^ 125)) /\
  (0x7c0 < w -> ieee 6 5 w = NotANumber /\ ieee 23 8 (to_lane 6 5 false w) = Infinite false).
Proof.
  intros w Hw. pose proof (all_below _ _ u6_sweep w Hw) as H. unfold u6_check in H.
  destruct (Z.ltb_spec 0 w), (Z.ltb_spec w 64), (Z.ltb_spec 0x7c0 w); cbn [andb] in H;
    rewrite ?andb_true_iff, ?same_iff in H; repeat split; intros; try lia; tauto.
Qed.
Print Assumptions C44_ufloat_6_5.

(** The signed 5+5 bit one: likewise, subnormals 32 times too small. *)
Theorem C44_float_5_5 : forall w, 0 <= w < 2048 ->
  let a := w mod 1024 in let neg := 1024 <=? w in
  (a = 0 \/ 32 <= a <= 0x3e0 -> ieee 23 8 (to_lane 5 5 true w) = ieee 5 5 w) /\
  (0 < a < 32 -> ieee 5 5 w = Finite neg (a * 2 ^ 130) /\
                 ieee 23 8 (to_lane 5 5 true w) = Finite neg (a * 2 ^ 125)) /\
  (0x3e0 < a -> ieee 5 5 w = NotANumber /\ ieee 23 8 (to_lane 5 5 true w) = Infinite neg).
Proof.
  intros w Hw a neg. pose proof (all_below _ _ s5_sweep w Hw) as H. unfold s5_check in H.
  fold a neg in H. clearbody neg. assert (Ha : 0 <= a < 1024) by (apply Z.mod_pos_bound; lia).
  destruct (Z.ltb_spec 0 a), (Z.ltb_spec a 32), (Z.ltb_spec 0x3e0 a); cbn [andb] in H;
    rewrite ?andb_true_iff, ?same_iff in H; repeat split; intros; try lia; tauto.
Qed.
Print Assumptions C44_float_5_5.

(** VectorR11G11B10_UFLOAT uses 11 mantissa bits on 11-bit fields, signed shifts, and takes the
    third field from bit 21: a field below 1024 decodes to field * 2^-24, any other to infinity. *)
Definition misread (c f : Z) : Prop :=
  (c < 1024 -> ieee 23 8 f = Finite false (c * 2 ^ 125)) /\ (1024 <= c -> ieee 23 8 f = Infinite false).
Theorem C44_packed_ufloat_as_is : forall data, 0 <= data < 2 ^ 32 ->
  exists x y z, R11G11B10_UFLOAT data = [x; y; z; 0] /\
    misread (data mod 2048) x /\ misread ((data / 2 ^ 11) mod 2048) y /\ misread (data / 2 ^ 21) z.
Proof.
  intros data Hd. unfold R11G11B10_UFLOAT, ToVector4. cbn [map].
  pose proof (field_of data 21 Hd ltac:(lia)) as E21. pose proof (field_of data 10 Hd ltac:(lia)) as E10.
  pose proof (field_of data 0 Hd ltac:(lia)) as E0. change (2 ^ 0) with 1 in E0.
  rewrite E21, E10, E0. change (21 - 21) with 0. change (21 - 10) with 11. change (21 - 0) with 21.
  change (2 ^ 0) with 1. rewrite Z.div_1_r.
  replace (to_lane 11 5 false (lsar (lmul data 0) 21)) with 0 by (unfold lmul; rewrite Z.mul_0_r; reflexivity).
  rewrite (Z.mod_small (data / 2 ^ 21)) by (change (2 ^ 21) with 2097152; change (2 ^ 32) with 4294967296 in Hd; lia).
  assert (G : forall c, 0 <= c < 2048 -> misread c (field_lane c)).
  { intros c Hc. pose proof (all_below _ _ u11_sweep c Hc) as H. unfold u11_check in H.
    destruct (Z.ltb_spec c 1024); apply same_iff in H; split; intros; try lia; exact H. }
  do 3 eexists. split; [reflexivity|]. repeat split; apply G; try apply Z.mod_pos_bound; try lia;
    change (2 ^ 21) with 2097152; change (2 ^ 32) with 4294967296 in Hd; lia.
Qed.
Print Assumptions C44_packed_ufloat_as_is.

(** So no component other than zero, infinity and NaN decodes to the value it encodes. *)
Theorem C44_packed_ufloat_wrong : forall data, 0 <= data < 2 ^ 32 ->
  0 < data mod 2048 < 0x7c0 ->
  ieee 23 8 (nth 0 (R11G11B10_UFLOAT data) 0) <> ieee 6 5 (data mod 2048).
Proof.
  intros data Hd Hc. unfold R11G11B10_UFLOAT, ToVector4. cbn [map nth].
  rewrite (field_of data 21 Hd ltac:(lia)). change (21 - 21) with 0. change (2 ^ 0) with 1. rewrite Z.div_1_r.
  pose proof (all_below _ _ u11_wrong_sweep (data mod 2048) ltac:(lia)) as H. unfold u11_wrong in H.
  apply orb_true_iff in H as [H|H].
  { apply orb_true_iff in H as [H|H]; [apply Z.eqb_eq in H|apply Z.leb_le in H]; lia. }
  apply negb_true_iff in H. intros E. apply same_iff in E. unfold field_lane in H. congruence.
Qed.
Print Assumptions C44_packed_ufloat_wrong.
Example C44_packed_case : R11G11B10_UFLOAT 0x3c0 = [0x38700000; 0; 0; 0] /\ ieee 6 5 0x3c0 = Finite false (2 ^ 149).
Proof. split; vm_compute; reflexivity. Qed.
