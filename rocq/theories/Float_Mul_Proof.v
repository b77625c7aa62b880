(** Products of a float integer and a normal float, and rounding as a monotone map. *)
From Coq Require Import Floats.SpecFloat.
From Verif Require Import Base Float_Model Float_Proof Vector_Proof.

Lemma enc_near s X : 2 ^ 23 <= X -> X < 2 ^ 276 ->
  exists Y, finite (sign_bit s + enc X) /\ val (sign_bit s + enc X) = (if s then - Y else Y) /\ 0 < Y /\ 2 ^ 24 * Z.abs (Y - X) <= X.
Proof.
  intros HX Hb. assert (L := Z.log2_spec X ltac:(lia)).
  assert (L23 : 23 <= Z.log2 X) by (apply Z.log2_le_pow2; lia). assert (L276 : Z.log2 X < 276) by (apply Z.log2_lt_pow2; lia).
  set (l := Z.log2 X) in *. set (k := l - 23). assert (P := pow2_pos k ltac:(lia)).
  assert (S1 : 2 ^ l = 2 ^ 23 * 2 ^ k) by (rewrite <- Z.pow_add_r by lia; f_equal; lia).
  assert (S2 : 2 ^ Z.succ l = 2 ^ 24 * 2 ^ k) by (rewrite <- Z.pow_add_r by lia; f_equal; lia).
  assert (R1 : 2 ^ 23 <= rne X k) by (apply rne_lower; lia). assert (R2 : rne X k <= 2 ^ 24) by (apply rne_upper; lia).
  assert (E : enc X = k * 2 ^ 23 + rne X k). { unfold enc. fold l. cbv zeta. rewrite Z.max_l by lia. reflexivity. }
  assert (N : 2 * Z.abs (X - rne X k * 2 ^ k) <= 2 ^ k).
  { destruct (Z.eq_dec k 0) as [K0|K0]; [|now apply rne_nearest; lia]. rewrite K0. unfold rne. change (0 <=? 0) with true. cbv iota.
    change (2 ^ - 0) with 1. change (2 ^ 0) with 1. replace (X - X * 1 * 1) with 0 by lia. cbn. lia. }
  exists (rne X k * 2 ^ k).
  assert (B : 2 ^ 24 * Z.abs (rne X k * 2 ^ k - X) <= X).
  { replace (Z.abs (rne X k * 2 ^ k - X)) with (Z.abs (X - rne X k * 2 ^ k)) by lia. change (2 ^ 24) with (2 ^ 23 * 2). rewrite <- Z.mul_assoc. apply Z.le_trans with (2 ^ 23 * 2 ^ k); [|lia]. apply Z.mul_le_mono_nonneg_l; lia. }
  assert (Y0 : 0 < rne X k * 2 ^ k) by (apply Z.mul_pos_pos; lia).
  destruct (Z.eq_dec (rne X k) (2 ^ 24)) as [T|T].
  - destruct (pattern_val s (2 ^ 23 * 2 ^ (k + 1)) (k + 1) (2 ^ 23) ltac:(lia) ltac:(lia) ltac:(lia) eq_refl) as [F V].
    rewrite (enc_exact (2 ^ 23) (k + 1)) in F, V by lia.
    replace (enc X) with ((k + 1) * 2 ^ 23 + 2 ^ 23) by (rewrite E, T; change (2 ^ 24) with (2 * 2 ^ 23); lia).
    assert (EY : 2 ^ 23 * 2 ^ (k + 1) = rne X k * 2 ^ k) by (rewrite T, Z.pow_add_r by lia; change (2 ^ 24) with (2 ^ 23 * 2); change (2 ^ 1) with 2; lia).
    rewrite EY in V. auto.
  - destruct (pattern_val s (rne X k * 2 ^ k) k (rne X k) ltac:(lia) ltac:(lia) ltac:(lia) eq_refl) as [F V].
    rewrite enc_exact in F, V by lia. rewrite E. auto.
Qed.

Lemma rne_mono X Y k : 0 <= X <= Y -> 0 <= k -> rne X k <= rne Y k.
Proof.
  intros H Hk. unfold rne. destruct (Z.leb_spec k 0).
  - apply Z.mul_le_mono_nonneg_r; [|lia]. apply Z.pow_nonneg. lia.
  - assert (P := pow2_pos k Hk). cbv zeta.
    pose proof (Z.div_mod X (2 ^ k) ltac:(lia)) as D1. pose proof (Z.mod_pos_bound X (2 ^ k) P) as B1.
    pose proof (Z.div_mod Y (2 ^ k) ltac:(lia)) as D2. pose proof (Z.mod_pos_bound Y (2 ^ k) P) as B2.
    assert (Q : X / 2 ^ k <= Y / 2 ^ k) by (apply Z.div_le_mono; lia).
    set (q1 := X / 2 ^ k) in *. set (q2 := Y / 2 ^ k) in *. set (r1 := X mod 2 ^ k) in *. set (r2 := Y mod 2 ^ k) in *. clearbody q1 q2 r1 r2.
    destruct (Z.eq_dec q1 q2) as [->|Hn].
    + assert (r1 <= r2) by lia.
      destruct (Z.ltb_spec (2 * r1) (2 ^ k)), (Z.ltb_spec (2 * r2) (2 ^ k)), (Z.ltb_spec (2 ^ k) (2 * r1)), (Z.ltb_spec (2 ^ k) (2 * r2)); destruct (Z.even q2); lia.
    + destruct (2 * r1 <? 2 ^ k), (2 * r2 <? 2 ^ k), (2 ^ k <? 2 * r1), (2 ^ k <? 2 * r2); destruct (Z.even q1), (Z.even q2); lia.
Qed.
Lemma enc_mono X Y : 2 ^ 23 <= X -> X <= Y -> enc X <= enc Y.
Proof.
  intros H HY. assert (LX : 23 <= Z.log2 X) by (apply Z.log2_le_pow2; lia).
  assert (M : Z.log2 X <= Z.log2 Y) by (apply Z.log2_le_mono; lia).
  unfold enc. cbv zeta. rewrite !Z.max_l by lia.
  destruct (Z.eq_dec (Z.log2 X) (Z.log2 Y)) as [E|Hn].
  - rewrite E. pose proof (rne_mono X Y (Z.log2 Y - 23) ltac:(lia) ltac:(lia)). lia.
  - assert (UX := Z.log2_spec X ltac:(lia)). assert (UY := Z.log2_spec Y ltac:(lia)).
    assert (A : rne X (Z.log2 X - 23) <= 2 ^ 24).
    { apply rne_upper; [lia| |lia]. rewrite <- Z.pow_add_r by lia. replace (24 + (Z.log2 X - 23)) with (Z.succ (Z.log2 X)) by lia. lia. }
    assert (B : 2 ^ 23 <= rne Y (Z.log2 Y - 23)).
    { apply rne_lower; [lia| |lia]. rewrite <- Z.pow_add_r by lia. replace (23 + (Z.log2 Y - 23)) with (Z.log2 Y) by lia. lia. }
    change (2 ^ 24) with (2 * 2 ^ 23) in A. lia.
Qed.
Lemma finite_small w : 0 <= w < 255 * 2 ^ 23 -> finite w.
Proof. change (2 ^ 23) with 8388608. intros H. split; [lia|]. change (2 ^ 8) with 256. change (2 ^ 23) with 8388608. lia. Qed.
(** the value grows with the pattern *)
Lemma mag_mono v w : 0 <= v -> v <= w -> w < 255 * 2 ^ 23 -> mag v <= mag w.
Proof.
  intros Hv Hvw Hw. unfold mag. cbv zeta.
  assert (R : forall x, 0 <= x < 255 * 2 ^ 23 -> (x / 2 ^ 23) mod 2 ^ 8 = x / 2 ^ 23).
  { intros x Hx. apply Z.mod_small. change (2 ^ 23) with 8388608 in *. change (2 ^ 8) with 256. lia. }
  rewrite !R by lia. assert (Q : v / 2 ^ 23 <= w / 2 ^ 23) by (apply Z.div_le_mono; lia).
  assert (V0 : 0 <= v / 2 ^ 23) by (apply Z.div_pos; lia).
  pose proof (Z.div_mod v (2 ^ 23) ltac:(lia)) as D1. pose proof (Z.mod_pos_bound v (2 ^ 23) ltac:(lia)) as B1.
  pose proof (Z.div_mod w (2 ^ 23) ltac:(lia)) as D2. pose proof (Z.mod_pos_bound w (2 ^ 23) ltac:(lia)) as B2.
  set (q1 := v / 2 ^ 23) in *. set (q2 := w / 2 ^ 23) in *. set (r1 := v mod 2 ^ 23) in *. set (r2 := w mod 2 ^ 23) in *. clearbody q1 q2 r1 r2. clear R.
  destruct (Z.eqb_spec q1 0), (Z.eqb_spec q2 0); try lia.
  destruct (Z.eq_dec q1 q2) as [->|Hn].
    + assert (P := pow2_pos (q2 - 1) ltac:(lia)). apply Z.mul_le_mono_nonneg_r; lia.
    + assert (P := pow2_pos (q1 - 1) ltac:(lia)).
      replace (q2 - 1) with (q1 - 1 + (1 + (q2 - q1 - 1))) by lia. rewrite !Z.pow_add_r by lia. assert (P2 := pow2_pos (q2 - q1 - 1) ltac:(lia)).
      change (2 ^ 1) with 2. apply Z.le_trans with (2 ^ 23 * 2 * 2 ^ (q1 - 1)); [apply Z.mul_le_mono_nonneg_r; lia|].
      set (a := 2 ^ (q1 - 1)) in *. set (b := 2 ^ (q2 - q1 - 1)) in *. clearbody a b.
      apply Z.le_trans with (2 ^ 23 * (a * (2 * b))); [|apply Z.mul_le_mono_nonneg_r; [|lia]; apply Z.mul_nonneg_nonneg; lia].
      rewrite <- Z.mul_assoc. apply Z.mul_le_mono_nonneg_l; [lia|]. rewrite Z.mul_comm. apply Z.mul_le_mono_nonneg_l; lia.
Qed.

(** A product with a normal float rounds the exact product. *)
Lemma fmul_round s1 m1 e1 s2 m2 e2 :
  2 ^ 23 <= Zpos m2 -> -149 <= e1 + e2 ->
  fmul (S754_finite s1 m1 e1) (S754_finite s2 m2 e2) = binary_round 24 128 (xorb s1 s2) (m1 * m2) (e1 + e2).
Proof.
  intros Hm He. unfold fmul, SFmul, binary_round.
  assert (D : 24 <= Zpos (digits2_pos (m1 * m2))).
  { rewrite digits_log2. assert (23 <= Z.log2 (Zpos (m1 * m2))); [|lia]. apply Z.log2_le_pow2; [lia|]. rewrite Pos2Z.inj_mul. nia. }
  unfold shl_align. set (f := SpecFloat.fexp 24 128 _).
  assert (Hf : 0 <= f - (e1 + e2)).
  { unfold f, SpecFloat.fexp, SpecFloat.emin. lia. }
  destruct (f - (e1 + e2)) as [|p|p] eqn:E; try reflexivity. lia.
Qed.
