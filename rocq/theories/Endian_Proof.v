From Verif Require Import Base Endian_Model Endian_Spec.

Lemma land_byte x k : 0 <= k ->
  Z.land x (255 * 2 ^ k) = ((x / 2 ^ k) mod 256) * 2 ^ k.
Proof.
  intros Hk. apply Z.bits_inj'. intros i Hi.
  rewrite Z.land_spec, !Z.mul_pow2_bits by lia.
  destruct (Z.lt_ge_cases i k).
  - rewrite !(Z.testbit_neg_r _ (i - k)) by lia. apply andb_false_r.
  - change 255 with (2 ^ 8 - 1). change 256 with (2 ^ 8).
    rewrite <- (land_pow2m1 (x / 2 ^ k) 8), Z.land_spec by lia.
    rewrite Z.div_pow2_bits by lia. replace (i - k + k) with i by lia. reflexivity.
Qed.

Lemma lor_high_low a b k : 0 <= k -> 0 <= b < 2 ^ k -> Z.lor (a * 2 ^ k) b = a * 2 ^ k + b.
Proof. intros. rewrite Z.lor_comm, lor_low_shift by lia. lia. Qed.

Lemma fbswap16_rev x : fbswap16 x = byte_reverse 2 x.
Proof.
  unfold fbswap16, byte_reverse. cbn [le_bytes rev app le_value].
  change 0xFF with (255 * 2 ^ 0). change 0xFF00 with (255 * 2 ^ 8).
  rewrite !land_byte by lia. change (2 ^ 0) with 1. rewrite Z.div_1_r, Z.mul_1_r.
  rewrite Z.shiftl_mul_pow2, Z.shiftr_div_pow2 by lia. rewrite Z.div_mul by lia.
  set (b1 := (x / 2 ^ 8) mod 256). change ((x / 256) mod 256) with b1. set (b0 := x mod 256).
  assert (0 <= b0 < 256) by (unfold b0; lia). assert (0 <= b1 < 256) by (unfold b1; lia).
  clearbody b0 b1. rewrite (lor_high_low b0 b1 8) by lia.
  unfold u16. rewrite wrap_small by lia. lia.
Qed.

Ltac divs256 x :=
  repeat match goal with
  | |- context [x / ?a / 256] => rewrite (Z.div_div x a 256) by lia
  end.

Lemma fbswap32_rev x : fbswap32 x = byte_reverse 4 x.
Proof.
  unfold fbswap32, byte_reverse. cbn [le_bytes rev app le_value].
  change 0xFF with (255 * 2 ^ 0). change 0xFF00 with (255 * 2 ^ 8).
  change 0xFF0000 with (255 * 2 ^ 16). change 0xFF000000 with (255 * 2 ^ 24).
  rewrite !land_byte by lia. change (2 ^ 0) with 1. rewrite Z.div_1_r, Z.mul_1_r.
  rewrite !Z.shiftl_mul_pow2, !Z.shiftr_div_pow2 by lia.
  divs256 x.
  change (256 * 256 * 256) with (2 ^ 24). change (256 * 256) with (2 ^ 16).
  set (b1 := (x / 2 ^ 8) mod 256). set (b2 := (x / 2 ^ 16) mod 256). set (b3 := (x / 2 ^ 24) mod 256).
  change ((x / 256) mod 256) with b1. set (b0 := x mod 256).
  assert (0 <= b0 < 256) by (unfold b0; lia). assert (0 <= b1 < 256) by (unfold b1; lia).
  assert (0 <= b2 < 256) by (unfold b2; lia). assert (0 <= b3 < 256) by (unfold b3; lia).
  clearbody b0 b1 b2 b3.
  rewrite (Z.div_mul b3) by lia.
  replace (b2 * 2 ^ 16 / 2 ^ 8) with (b2 * 2 ^ 8) by lia.
  unfold u32. rewrite !wrap_small by lia.
  rewrite lor_high_low by lia.
  replace (b0 * 2 ^ 24 + b1 * 2 ^ 8 * 2 ^ 8) with ((b0 * 2 ^ 8 + b1) * 2 ^ 16) by lia.
  rewrite lor_high_low by lia.
  replace ((b0 * 2 ^ 8 + b1) * 2 ^ 16 + b2 * 2 ^ 8) with ((b0 * 2 ^ 16 + b1 * 2 ^ 8 + b2) * 2 ^ 8) by lia.
  rewrite lor_high_low by lia. lia.
Qed.

Lemma fbswap64_rev x : fbswap64 x = byte_reverse 8 x.
Proof.
  unfold fbswap64, byte_reverse. cbn [le_bytes rev app le_value].
  change 0xFF with (255 * 2 ^ 0). change 0xFF00 with (255 * 2 ^ 8).
  change 0xFF0000 with (255 * 2 ^ 16). change 0xFF000000 with (255 * 2 ^ 24).
  change 0xFF00000000 with (255 * 2 ^ 32). change 0xFF0000000000 with (255 * 2 ^ 40).
  change 0xFF000000000000 with (255 * 2 ^ 48). change 0xFF00000000000000 with (255 * 2 ^ 56).
  rewrite !land_byte by lia. change (2 ^ 0) with 1. rewrite Z.div_1_r, Z.mul_1_r.
  rewrite !Z.shiftl_mul_pow2, !Z.shiftr_div_pow2 by lia.
  divs256 x.
  change (256 * 256 * 256 * 256 * 256 * 256 * 256) with (2 ^ 56).
  change (256 * 256 * 256 * 256 * 256 * 256) with (2 ^ 48).
  change (256 * 256 * 256 * 256 * 256) with (2 ^ 40).
  change (256 * 256 * 256 * 256) with (2 ^ 32).
  change (256 * 256 * 256) with (2 ^ 24). change (256 * 256) with (2 ^ 16).
  set (b1 := (x / 2 ^ 8) mod 256). set (b2 := (x / 2 ^ 16) mod 256). set (b3 := (x / 2 ^ 24) mod 256).
  set (b4 := (x / 2 ^ 32) mod 256). set (b5 := (x / 2 ^ 40) mod 256). set (b6 := (x / 2 ^ 48) mod 256).
  set (b7 := (x / 2 ^ 56) mod 256).
  change ((x / 256) mod 256) with b1. set (b0 := x mod 256).
  assert (0 <= b0 < 256) by (unfold b0; lia). assert (0 <= b1 < 256) by (unfold b1; lia).
  assert (0 <= b2 < 256) by (unfold b2; lia). assert (0 <= b3 < 256) by (unfold b3; lia).
  assert (0 <= b4 < 256) by (unfold b4; lia). assert (0 <= b5 < 256) by (unfold b5; lia).
  assert (0 <= b6 < 256) by (unfold b6; lia). assert (0 <= b7 < 256) by (unfold b7; lia).
  clearbody b0 b1 b2 b3 b4 b5 b6 b7.
  rewrite (Z.div_mul b7) by lia.
  replace (b6 * 2 ^ 48 / 2 ^ 40) with (b6 * 2 ^ 8) by lia.
  replace (b5 * 2 ^ 40 / 2 ^ 24) with (b5 * 2 ^ 16) by lia.
  replace (b4 * 2 ^ 32 / 2 ^ 8) with (b4 * 2 ^ 24) by lia.
  unfold u64. rewrite !wrap_small by lia.
  rewrite lor_high_low by lia.
  replace (b0 * 2 ^ 56 + b1 * 2 ^ 8 * 2 ^ 40) with ((b0 * 2 ^ 8 + b1) * 2 ^ 48) by lia.
  rewrite lor_high_low by lia.
  replace ((b0 * 2 ^ 8 + b1) * 2 ^ 48 + b2 * 2 ^ 16 * 2 ^ 24)
    with ((b0 * 2 ^ 16 + b1 * 2 ^ 8 + b2) * 2 ^ 40) by lia.
  rewrite lor_high_low by lia.
  replace ((b0 * 2 ^ 16 + b1 * 2 ^ 8 + b2) * 2 ^ 40 + b3 * 2 ^ 24 * 2 ^ 8)
    with ((b0 * 2 ^ 24 + b1 * 2 ^ 16 + b2 * 2 ^ 8 + b3) * 2 ^ 32) by lia.
  rewrite lor_high_low by lia.
  replace ((b0 * 2 ^ 24 + b1 * 2 ^ 16 + b2 * 2 ^ 8 + b3) * 2 ^ 32 + b4 * 2 ^ 24)
    with ((b0 * 2 ^ 32 + b1 * 2 ^ 24 + b2 * 2 ^ 16 + b3 * 2 ^ 8 + b4) * 2 ^ 24) by lia.
  rewrite lor_high_low by lia.
  replace ((b0 * 2 ^ 32 + b1 * 2 ^ 24 + b2 * 2 ^ 16 + b3 * 2 ^ 8 + b4) * 2 ^ 24 + b5 * 2 ^ 16)
    with ((b0 * 2 ^ 40 + b1 * 2 ^ 32 + b2 * 2 ^ 24 + b3 * 2 ^ 16 + b4 * 2 ^ 8 + b5) * 2 ^ 16) by lia.
  rewrite lor_high_low by lia.
  replace ((b0 * 2 ^ 40 + b1 * 2 ^ 32 + b2 * 2 ^ 24 + b3 * 2 ^ 16 + b4 * 2 ^ 8 + b5) * 2 ^ 16 + b6 * 2 ^ 8)
    with ((b0 * 2 ^ 48 + b1 * 2 ^ 40 + b2 * 2 ^ 32 + b3 * 2 ^ 24 + b4 * 2 ^ 16 + b5 * 2 ^ 8 + b6) * 2 ^ 8) by lia.
  rewrite lor_high_low by lia. lia.
Qed.

Lemma byte_reverse_bytes n x : le_bytes n (byte_reverse n x) = rev (le_bytes n x).
Proof.
  unfold byte_reverse.
  rewrite <- (le_bytes_length n x) at 1. rewrite <- rev_length.
  apply le_bytes_value. apply Forall_rev, le_bytes_ok.
Qed.

Lemma byte_reverse_range n x : 0 <= byte_reverse n x < 256 ^ Z.of_nat n.
Proof.
  unfold byte_reverse.
  pose proof (le_value_bound (rev (le_bytes n x)) ltac:(apply Forall_rev, le_bytes_ok)) as H.
  rewrite rev_length, le_bytes_length in H. exact H.
Qed.

Lemma byte_reverse_invol n x : 0 <= x < 256 ^ Z.of_nat n -> byte_reverse n (byte_reverse n x) = x.
Proof.
  intros Hx. unfold byte_reverse at 1. rewrite byte_reverse_bytes, rev_involutive, le_value_bytes.
  apply Z.mod_small; lia.
Qed.

Definition swap_size (sz : Z) : Prop := sz = 2 \/ sz = 4 \/ sz = 8.

Lemma FByteswapper_spec sz x : swap_size sz -> FByteswapper sz x = Some (byte_reverse (Z.to_nat sz) x).
Proof.
  intros [->|[->| ->]]; unfold FByteswapper; cbn [Z.eqb Pos.eqb];
  rewrite ?fbswap16_rev, ?fbswap32_rev, ?fbswap64_rev; reflexivity.
Qed.

Lemma FByteswapper_involution sz x : swap_size sz -> 0 <= x < 256 ^ sz ->
  exists y, FByteswapper sz x = Some y /\ 0 <= y < 256 ^ sz /\
            le_bytes (Z.to_nat sz) y = rev (le_bytes (Z.to_nat sz) x) /\
            FByteswapper sz y = Some x.
Proof.
  intros Hs Hx. exists (byte_reverse (Z.to_nat sz) x).
  rewrite !FByteswapper_spec by assumption.
  assert (E : Z.of_nat (Z.to_nat sz) = sz) by (destruct Hs as [->|[->| ->]]; reflexivity).
  split; [reflexivity|]. split; [pose proof (byte_reverse_range (Z.to_nat sz) x) as R; rewrite E in R; exact R|].
  split; [apply byte_reverse_bytes|].
  rewrite byte_reverse_invol; [reflexivity|]. rewrite E; exact Hx.
Qed.

Lemma FArraySwapper_spec sz l : swap_size sz ->
  FArraySwapper sz l = Some (map (byte_reverse (Z.to_nat sz)) l).
Proof.
  intros Hs. induction l as [|a l IH]; cbn [FArraySwapper map]; [reflexivity|].
  rewrite FByteswapper_spec, IH by assumption. reflexivity.
Qed.

Lemma FArraySwapper_involution sz l : swap_size sz -> Forall (fun x => 0 <= x < 256 ^ sz) l ->
  exists l', FArraySwapper sz l = Some l' /\ length l' = length l /\ FArraySwapper sz l' = Some l.
Proof.
  intros Hs Hl. exists (map (byte_reverse (Z.to_nat sz)) l).
  rewrite !FArraySwapper_spec by assumption.
  split; [reflexivity|]. split; [apply map_length|]. f_equal. rewrite map_map.
  assert (E : Z.of_nat (Z.to_nat sz) = sz) by (destruct Hs as [->|[->| ->]]; reflexivity).
  induction Hl as [|a l Ha Hl IH]; cbn [map]; [reflexivity|].
  rewrite IH, byte_reverse_invol; [reflexivity|rewrite E; exact Ha].
Qed.

Lemma FByteswapper_byte_throws x : FByteswapper 1 x = None.
Proof. reflexivity. Qed.
