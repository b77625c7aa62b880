(** Lemmas about datas/base_128.hpp. *)
From Verif Require Import Base Base128_Model Base128_Spec.

(** The k continuation bytes both writers emit for [vc]. *)
Fixpoint cont_bytes (k : nat) (vc : Z) : list Z :=
  match k with
  | O => []
  | S k' => Z.lor (u8 vc) 128 :: cont_bytes k' (Z.shiftr vc 7)
  end.

Lemma cont_bytes_length k vc : length (cont_bytes k vc) = k.
Proof. revert vc; induction k as [|k IH]; intros; cbn [cont_bytes length]; [|rewrite IH]; reflexivity. Qed.

Lemma shiftr7 v : Z.shiftr v 7 = v / 128.
Proof. rewrite Z.shiftr_div_pow2 by lia. reflexivity. Qed.

Lemma lor128_bit7 b : Z.land (Z.lor b 128) 128 = 128.
Proof.
  apply Z.bits_inj'. intros i Hi. rewrite Z.land_spec, Z.lor_spec.
  destruct (Z.testbit 128 i); rewrite ?orb_true_r, ?andb_false_r; reflexivity.
Qed.

Lemma lor128_low7 b : Z.land (Z.lor (u8 b) 128) 127 = b mod 128.
Proof.
  change 127 with (2 ^ 7 - 1). rewrite land_pow2m1 by lia. change 128 with (2 ^ 7) at 2.
  apply Z.bits_inj'. intros i Hi.
  destruct (Z.lt_ge_cases i 7).
  - rewrite !Z.mod_pow2_bits_low by lia. rewrite Z.lor_spec.
    unfold u8. rewrite wrap_testbit by lia.
    replace (i <? 8) with true by lia.
    change 128 with (2 ^ 7). rewrite Z.pow2_bits_false by lia. apply orb_false_r.
  - rewrite !Z.mod_pow2_bits_high by lia. reflexivity.
Qed.

Lemma pow7_succ k : 2 ^ (7 * Z.of_nat (S k)) = 128 * 2 ^ (7 * Z.of_nat k).
Proof.
  rewrite Nat2Z.inj_succ. replace (7 * Z.succ (Z.of_nat k)) with (7 + 7 * Z.of_nat k) by lia.
  rewrite Z.pow_add_r by lia. reflexivity.
Qed.

(** Splitting off the low group. *)
Lemma mod_pow7_succ v k :
  v mod 2 ^ (7 * Z.of_nat (S k)) = v mod 128 + 128 * ((v / 128) mod 2 ^ (7 * Z.of_nat k)).
Proof.
  rewrite pow7_succ. pose proof (pow2_pos (7 * Z.of_nat k) ltac:(lia)).
  rewrite Z.rem_mul_r by lia. reflexivity.
Qed.

Lemma bi_write_cont : forall k fuel vc idx,
  0 <= vc < 2 ^ (7 * Z.of_nat (S k)) ->
  (k = O \/ 2 ^ (7 * Z.of_nat k) <= vc) ->
  bi_write_loop (S k + fuel) vc idx
  = Some (cont_bytes k vc, u8 (vc / 2 ^ (7 * Z.of_nat k)), idx + Z.of_nat k).
Proof.
  induction k as [|k IH]; intros fuel vc idx Hvc Hk.
  - cbn [Nat.add bi_write_loop cont_bytes]. rewrite shiftr7.
    change (2 ^ (7 * Z.of_nat 1)) with 128 in Hvc.
    change (2 ^ (7 * Z.of_nat 0)) with 1. rewrite Z.div_1_r.
    rewrite Z.div_small by lia. cbn [Z.eqb]. rewrite Z.add_0_r. reflexivity.
  - destruct Hk as [Hk|Hk]; [discriminate|].
    change (S (S k) + fuel)%nat with (S (S k + fuel)).
    cbn [bi_write_loop]. rewrite shiftr7.
    pose proof (pow2_pos (7 * Z.of_nat k) ltac:(lia)) as Hp.
    rewrite pow7_succ in Hk. rewrite pow7_succ in Hvc. rewrite pow7_succ in Hvc.
    assert (Hge : 2 ^ (7 * Z.of_nat k) <= vc / 128).
    { apply Z.div_le_lower_bound; lia. }
    assert (Hlt : vc / 128 < 2 ^ (7 * Z.of_nat (S k))).
    { rewrite pow7_succ. apply Z.div_lt_upper_bound; lia. }
    replace (vc / 128 =? 0) with false by lia.
    rewrite (IH fuel (vc / 128) (idx + 1)) by (split || right; lia).
    cbn [cont_bytes]. rewrite shiftr7, pow7_succ.
    rewrite Z.div_div by lia.
    replace (idx + 1 + Z.of_nat k) with (idx + Z.of_nat (S k)) by lia. reflexivity.
Qed.

Lemma bi_read_cont : forall k n id value vc t,
  0 <= id -> id + Z.of_nat k <= 8 -> 0 <= vc -> 0 <= value < 2 ^ (7 * id) ->
  bi_read_loop (k + n) id value (cont_bytes k vc ++ t)
  = bi_read_loop n (id + Z.of_nat k) (value + (vc mod 2 ^ (7 * Z.of_nat k)) * 2 ^ (7 * id)) t.
Proof.
  induction k as [|k IH]; intros n id value vc t Hid Hk Hvc Hval.
  - change (2 ^ (7 * Z.of_nat 0)) with 1. rewrite Z.mod_1_r.
    cbn [Nat.add cont_bytes app]. f_equal; lia.
  - cbn [Nat.add cont_bytes app bi_read_loop].
    replace (id <? 8) with true by lia.
    rewrite lor128_bit7. cbn [Z.eqb].
    rewrite lor128_low7, Z.shiftl_mul_pow2, shiftr7 by lia.
    pose proof (pow2_pos (7 * id) ltac:(lia)) as Hp.
    assert (Hs : (vc mod 128) * 2 ^ (7 * id) < 2 ^ (7 * id + 7)).
    { rewrite Z.pow_add_r by lia. change (2 ^ 7) with 128.
      pose proof (Z.mod_pos_bound vc 128 ltac:(lia)). nia. }
    assert (2 ^ (7 * id + 7) <= 2 ^ 56) by (apply Z.pow_le_mono_r; lia).
    rewrite sgn_small; [|lia|].
    2:{ unfold is_sword. change (2 ^ (64 - 1)) with (128 * 2 ^ 56). nia. }
    rewrite lor_low_shift by lia.
    rewrite IH by (try lia; replace (7 * (id + 1)) with (7 * id + 7) by lia;
                   rewrite Z.pow_add_r by lia; change (2 ^ 7) with 128; nia).
    f_equal; [lia|].
    rewrite mod_pow7_succ.
    replace (7 * (id + 1)) with (7 * id + 7) by lia.
    rewrite Z.pow_add_r by lia. change (2 ^ 7) with 128. ring.
Qed.

Lemma bu_read_cont : forall k n id value vc t,
  0 <= id -> id + Z.of_nat k <= 8 -> 0 <= vc -> 0 <= value < 2 ^ (7 * id) ->
  bu_read_loop (k + n) id value (cont_bytes k vc ++ t)
  = bu_read_loop n (id + Z.of_nat k) (value + (vc mod 2 ^ (7 * Z.of_nat k)) * 2 ^ (7 * id)) t.
Proof.
  induction k as [|k IH]; intros n id value vc t Hid Hk Hvc Hval.
  - change (2 ^ (7 * Z.of_nat 0)) with 1. rewrite Z.mod_1_r.
    cbn [Nat.add cont_bytes app]. f_equal; lia.
  - cbn [Nat.add cont_bytes app bu_read_loop].
    replace (id =? 8) with false by lia.
    rewrite lor128_bit7. cbn [Z.eqb].
    rewrite lor128_low7, Z.shiftl_mul_pow2, shiftr7 by lia.
    pose proof (pow2_pos (7 * id) ltac:(lia)) as Hp.
    assert (Hs : (vc mod 128) * 2 ^ (7 * id) < 2 ^ (7 * id + 7)).
    { rewrite Z.pow_add_r by lia. change (2 ^ 7) with 128.
      pose proof (Z.mod_pos_bound vc 128 ltac:(lia)). nia. }
    assert (2 ^ (7 * id + 7) <= 2 ^ 56) by (apply Z.pow_le_mono_r; lia).
    unfold u64. rewrite wrap_small.
    2:{ change (2 ^ 64) with (256 * 2 ^ 56). nia. }
    rewrite lor_low_shift by lia.
    rewrite IH by (try lia; replace (7 * (id + 1)) with (7 * id + 7) by lia;
                   rewrite Z.pow_add_r by lia; change (2 ^ 7) with 128; nia).
    f_equal; [lia|].
    rewrite mod_pow7_succ.
    replace (7 * (id + 1)) with (7 * id + 7) by lia.
    rewrite Z.pow_add_r by lia. change (2 ^ 7) with 128. ring.
Qed.

(** Writer of the unsigned variant: k continuation bytes, then the rest. *)
Lemma bu_write_cont : forall k fuel vc idx,
  0 <= idx -> idx + Z.of_nat k <= 8 ->
  0 <= vc -> (vc < 2 ^ (7 * Z.of_nat (S k)) \/ idx + Z.of_nat k = 8) ->
  (k = O \/ 2 ^ (7 * Z.of_nat k) <= vc) ->
  bu_write_loop (S k + fuel) idx vc
  = Some (cont_bytes k vc ++ [u8 (vc / 2 ^ (7 * Z.of_nat k))]).
Proof.
  induction k as [|k IH]; intros fuel vc idx Hidx Hik Hvc Hlt Hk.
  - cbn [Nat.add bu_write_loop cont_bytes app]. rewrite shiftr7.
    change (2 ^ (7 * Z.of_nat 1)) with 128 in Hlt.
    change (2 ^ (7 * Z.of_nat 0)) with 1. rewrite Z.div_1_r.
    replace ((vc / 128 =? 0) || (idx =? 8)) with true; [reflexivity|].
    destruct Hlt; [rewrite Z.div_small by lia; reflexivity|].
    replace (idx =? 8) with true by lia. rewrite orb_true_r. reflexivity.
  - destruct Hk as [Hk|Hk]; [discriminate|].
    change (S (S k) + fuel)%nat with (S (S k + fuel)).
    cbn [bu_write_loop]. rewrite shiftr7.
    pose proof (pow2_pos (7 * Z.of_nat k) ltac:(lia)) as Hp.
    rewrite pow7_succ in Hk.
    assert (Hge : 2 ^ (7 * Z.of_nat k) <= vc / 128).
    { apply Z.div_le_lower_bound; lia. }
    assert (Hlt' : vc / 128 < 2 ^ (7 * Z.of_nat (S k)) \/ (idx + 1) + Z.of_nat k = 8).
    { destruct Hlt as [Hlt|Hlt]; [left|right; lia].
      rewrite pow7_succ in Hlt. apply Z.div_lt_upper_bound; lia. }
    replace ((vc / 128 =? 0) || (idx =? 8)) with false by lia.
    rewrite (IH fuel (vc / 128) (idx + 1)) by (first [lia | exact Hlt' | right; lia]).
    cbn [cont_bytes app]. rewrite shiftr7, pow7_succ.
    rewrite Z.div_div by lia. reflexivity.
Qed.

(** The number of groups below the last. *)
Lemma groups_exist v : 0 <= v < 2 ^ 70 ->
  exists k, (k <= 9)%nat /\ v < 2 ^ (7 * Z.of_nat (S k)) /\ (k = O \/ 2 ^ (7 * Z.of_nat k) <= v).
Proof.
  intros Hv.
  assert (G : forall n, v < 2 ^ (7 * Z.of_nat (S n)) ->
    exists k, (k <= n)%nat /\ v < 2 ^ (7 * Z.of_nat (S k)) /\ (k = O \/ 2 ^ (7 * Z.of_nat k) <= v)).
  { induction n as [|n IH]; intros Hn.
    - exists O. repeat split; [lia|exact Hn|left; reflexivity].
    - destruct (Z.lt_ge_cases v (2 ^ (7 * Z.of_nat (S n)))) as [H|H].
      + destruct (IH H) as [k [? ?]]. exists k. split; [lia|assumption].
      + exists (S n). repeat split; [lia|exact Hn|right; exact H]. }
  apply (G 9%nat). exact (proj2 Hv).
Qed.

(** What buint128::Write emits: the least number of 7-bit groups, nine at most. *)
Lemma bu_write_form v : 0 <= v < 2 ^ 64 ->
  exists k, (k <= 8)%nat /\ (v < 2 ^ (7 * Z.of_nat (S k)) \/ k = 8%nat) /\
    (k = O \/ 2 ^ (7 * Z.of_nat k) <= v) /\
    buint128_Write v = Some (cont_bytes k v ++ [u8 (v / 2 ^ (7 * Z.of_nat k))]).
Proof.
  intros Hv.
  destruct (groups_exist v) as (k & Hk9 & Hlt & Hge).
  { split; [lia|]. apply Z.lt_trans with (2 ^ 64); [lia|]. apply Z.pow_lt_mono_r; lia. }
  destruct (Nat.le_gt_cases k 8) as [H8|H8].
  - exists k. repeat split; try assumption; [left; exact Hlt|].
    unfold buint128_Write. replace 20%nat with (S k + (19 - k))%nat by lia.
    apply bu_write_cont; lia.
  - assert (k = 9%nat) by lia. subst k. destruct Hge as [Hge|Hge]; [discriminate|].
    exists 8%nat.
    assert (2 ^ (7 * Z.of_nat 8) <= v).
    { apply Z.le_trans with (2 ^ (7 * Z.of_nat 9)); [|exact Hge]. apply Z.pow_le_mono_r; lia. }
    split; [lia|]. split; [right; reflexivity|]. split; [right; assumption|].
    unfold buint128_Write. change 20%nat with (S 8 + 11)%nat.
    apply bu_write_cont; try lia.
Qed.

Lemma land_low7 b : Z.land b 127 = b mod 128.
Proof. change 127 with (2 ^ 7 - 1). rewrite land_pow2m1 by lia. reflexivity. Qed.

Lemma land_128_small b : 0 <= b < 128 -> Z.land b 128 = 0.
Proof.
  intros. change 128 with (1 * 2 ^ 7) at 1. apply land_low_shift; [lia|].
  change (2 ^ 7) with 128. lia.
Qed.

Lemma bu_roundtrip v rest : 0 <= v < 2 ^ 64 ->
  exists bs, buint128_Write v = Some bs /\ buint128_Read (bs ++ rest) = Some (v, rest).
Proof.
  intros Hv. destruct (bu_write_form v Hv) as (k & Hk & Hlt & Hge & HW).
  eexists; split; [exact HW|].
  rewrite <- app_assoc. unfold buint128_Read.
  replace 9%nat with (k + (9 - k))%nat by lia.
  rewrite bu_read_cont; try lia. cbn [app].
  pose proof (pow2_pos (7 * Z.of_nat k) ltac:(lia)) as Hp.
  set (m := v / 2 ^ (7 * Z.of_nat k)). change (2 ^ (7 * 0)) with 1.
  rewrite !Z.add_0_l, Z.mul_1_r.
  assert (Hdm : v = 2 ^ (7 * Z.of_nat k) * m + v mod 2 ^ (7 * Z.of_nat k)) by (apply Z.div_mod; lia).
  assert (Hm0 : 0 <= m) by (apply Z.div_pos; lia).
  pose proof (Z.mod_pos_bound v (2 ^ (7 * Z.of_nat k)) Hp) as Hr.
  destruct (Nat.eq_dec k 8) as [->|Hk8].
  - assert (Hm : m < 256).
    { apply Z.div_lt_upper_bound; [lia|]. change (2 ^ (7 * Z.of_nat 8) * 256) with (2 ^ 64). lia. }
    cbn [Nat.sub bu_read_loop]. change (Z.of_nat 8) with 8 in *. cbn [Z.eqb Pos.eqb].
    unfold u8. rewrite (wrap_small 8 m) by (change (2 ^ 8) with 256; lia).
    rewrite Z.shiftl_mul_pow2 by lia.
    unfold u64. rewrite wrap_small by (change (2 ^ 64) with (256 * 2 ^ 56); nia).
    rewrite lor_low_shift by (try lia; exact Hr).
    change (7 * 8) with 56 in Hdm.
    replace (v mod 2 ^ (7 * 8) + m * 2 ^ 56) with v by (change (7 * 8) with 56; lia).
    destruct (Z.land m 128 =? 0); reflexivity.
  - assert (Hm : m < 128).
    { destruct Hlt as [Hlt|?]; [|lia]. rewrite pow7_succ in Hlt.
      apply Z.div_lt_upper_bound; lia. }
    replace (9 - k)%nat with (S (8 - k))%nat by lia. cbn [bu_read_loop].
    replace (Z.of_nat k =? 8) with false by lia.
    unfold u8. rewrite (wrap_small 8 m) by (change (2 ^ 8) with 256; lia).
    rewrite land_low7, (Z.mod_small m) by lia.
    rewrite Z.shiftl_mul_pow2 by lia.
    unfold u64. rewrite wrap_small by (change (2 ^ 64) with (2 ^ 64); nia).
    rewrite lor_low_shift by (try lia).
    rewrite (land_128_small m) by lia. cbn [Z.eqb]. f_equal. f_equal. lia.
Qed.

Lemma u8_ok x : is_byte (u8 x).
Proof. unfold is_byte, u8. pose proof (wrap_range 8 x ltac:(lia)). change (2^8) with 256 in *. lia. Qed.

Lemma cont_bytes_ok k v : bytes_ok (cont_bytes k v).
Proof.
  revert v; induction k as [|k IH]; intros v; cbn [cont_bytes]; constructor; [|apply IH].
  pose proof (u8_ok v). unfold is_byte in *. change 256 with (2 ^ 8) in *. apply lor_bounds; lia.
Qed.

Lemma bu_length v : 0 <= v < 2 ^ 64 ->
  exists bs, buint128_Write v = Some bs /\ bytes_ok bs /\ (1 <= length bs <= 9)%nat /\
    (forall j, (1 <= j <= 8)%nat -> v < 2 ^ (7 * Z.of_nat j) -> (length bs <= j)%nat) /\
    ((length bs <= 8)%nat -> v < 2 ^ (7 * Z.of_nat (length bs))).
Proof.
  intros Hv. destruct (bu_write_form v Hv) as (k & Hk & Hlt & Hge & HW).
  eexists; split; [exact HW|]. split.
  { apply bytes_ok_app; split; [apply cont_bytes_ok|]. constructor; [apply u8_ok|constructor]. }
  rewrite app_length, cont_bytes_length. cbn [length].
  split; [lia|]. split.
  - intros j Hj Hvj. destruct Hge as [->|Hge]; [lia|].
    assert (7 * Z.of_nat k < 7 * Z.of_nat j).
    { apply (Z.pow_lt_mono_r_iff 2); lia. }
    lia.
  - intros H. replace (k + 1)%nat with (S k) by lia. destruct Hlt as [|?]; [assumption|lia].
Qed.

(** * Signed variant *)

Lemma shiftr56_m1 v : Z.lnot (Z.shiftr v 56) =? 0 = (- 2 ^ 56 <=? v) && (v <? 0).
Proof.
  rewrite Z.shiftr_div_pow2 by lia. unfold Z.lnot.
  pose proof (pow2_pos 56 ltac:(lia)) as Hp. set (p := 2 ^ 56) in *. clearbody p. nia.
Qed.

Lemma land_64_mid b : 0 <= b < 128 -> Z.land b 64 = if b <? 64 then 0 else 64.
Proof.
  intros H. assert (forall n, (n < 128)%nat -> Z.land (Z.of_nat n) 64 = if Z.of_nat n <? 64 then 0 else 64) as G.
  { assert (E : forallb (fun n => Z.land (Z.of_nat n) 64 =? if Z.of_nat n <? 64 then 0 else 64) (seq 0 128) = true)
      by (vm_compute; reflexivity).
    intros n Hn. rewrite forallb_forall in E. specialize (E n ltac:(apply in_seq; lia)).
    apply Z.eqb_eq in E. exact E. }
  specialize (G (Z.to_nat b) ltac:(lia)). rewrite Z2Nat.id in G by lia. exact G.
Qed.

Lemma land_63 b : Z.land b 63 = b mod 64.
Proof. change 63 with (2 ^ 6 - 1). rewrite land_pow2m1 by lia. reflexivity. Qed.

Lemma lor_64 b : 0 <= b < 64 -> Z.lor b 64 = b + 64.
Proof.
  intros. change 64 with (1 * 2 ^ 6) at 1. rewrite lor_low_shift; [reflexivity|lia|].
  change (2 ^ 6) with 64. lia.
Qed.

(** Final part of a Read that has already consumed k continuation bytes. *)
Lemma bi_read_last k v b rest :
  (k <= 7)%nat -> 0 <= v < 2 ^ (7 * Z.of_nat k) -> 0 <= b < 128 ->
  bi_read_loop (9 - k) (Z.of_nat k) v (b :: rest)
  = Some (let w := v + (b mod 64) * 2 ^ (7 * Z.of_nat k) in if b <? 64 then w else Z.lnot w, rest).
Proof.
  intros Hk Hv Hb. replace (9 - k)%nat with (S (8 - k)) by lia. cbn [bi_read_loop].
  replace (Z.of_nat k <? 8) with true by lia.
  rewrite land_128_small by lia. cbn [Z.eqb].
  rewrite land_63, Z.shiftl_mul_pow2 by lia.
  pose proof (pow2_pos (7 * Z.of_nat k) ltac:(lia)) as Hp.
  assert (2 ^ (7 * Z.of_nat k) <= 2 ^ 49) by (apply Z.pow_le_mono_r; lia).
  rewrite sgn_small; [|lia|].
  2:{ unfold is_sword. change (2 ^ (64 - 1)) with (2 ^ 14 * 2 ^ 49).
      pose proof (Z.mod_pos_bound b 64 ltac:(lia)). change (2 ^ 14) with 16384. nia. }
  rewrite lor_low_shift by lia.
  rewrite land_64_mid by lia.
  destruct (b <? 64); cbn [Z.eqb]; reflexivity.
Qed.

(** bytes written and read for the magnitude [u] below 2^55, with sign mask. *)
Definition bi_tail (sign : bool) (bs : list Z) (lastValue lastIndex : Z) : list Z :=
  if lastIndex <? 8 then
    let signMask := if sign then 64 else 0 in
    if negb (Z.land lastValue 64 =? 0) then bs ++ [Z.lor lastValue 128; signMask]
    else bs ++ [Z.lor lastValue signMask]
  else bs ++ [lastValue].

Lemma bi_write_tail value :
  bint128_Write value =
  let sign := (value <? 0) && (Z.lnot (Z.shiftr value 56) =? 0) in
  match bi_write_loop 20 (u64 (if sign then Z.lnot value else value)) 0 with
  | None => None
  | Some (bs, lv, li) => Some (bi_tail sign bs lv li)
  end.
Proof.
  unfold bint128_Write, bi_tail. cbv zeta.
  destruct (bi_write_loop _ _ _) as [[[bs lv] li]|]; [|reflexivity].
  destruct (li <? 8); [|reflexivity]. destruct (negb _); reflexivity.
Qed.

Lemma cont_snoc k v : cont_bytes k v ++ [Z.lor (u8 (v / 2 ^ (7 * Z.of_nat k))) 128] = cont_bytes (S k) v.
Proof.
  revert v; induction k as [|k IH]; intros v.
  - change (2 ^ (7 * Z.of_nat 0)) with 1. rewrite Z.div_1_r. reflexivity.
  - change (cont_bytes (S k) v) with (Z.lor (u8 v) 128 :: cont_bytes k (Z.shiftr v 7)).
    change (cont_bytes (S (S k)) v) with (Z.lor (u8 v) 128 :: cont_bytes (S k) (Z.shiftr v 7)).
    rewrite <- IH. cbn [app]. rewrite shiftr7, pow7_succ.
    pose proof (pow2_pos (7 * Z.of_nat k) ltac:(lia)). rewrite Z.div_div by lia. reflexivity.
Qed.

Lemma read_after_cont k u t : (k <= 8)%nat -> 0 <= u ->
  bint128_Read (cont_bytes k u ++ t) = bi_read_loop (9 - k) (Z.of_nat k) (u mod 2 ^ (7 * Z.of_nat k)) t.
Proof.
  intros Hk Hu. unfold bint128_Read. replace 9%nat with (k + (9 - k))%nat at 1 by lia.
  rewrite bi_read_cont by (try lia; change (2 ^ (7 * 0)) with 1; lia).
  f_equal; change (2 ^ (7 * 0)) with 1; lia.
Qed.

(** Magnitudes below 2^55 with either sign. *)
Lemma bi_small sign u rest : 0 <= u < 2 ^ 55 ->
  exists bs lv li, bi_write_loop 20 u 0 = Some (bs, lv, li) /\
    bint128_Read (bi_tail sign bs lv li ++ rest) = Some (if sign then Z.lnot u else u, rest).
Proof.
  intros Hu.
  destruct (groups_exist u) as (k & _ & Hlt & Hge).
  { split; [lia|]. apply Z.lt_trans with (2 ^ 55); [lia|]. apply Z.pow_lt_mono_r; lia. }
  assert (Hk7 : (k <= 7)%nat).
  { destruct Hge as [->|Hge]; [lia|].
    assert (7 * Z.of_nat k < 55) by (apply (Z.pow_lt_mono_r_iff 2); lia). lia. }
  exists (cont_bytes k u), (u8 (u / 2 ^ (7 * Z.of_nat k))), (0 + Z.of_nat k). split.
  { replace 20%nat with (S k + (19 - k))%nat by lia. apply bi_write_cont; [split; lia|exact Hge]. }
  pose proof (pow2_pos (7 * Z.of_nat k) ltac:(lia)) as Hp.
  set (m := u / 2 ^ (7 * Z.of_nat k)) in *.
  assert (Hdm : u = 2 ^ (7 * Z.of_nat k) * m + u mod 2 ^ (7 * Z.of_nat k)) by (apply Z.div_mod; lia).
  pose proof (Z.mod_pos_bound u (2 ^ (7 * Z.of_nat k)) Hp) as Hr.
  assert (Hm0 : 0 <= m) by (apply Z.div_pos; lia).
  assert (Hm : m < 128) by (rewrite pow7_succ in Hlt; apply Z.div_lt_upper_bound; lia).
  assert (Em : u8 m = m) by (apply wrap_small; change (2 ^ 8) with 256; lia).
  unfold bi_tail. rewrite Em, Z.add_0_l.
  replace (Z.of_nat k <? 8) with true by lia. cbv zeta.
  rewrite land_64_mid by lia.
  destruct (Z.ltb_spec m 64) as [H64|H64]; cbn [Z.eqb negb].
  - rewrite <- app_assoc, read_after_cont by lia. cbn [app].
    destruct sign.
    + rewrite lor_64 by lia. rewrite bi_read_last by lia. cbv zeta.
      replace (m + 64 <? 64) with false by lia.
      replace ((m + 64) mod 64) with m by lia. f_equal. f_equal. f_equal. lia.
    + rewrite Z.lor_0_r, bi_read_last by lia. cbv zeta.
      replace (m <? 64) with true by lia. rewrite (Z.mod_small m) by lia. f_equal. f_equal. lia.
  - assert (Hk : (S k <= 7)%nat).
    { destruct (Nat.eq_dec k 7) as [->|]; [|lia]. exfalso.
      change (2 ^ (7 * Z.of_nat 7)) with (2 ^ 49) in *.
      change (2 ^ 55) with (64 * 2 ^ 49) in Hu. nia. }
    replace (cont_bytes k u ++ [Z.lor m 128; if sign then 64 else 0])
      with (cont_bytes (S k) u ++ [if sign then 64 else 0]).
    2:{ rewrite <- cont_snoc, <- app_assoc. cbn [app].
        change (u / 2 ^ (7 * Z.of_nat k)) with m. rewrite Em. reflexivity. }
    rewrite <- app_assoc, read_after_cont by lia. cbn [app].
    rewrite bi_read_last by (first [lia | apply Z.mod_pos_bound, pow2_pos; lia | destruct sign; lia]).
    rewrite Z.mod_small by lia. cbv zeta.
    destruct sign.
    + change (64 <? 64) with false. change (64 mod 64) with 0. rewrite Z.mul_0_l, Z.add_0_r. reflexivity.
    + change (0 <? 64) with true. change (0 mod 64) with 0. rewrite Z.mul_0_l, Z.add_0_r. reflexivity.
Qed.

(** The ninth byte is taken verbatim. *)
Lemma bi_read_ninth u b t : 0 <= u < 2 ^ 56 -> is_byte b ->
  bi_read_loop 1 8 u (b :: t) = Some (u + sgn 8 b * 2 ^ 56, t).
Proof.
  intros Hu Hb. cbn [bi_read_loop]. change (8 <? 8) with false. cbv iota. change (7 * 8) with 56.
  rewrite Z.shiftl_mul_pow2 by lia.
  assert (E : sgn 64 (b * 2 ^ 56) = sgn 8 b * 2 ^ 56).
  { unfold is_byte in Hb. unfold sgn, wrap.
    rewrite (Z.mod_small b) by (change (2 ^ 8) with 256; lia).
    rewrite (Z.mod_small (b * 2 ^ 56)) by (change (2 ^ 64) with (256 * 2 ^ 56); nia).
    change (2 ^ (64 - 1)) with (128 * 2 ^ 56). change (2 ^ (8 - 1)) with 128.
    change (2 ^ 64) with (256 * 2 ^ 56). change (2 ^ 8) with 256.
    destruct (Z.ltb_spec b 128), (Z.ltb_spec (b * 2 ^ 56) (128 * 2 ^ 56)); nia. }
  rewrite E, lor_low_shift by lia. reflexivity.
Qed.

(** Non-negative values from 2^55 up. *)
Lemma bi_large u rest : 2 ^ 55 <= u < 2 ^ 63 ->
  exists bs lv li, bi_write_loop 20 u 0 = Some (bs, lv, li) /\
    bint128_Read (bi_tail false bs lv li ++ rest) = Some (u, rest).
Proof.
  intros Hu.
  destruct (groups_exist u) as (k & _ & Hlt & Hge).
  { split; [lia|]. apply Z.lt_trans with (2 ^ 63); [lia|]. apply Z.pow_lt_mono_r; lia. }
  assert (Hk : (7 <= k <= 8)%nat).
  { split.
    - assert (55 < 7 * Z.of_nat (S k)).
      { apply (Z.pow_lt_mono_r_iff 2); lia. }
      lia.
    - destruct Hge as [->|Hge]; [lia|].
      assert (7 * Z.of_nat k < 63) by (apply (Z.pow_lt_mono_r_iff 2); lia). lia. }
  exists (cont_bytes k u), (u8 (u / 2 ^ (7 * Z.of_nat k))), (0 + Z.of_nat k). split.
  { replace 20%nat with (S k + (19 - k))%nat by lia. apply bi_write_cont; [split; lia|exact Hge]. }
  destruct (Nat.eq_dec k 7) as [->|].
  - change (2 ^ (7 * Z.of_nat 7)) with (2 ^ 49) in *.
    change (2 ^ (7 * Z.of_nat 8)) with (128 * 2 ^ 49) in Hlt.
    assert (Hm : 64 <= u / 2 ^ 49 < 128).
    { split; [apply Z.div_le_lower_bound|apply Z.div_lt_upper_bound]; lia. }
    assert (Em : u8 (u / 2 ^ 49) = u / 2 ^ 49) by (apply wrap_small; change (2 ^ 8) with 256; lia).
    unfold bi_tail. rewrite Em, Z.add_0_l. change (Z.of_nat 7 <? 8) with true. cbv zeta.
    rewrite land_64_mid by lia. replace (u / 2 ^ 49 <? 64) with false by lia. cbn [Z.eqb negb].
    replace (cont_bytes 7 u ++ [Z.lor (u / 2 ^ 49) 128; 0]) with (cont_bytes 8 u ++ [0]).
    2:{ rewrite <- cont_snoc, <- app_assoc. cbn [app].
        change (2 ^ (7 * Z.of_nat 7)) with (2 ^ 49). rewrite Em. reflexivity. }
    rewrite <- app_assoc, read_after_cont by lia. cbn [app].
    change (9 - 8)%nat with 1%nat. change (Z.of_nat 8) with 8.
    change (2 ^ (7 * 8)) with (128 * 2 ^ 49).
    rewrite Z.mod_small by lia.
    rewrite bi_read_ninth; [|change (2 ^ 56) with (128 * 2 ^ 49); lia|unfold is_byte; lia].
    change (sgn 8 0) with 0. f_equal. f_equal. lia.
  - assert (k = 8%nat) by lia. subst k.
    change (Z.of_nat 8) with 8 in *. change (7 * 8) with 56 in *.
    assert (Hm : 0 <= u / 2 ^ 56 < 128).
    { split; [apply Z.div_pos|apply Z.div_lt_upper_bound]; lia. }
    assert (Em : u8 (u / 2 ^ 56) = u / 2 ^ 56) by (apply wrap_small; change (2 ^ 8) with 256; lia).
    unfold bi_tail. rewrite Em. change (0 + 8 <? 8) with false. cbv iota.
    rewrite <- app_assoc, read_after_cont by lia. cbn [app].
    change (9 - 8)%nat with 1%nat. change (7 * Z.of_nat 8) with 56. change (Z.of_nat 8) with 8.
    rewrite bi_read_ninth; [|apply Z.mod_pos_bound; lia|unfold is_byte; lia].
    rewrite sgn_small by (unfold is_sword; change (2 ^ (8 - 1)) with 128; lia).
    f_equal. f_equal. pose proof (Z.div_mod u (2 ^ 56) ltac:(lia)). lia.
Qed.

Lemma bi_roundtrip v rest : - 2 ^ 55 <= v < 2 ^ 63 ->
  exists bs, bint128_Write v = Some bs /\ bint128_Read (bs ++ rest) = Some (v, rest).
Proof.
  intros Hv. rewrite bi_write_tail. cbv zeta. rewrite shiftr56_m1.
  change (2 ^ 63) with (2 ^ 7 * 2 ^ 56) in Hv. pose proof (pow2_pos 55 ltac:(lia)) as H55.
  change (2 ^ 56) with (2 * 2 ^ 55) in *.
  destruct (Z.ltb_spec v 0) as [Hneg|Hpos].
  - replace (- (2 * 2 ^ 55) <=? v) with true by lia. cbn [andb].
    unfold u64. rewrite wrap_small by (unfold Z.lnot; change (2 ^ 64) with (512 * 2 ^ 55); lia).
    destruct (bi_small true (Z.lnot v) rest) as (bs & lv & li & E1 & E2).
    { unfold Z.lnot. lia. }
    rewrite E1. eexists; split; [reflexivity|]. rewrite E2, Z.lnot_involutive. reflexivity.
  - cbn [andb]. unfold u64. change (2 ^ 7) with 128 in Hv.
    rewrite wrap_small by (change (2 ^ 64) with (512 * 2 ^ 55); lia).
    destruct (Z.lt_ge_cases v (2 ^ 55)).
    + destruct (bi_small false v rest) as (bs & lv & li & E1 & E2); [lia|].
      rewrite E1. eexists; split; [reflexivity|]. exact E2.
    + destruct (bi_large v rest) as (bs & lv & li & E1 & E2).
      { change (2 ^ 63) with (128 * (2 * 2 ^ 55)). lia. }
      rewrite E1. eexists; split; [reflexivity|]. exact E2.
Qed.

Lemma bi_corrupt v rest : - 2 ^ 56 <= v < - 2 ^ 55 ->
  exists bs, bint128_Write v = Some bs /\ bint128_Read (bs ++ rest) = Some (Z.lnot v + 2 ^ 62, rest).
Proof.
  intros Hv. rewrite bi_write_tail. cbv zeta. rewrite shiftr56_m1.
  pose proof (pow2_pos 55 ltac:(lia)) as H55.
  replace (v <? 0) with true by lia. replace (- 2 ^ 56 <=? v) with true by lia. cbn [andb].
  set (u := Z.lnot v). assert (Hu : 2 ^ 55 <= u < 2 ^ 56) by (unfold u, Z.lnot; lia).
  unfold u64. rewrite wrap_small by (change (2 ^ 64) with (256 * 2 ^ 56); lia).
  change 20%nat with (S 7 + 12)%nat.
  rewrite bi_write_cont; [|change (7 * Z.of_nat 8) with 56; lia
                          |right; change (2 ^ 55) with (64 * 2 ^ (7 * Z.of_nat 7)) in Hu; lia].
  eexists; split; [reflexivity|].
  change (2 ^ (7 * Z.of_nat 7)) with (2 ^ 49) in *.
  assert (Hm : 64 <= u / 2 ^ 49 < 128).
  { split; [apply Z.div_le_lower_bound|apply Z.div_lt_upper_bound]; lia. }
  assert (Em : u8 (u / 2 ^ 49) = u / 2 ^ 49) by (apply wrap_small; change (2 ^ 8) with 256; lia).
  unfold bi_tail. rewrite Em. change (0 + Z.of_nat 7 <? 8) with true. cbv zeta iota.
  rewrite land_64_mid by lia. replace (u / 2 ^ 49 <? 64) with false by lia. cbn [Z.eqb negb].
  replace (cont_bytes 7 u ++ [Z.lor (u / 2 ^ 49) 128; 64]) with (cont_bytes 8 u ++ [64]).
  2:{ rewrite <- cont_snoc, <- app_assoc. cbn [app].
      change (2 ^ (7 * Z.of_nat 7)) with (2 ^ 49). rewrite Em. reflexivity. }
  rewrite <- app_assoc, read_after_cont by lia. cbn [app].
  change (9 - 8)%nat with 1%nat. change (7 * Z.of_nat 8) with 56. change (Z.of_nat 8) with 8.
  rewrite Z.mod_small by lia.
  rewrite bi_read_ninth; [|lia|unfold is_byte; lia].
  change (sgn 8 64 * 2 ^ 56) with (2 ^ 62). reflexivity.
Qed.

Lemma bi_overlong v rest : - 2 ^ 63 <= v < - 2 ^ 56 ->
  exists bs, bint128_Write v = Some bs /\ length bs = 10%nat /\
             bint128_Read (bs ++ rest) = Some (v, 1 :: rest).
Proof.
  intros Hv. rewrite bi_write_tail. cbv zeta. rewrite shiftr56_m1.
  pose proof (pow2_pos 55 ltac:(lia)) as H55.
  replace (- 2 ^ 56 <=? v) with false by lia. cbn [andb]. rewrite andb_false_r.
  set (u := v + 2 ^ 64).
  assert (Eu : u64 v = u).
  { unfold u64, wrap. rewrite <- (Z_mod_plus_full v 1 (2 ^ 64)), Z.mul_1_l.
    apply Z.mod_small. change (2 ^ 64) with (2 * 2 ^ 63). lia. }
  assert (Hu : 2 ^ 63 <= u < 2 ^ 64) by (unfold u; change (2 ^ 64) with (2 * 2 ^ 63) in *; lia).
  rewrite Eu. change 20%nat with (S 9 + 10)%nat.
  rewrite bi_write_cont; [|change (7 * Z.of_nat 10) with 70; assert (2 ^ 64 <= 2 ^ 70) by (apply Z.pow_le_mono_r; lia); lia
                          |right; change (7 * Z.of_nat 9) with 63; lia].
  eexists; split; [reflexivity|].
  change (2 ^ (7 * Z.of_nat 9)) with (2 ^ 63).
  assert (Hm : u / 2 ^ 63 = 1).
  { symmetry. apply (Z.div_unique u (2 ^ 63) 1 (u - 2 ^ 63)); [|lia].
    change (2 ^ 64) with (2 * 2 ^ 63) in Hu. lia. }
  unfold bi_tail. rewrite Hm. change (0 + Z.of_nat 9 <? 8) with false. cbv iota. change (u8 1) with 1.
  split; [rewrite app_length, cont_bytes_length; reflexivity|].
  rewrite <- app_assoc, <- (cont_snoc 8), <- app_assoc. cbn [app].
  rewrite read_after_cont by lia.
  change (9 - 8)%nat with 1%nat. change (7 * Z.of_nat 8) with 56. change (Z.of_nat 8) with 8.
  assert (Hq : 128 <= u / 2 ^ 56 < 256).
  { split; [apply Z.div_le_lower_bound|apply Z.div_lt_upper_bound]; lia. }
  assert (Eq : u8 (u / 2 ^ 56) = u / 2 ^ 56) by (apply wrap_small; change (2 ^ 8) with 256; lia).
  rewrite Eq.
  assert (El : Z.lor (u / 2 ^ 56) 128 = u / 2 ^ 56).
  { assert (G : forallb (fun n => Z.lor (Z.of_nat n) 128 =? Z.of_nat n) (seq 128 128) = true)
      by (vm_compute; reflexivity).
    rewrite forallb_forall in G. specialize (G (Z.to_nat (u / 2 ^ 56)) ltac:(apply in_seq; lia)).
    apply Z.eqb_eq in G. rewrite Z2Nat.id in G by lia. exact G. }
  rewrite El.
  rewrite bi_read_ninth; [|apply Z.mod_pos_bound; lia|unfold is_byte; lia].
  f_equal. f_equal.
  assert (Es : sgn 8 (u / 2 ^ 56) = u / 2 ^ 56 - 256).
  { unfold sgn. rewrite wrap_small by (change (2 ^ 8) with 256; lia).
    change (2 ^ (8 - 1)) with 128. replace (u / 2 ^ 56 <? 128) with false by lia. reflexivity. }
  rewrite Es. pose proof (Z.div_mod u (2 ^ 56) ltac:(lia)) as Hdm.
  unfold u in *. change (2 ^ 64) with (256 * 2 ^ 56) in *. lia.
Qed.

(** * Sequences of values written back to back *)
Lemma seq_roundtrip w rd (ok : Z -> Prop) :
  (forall v rest, ok v -> exists bs, w v = Some bs /\ rd (bs ++ rest) = Some (v, rest)) ->
  forall vs rest, Forall ok vs ->
  exists bs, write_seq w vs = Some bs /\ read_seq rd (length vs) (bs ++ rest) = Some (vs, rest).
Proof.
  intros H vs. induction vs as [|v vs IH]; intros rest Hok.
  - exists []. split; reflexivity.
  - inversion Hok as [|? ? Hv Hvs]; subst.
    destruct (IH rest Hvs) as (bs & Ew & Er).
    destruct (H v (bs ++ rest) Hv) as (b & Ewv & Erv).
    exists (b ++ bs). cbn [write_seq read_seq length]. rewrite Ewv, Ew. split; [reflexivity|].
    rewrite <- app_assoc, Erv, Er. reflexivity.
Qed.

Lemma bu_seq vs rest : Forall (fun v => 0 <= v < 2 ^ 64) vs ->
  exists bs, write_seq buint128_Write vs = Some bs /\
             read_seq buint128_Read (length vs) (bs ++ rest) = Some (vs, rest).
Proof. apply seq_roundtrip. intros; apply bu_roundtrip; assumption. Qed.

Lemma bi_seq vs rest : Forall (fun v => - 2 ^ 55 <= v < 2 ^ 63) vs ->
  exists bs, write_seq bint128_Write vs = Some bs /\
             read_seq bint128_Read (length vs) (bs ++ rest) = Some (vs, rest).
Proof. apply seq_roundtrip. intros; apply bi_roundtrip; assumption. Qed.
