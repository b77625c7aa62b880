(** C16, C17, C51: Blowfish blocks, modes and key schedule. *)
From Verif Require Import Base Blowfish_Tables Blowfish_Model Blowfish_Spec Blowfish_Proof.

(** ** C16: one block *)

(** Decoding undoes encoding and encoding undoes decoding, for any box contents, both
    byte-order variants; both map 64-bit words to 64-bit words. *)
Theorem C16_block_inverse : forall v2 P S b,
  Forall (is_word 32) P -> is_word 64 b ->
  is_word 64 (encode_block v2 P S b) /\ is_word 64 (decode_block v2 P S b) /\
  decode_block v2 P S (encode_block v2 P S b) = b /\
  encode_block v2 P S (decode_block v2 P S b) = b.
Proof.
  intros. auto using encode_block_word, decode_block_word, decode_encode, encode_decode.
Qed.

(** Hence encryption is a permutation of the 2^64 blocks. *)
Theorem C16_block_permutation : forall v2 P S,
  Forall (is_word 32) P ->
  (forall a b, is_word 64 a -> is_word 64 b ->
     encode_block v2 P S a = encode_block v2 P S b -> a = b) /\
  (forall c, is_word 64 c -> exists b, is_word 64 b /\ encode_block v2 P S b = c).
Proof.
  intros v2 P S HP. split.
  - intros a b Ha Hb E. rewrite <- (decode_encode v2 P S a HP Ha), E. apply decode_encode; assumption.
  - intros c Hc. exists (decode_block v2 P S c). auto using decode_block_word, encode_decode.
Qed.

(** The block function is the published Feistel network: the first 32-bit word in memory
    is xL, the second xR. The first variant splits words from the most significant byte
    (the published F); the second from the least significant. *)
Theorem C16_block_is_blowfish : forall (v2 : bool) (P S : list Z) (xL xR : Z),
  is_word 32 xL -> is_word 32 xR ->
  let byte (x k : Z) := x / 2 ^ (8 * k) mod 256 in
  let F (x : Z) := if v2 then blowfish_F S (byte x 0) (byte x 1) (byte x 2) (byte x 3)
             else blowfish_F S (byte x 3) (byte x 2) (byte x 1) (byte x 0) in
  let '(yL, yR) := blowfish_block F (fun i => nth i P 0) xL xR in
  encode_block v2 P S (xL + 2 ^ 32 * xR) = yL + 2 ^ 32 * yR.
Proof.
  intros v2 P S xL xR HL HR byte F. unfold blowfish_block.
  assert (HF : forall n i l r, feistel F (fun k => nth k P 0) n i l r =
                               feistel (bf_f v2 S) (fun k => nth k P 0) n i l r).
  { intros n. induction n as [|n IH]; intros i l r; cbn [feistel]; [reflexivity|].
    rewrite IH. do 2 f_equal. destruct v2; reflexivity. }
  rewrite HF. rewrite encode_block_net. unfold bf_net.
  rewrite low32_mk, high32_mk by assumption.
  pose proof (bf_rounds_feistel v2 P S 16 0 xR xL) as R. cbn [seq Nat.add] in R. rewrite R.
  destruct (feistel _ _ 16 0 xL xR) as [l r]. reflexivity.
Qed.

(** ** C17: modes *)

(** A usable encoder object: boxes and vector are machine words. *)
Definition encoder_ok (e : encoder) : Prop :=
  Forall (is_word 32) (e_P e) /\ is_word 64 (e_vec e).

(** Encode followed by Decode, and Decode followed by Encode, restore every buffer. *)
Theorem C17_round_trip : forall e buf,
  encoder_ok e -> bytes_ok buf ->
  (forall c, bf_encode e buf = Some c -> bf_decode e c = Some buf) /\
  (forall c, bf_decode e buf = Some c -> bf_encode e c = Some buf).
Proof.
  intros e buf [HP Hv] Hb. unfold bf_encode, bf_decode.
  set (E := encode_block _ _ _). set (D := decode_block _ _ _).
  assert (HE : forall b, is_word 64 b -> is_word 64 (E b)) by (intros; apply encode_block_word; assumption).
  assert (HD : forall b, is_word 64 b -> is_word 64 (D b)) by (intros; apply decode_block_word; assumption).
  assert (HDE : forall b, is_word 64 b -> D (E b) = b) by (intros; apply decode_encode; assumption).
  assert (HED : forall b, is_word 64 b -> E (D b) = b) by (intros; apply encode_decode; assumption).
  split; intros c H; rewrite (bf_buffer_again _ _ _ _ _ H); f_equal;
    apply bf_buffer_some in H; destruct H as (n & Hn & <- & _ & ->).
  - apply bf_loop_inv; auto using enc_step_ok, enc_dec_inv.
  - apply bf_loop_inv; auto using dec_step_ok, dec_enc_inv.
Qed.

(** What a successful call does: for buffers below 2^31 bytes and any mode, all whole
    blocks satisfy the textbook equation of the mode, the length is unchanged and the
    last (length mod 8) bytes are the input's. *)
Theorem C17_encode_is_the_mode : forall e buf,
  encoder_ok e -> bytes_ok buf -> (Z.of_nat (length buf) < 2 ^ 31) ->
  exists c, bf_encode e buf = Some c /\ bytes_ok c /\ length c = length buf /\
    let n := (length buf / 8)%nat in
    skipn (8 * n) c = skipn (8 * n) buf /\
    let E := encode_block (e_v2 e) (e_P e) (e_S e) in
    forall i, (i < n)%nat ->
      match e_mode e with
      | ECB => ecb_eqn | CBC => cbc_eqn | PCBC => pcbc_eqn | CFB => cfb_eqn | OFB => ofb_eqn
      end E (e_vec e) (blocks n buf) (blocks n c) i.
Proof.
  intros e buf [HP Hv] Hb Hl. cbv zeta. unfold bf_encode.
  set (E := encode_block _ _ _). set (D := decode_block _ _ _).
  assert (HE : forall b, is_word 64 b -> is_word 64 (E b)) by (intros; apply encode_block_word; assumption).
  assert (HD : forall b, is_word 64 b -> is_word 64 (D b)) by (intros; apply decode_block_word; assumption).
  assert (HDE : forall b, is_word 64 b -> D (E b) = b) by (intros; apply decode_encode; assumption).
  assert (HED : forall b, is_word 64 b -> E (D b) = b) by (intros; apply encode_decode; assumption).
  clearbody E D.
  assert (Hs : sgn 32 (Z.of_nat (length buf) / 8) = Z.of_nat (length buf / 8)).
  { rewrite Nat2Z.inj_div. apply sgn_small; [lia|]. unfold is_sword. cbn. lia. }
  unfold bf_buffer. rewrite Hs.
  destruct (Z.ltb_spec (2 ^ 28) (Z.of_nat (length buf / 8))).
  { rewrite Nat2Z.inj_div in *. lia. }
  rewrite Nat2Z.id. set (n := (length buf / 8)%nat).
  assert (Hn : (8 * n <= length buf)%nat) by (unfold n; apply Nat.mul_div_le; lia).
  eexists. split; [reflexivity|]. split; [apply bf_loop_bytes; assumption|].
  split; [apply bf_loop_length; assumption|]. split; [apply bf_loop_tail; assumption|].
  intros i Hi.
  rewrite blocks_loop; [| apply enc_step_ok; assumption | assumption | assumption].
  assert (Hi' : (i < length (blocks n buf))%nat) by (rewrite blocks_length; assumption).
  destruct (e_mode e); cbn [enc_step].
  - eapply ecb_eq; eassumption.
  - eapply cbc_eq; eassumption.
  - eapply pcbc_eq; eassumption.
  - eapply cfb_eq; eassumption.
  - eapply ofb_eq; eassumption.
Qed.

(** Length and tail also for decoding and for any successful call whatever the size. *)
Theorem C17_length_and_tail : forall e buf c,
  bf_encode e buf = Some c \/ bf_decode e buf = Some c ->
  length c = length buf /\
  forall k, (8 * (length buf / 8) <= k)%nat -> nth_error c k = nth_error buf k.
Proof.
  intros e buf c H.
  assert (exists step n, (8 * n <= length buf)%nat /\ c = bf_loop step n (e_vec e) buf) as (step & n & Hn & ->).
  { destruct H as [H|H]; apply bf_buffer_some in H; destruct H as (n & ? & _ & _ & ->); eauto. }
  split; [apply bf_loop_length; assumption|]. intros k Hk.
  assert (Hk' : (8 * n <= k)%nat).
  { assert (n <= length buf / 8)%nat by (apply Nat.div_le_lower_bound; lia). lia. }
  pose proof (bf_loop_tail step n (e_vec e) buf Hn) as T.
  assert (G : forall l : list Z, nth_error l k = nth_error (skipn (8 * n) l) (k - 8 * n)).
  { intros l. rewrite nth_error_skipn. f_equal. lia. }
  rewrite (G (bf_loop _ _ _ _)), (G buf), T. reflexivity.
Qed.

(** In OFB mode encoding and decoding are the same function. *)
Theorem C17_ofb_symmetric : forall e buf, e_mode e = OFB -> bf_encode e buf = bf_decode e buf.
Proof. intros e buf H. unfold bf_encode, bf_decode. rewrite H. reflexivity. Qed.

(** The block index is multiplied by eight in a 32-bit int: from 2^31 + 8 bytes up to
    2^34 bytes every mode runs into signed overflow. *)
Theorem C17_large_buffers_refuted : forall e buf,
  2 ^ 31 + 8 <= Z.of_nat (length buf) < 2 ^ 34 ->
  bf_encode e buf = None /\ bf_decode e buf = None.
Proof.
  intros e buf H.
  assert (Hs : sgn 32 (Z.of_nat (length buf) / 8) = Z.of_nat (length buf) / 8).
  { apply sgn_small; [lia|]. unfold is_sword. cbn. lia. }
  unfold bf_encode, bf_decode, bf_buffer. rewrite Hs.
  destruct (Z.ltb_spec (2 ^ 28) (Z.of_nat (length buf) / 8)); [auto|lia].
Qed.

(** ** C51: key schedule *)

(** SetKey fails only on an empty key; it yields 18 and 1024 words, hence an encoder to
    which C16 and C17 apply, and it leaves mode and variant alone. *)
Theorem C51_set_key_usable : forall fresh e key,
  is_word 64 fresh -> is_word 64 (e_vec e) -> key <> [] ->
  exists e', set_key fresh e key = Some e' /\ encoder_ok e' /\
    length (e_P e') = 18%nat /\ length (e_S e') = 1024%nat /\
    e_mode e' = e_mode e /\ e_v2 e' = e_v2 e.
Proof.
  intros fresh e key Hf Hv Hk. destruct (set_key fresh e key) as [e'|] eqn:E.
  - exists e'. destruct (set_key_ok _ _ _ _ E) as (A & B & C & D & F & G & V).
    assert (W : is_word 64 (e_vec e')) by (rewrite V; destruct (e_mode e); assumption).
    unfold encoder_ok; auto 10.
  - exfalso. revert E. unfold set_key. destruct key as [|k key]; [congruence|].
    destruct (fill_p _ _ _ _ _ _). destruct (fill_s _ _ _ _ _ _). discriminate.
Qed.

(** In every chaining mode SetKey throws away the vector set before it, and what replaces
    it does not depend on the encoder at all. *)
Theorem C51_set_key_discards_vector : forall fresh e key e',
  e_mode e <> ECB -> set_key fresh e key = Some e' -> e_vec e' = fresh.
Proof.
  intros fresh e key e' Hm E. destruct (set_key_ok _ _ _ _ E) as (_ & _ & _ & _ & _ & _ & V).
  destruct (e_mode e); congruence.
Qed.

(** The published schedule mixes the key's bytes four at a time, big endian. That is what
    happens when all key bytes are below 0x80 ... *)
Theorem C51_ascii_key_words : forall key i,
  key <> [] -> Forall (fun b => 0 <= b < 128) key ->
  let k j := nth (j mod length key) key 0 in
  key_entry false key i =
    k (4 * i)%nat * 2 ^ 24 + k (4 * i + 1)%nat * 2 ^ 16 + k (4 * i + 2)%nat * 2 ^ 8 + k (4 * i + 3)%nat /\
  key_entry true key i =
    k (4 * i)%nat + k (4 * i + 1)%nat * 2 ^ 8 + k (4 * i + 2)%nat * 2 ^ 16 + k (4 * i + 3)%nat * 2 ^ 24.
Proof.
  intros key i Hk Ha k.
  assert (B : forall j, 0 <= k j < 128).
  { intros j. rewrite Forall_forall in Ha. apply Ha, nth_In, Nat.mod_upper_bound.
    destruct key; [congruence|discriminate]. }
  assert (T : forall j sh, 0 <= sh <= 24 -> key_term key j sh = k j * 2 ^ sh).
  { intros j sh Hs. unfold key_term, u32. fold (k j). specialize (B j).
    rewrite sgn_small by (unfold is_sword; cbn; lia). apply wrap_small.
    pose proof (Z.pow_le_mono_r 2 sh 24 ltac:(lia) ltac:(lia)).
    pose proof (pow2_pos sh ltac:(lia)). change (2 ^ 32) with (256 * 2 ^ 24). nia. }
  unfold key_entry. rewrite !T by lia. replace (i * 4)%nat with (4 * i)%nat by lia.
  pose proof (B (4 * i)%nat). pose proof (B (4 * i + 1)%nat). pose proof (B (4 * i + 2)%nat).
  pose proof (B (4 * i + 3)%nat). change (2 ^ 0) with 1. rewrite !Z.mul_1_r.
  assert (L : forall a b c d, 0 <= a < 128 -> 0 <= b < 128 -> 0 <= c < 128 -> 0 <= d < 128 ->
     Z.lor a (Z.lor (b * 2 ^ 8) (Z.lor (c * 2 ^ 16) (d * 2 ^ 24))) =
     a + b * 2 ^ 8 + c * 2 ^ 16 + d * 2 ^ 24).
  { intros a b c d Ha' Hb' Hc' Hd'.
    rewrite (lor_low_shift (c * 2 ^ 16) d 24) by lia.
    replace (c * 2 ^ 16 + d * 2 ^ 24) with ((c + d * 2 ^ 8) * 2 ^ 16) by lia.
    rewrite (lor_low_shift (b * 2 ^ 8) (c + d * 2 ^ 8) 16) by lia.
    replace (b * 2 ^ 8 + (c + d * 2 ^ 8) * 2 ^ 16) with ((b + (c + d * 2 ^ 8) * 2 ^ 8) * 2 ^ 8) by lia.
    rewrite (lor_low_shift a _ 8) by lia. lia. }
  rewrite !L by auto. split; lia.
Qed.

Lemma lor_sign x d k : 0 <= k -> 0 <= x < 2 ^ 32 -> 128 <= d < 256 ->
  (exists y, x = y * 2 ^ 8) ->
  Z.lor (u32 (sgn 8 d)) x = u32 (sgn 8 d).
Proof.
  intros Hk Hx Hd [y ->]. apply Z.bits_inj'. intros i Hi. rewrite Z.lor_spec.
  assert (E : u32 (sgn 8 d) = (2 ^ 24 - 1) * 2 ^ 8 + d).
  { unfold u32, wrap, sgn, wrap. change (2 ^ (8 - 1)) with 128. change (2 ^ 8) with 256.
    rewrite (Z.mod_small d) by lia. destruct (Z.ltb_spec d 128); [lia|].
    symmetry. apply Z.mod_unique with (-1); lia. }
  destruct (Z.lt_ge_cases i 8).
  - rewrite (Z.mul_pow2_bits_low y) by lia. apply orb_false_r.
  - destruct (Z.lt_ge_cases i 32).
    + assert (T : Z.testbit (u32 (sgn 8 d)) i = true).
      { rewrite E. replace i with ((i - 8) + 8) by lia.
        rewrite <- Z.div_pow2_bits by lia.
        replace (((2 ^ 24 - 1) * 2 ^ 8 + d) / 2 ^ 8) with (2 ^ 24 - 1) by lia.
        change (2 ^ 24 - 1) with (Z.ones 24). apply Z.ones_spec_low. lia. }
      rewrite T. reflexivity.
    + rewrite (testbit_above 32 (y * 2 ^ 8)) by lia. apply orb_false_r.
Qed.

(** ... and not otherwise: a byte of 0x80 or more is sign-extended over the bytes above
    it. Four-byte keys that agree only in a last byte >= 0x80 give the same encoder, so
    2^24 different keys decrypt each other's data. *)
Theorem C51_key_bytes_lost_refuted : forall fresh e a b c a' b' c' d,
  e_v2 e = false -> 128 <= d < 256 ->
  set_key fresh e [a; b; c; d] = set_key fresh e [a'; b'; c'; d].
Proof.
  intros fresh e a b c a' b' c' d Hv Hd.
  assert (T : forall x sh, 8 <= sh <= 24 -> exists y, u32 (sgn 8 x * 2 ^ sh) = y * 2 ^ 8).
  { intros x sh Hs. unfold u32, wrap. exists ((sgn 8 x * 2 ^ (sh - 8)) mod 2 ^ 24).
    replace sh with ((sh - 8) + 8) at 1 by lia. rewrite Z.pow_add_r, Z.mul_assoc by lia.
    change (2 ^ 32) with (2 ^ 24 * 2 ^ 8). apply Z.mul_mod_distr_r; lia. }
  assert (K : forall x y z i, key_entry false [x; y; z; d] i = u32 (sgn 8 d)).
  { intros x y z i. unfold key_entry, key_term. cbn [length].
    replace ((i * 4 + 3) mod 4)%nat with 3%nat by (rewrite Nat.add_comm, Nat.mod_add; [reflexivity|lia]).
    replace ((i * 4 + 2) mod 4)%nat with 2%nat by (rewrite Nat.add_comm, Nat.mod_add; [reflexivity|lia]).
    replace ((i * 4 + 1) mod 4)%nat with 1%nat by (rewrite Nat.add_comm, Nat.mod_add; [reflexivity|lia]).
    replace ((i * 4) mod 4)%nat with 0%nat by (rewrite Nat.mod_mul; [reflexivity|lia]).
    cbn [nth]. change (2 ^ 0) with 1. rewrite Z.mul_1_r.
    apply lor_sign with (k := 0); [lia| |lia|].
    - apply lor_bounds; [lia|apply wrap_range; lia|].
      apply lor_bounds; [lia|apply wrap_range; lia|apply wrap_range; lia].
    - destruct (T z 8 ltac:(lia)) as [z' ->]. destruct (T y 16 ltac:(lia)) as [y' ->].
      destruct (T x 24 ltac:(lia)) as [x' ->].
      exists (Z.lor z' (Z.lor y' x')). rewrite <- !Z.shiftl_mul_pow2, !Z.shiftl_lor by lia. reflexivity. }
  assert (M : map (fun i => Z.lxor (nth i BF_PBOXES 0) (key_entry (e_v2 e) [a; b; c; d] i)) (seq 0 18) =
              map (fun i => Z.lxor (nth i BF_PBOXES 0) (key_entry (e_v2 e) [a'; b'; c'; d] i)) (seq 0 18)).
  { apply map_ext. intros i. rewrite Hv, !K. reflexivity. }
  unfold set_key. rewrite M. reflexivity.
Qed.

(** ** Concrete instances *)
Definition fresh_encoder (v2 : bool) (m : bf_mode) : encoder :=
  {| e_v2 := v2; e_P := []; e_S := []; e_vec := 0; e_mode := m |}.

(** Schneier's test vector: key 00..00, plaintext 00..00, ciphertext 4EF99745 6198DD78. *)
Example C16_published_vector :
  match set_key 0 (fresh_encoder false ECB) [0;0;0;0;0;0;0;0] with
  | Some e => bf_encode e [0;0;0;0;0;0;0;0;7] =
              Some [0x45;0x97;0xF9;0x4E;0x78;0xDD;0x98;0x61;7]
  | None => False
  end.
Proof. vm_compute. reflexivity. Qed.

(** A two-block PCBC buffer with a three-byte tail, keyed through SetKey. *)
Example C17_example :
  match set_key 5 (fresh_encoder true PCBC) [1;2;3;200;5] with
  | Some e =>
      match bf_encode e (map Z.of_nat (seq 0 19)) with
      | Some c => bf_decode e c = Some (map Z.of_nat (seq 0 19)) /\
                  firstn 16 c <> map Z.of_nat (seq 0 16) /\ skipn 16 c = [16; 17; 18]
      | None => False
      end
  | None => False
  end.
Proof. vm_compute. repeat split; discriminate. Qed.

Example C51_collision_example :
  set_key 0 (fresh_encoder false ECB) [1; 2; 3; 255] =
  set_key 0 (fresh_encoder false ECB) [77; 88; 99; 255].
Proof. apply C51_key_bytes_lost_refuted; [reflexivity | lia]. Qed.

Print Assumptions C16_block_inverse.
Print Assumptions C16_block_permutation.
Print Assumptions C16_block_is_blowfish.
Print Assumptions C17_round_trip.
Print Assumptions C17_encode_is_the_mode.
Print Assumptions C17_length_and_tail.
Print Assumptions C17_ofb_symmetric.
Print Assumptions C17_large_buffers_refuted.
Print Assumptions C51_set_key_usable.
Print Assumptions C51_set_key_discards_vector.
Print Assumptions C51_ascii_key_words.
Print Assumptions C51_key_bytes_lost_refuted.
