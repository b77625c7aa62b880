(** Proofs for C59. *)
From Verif Require Import Base Reflector_Model Reflector_Spec Reflector_Proof Writes Vector_Model Block_Model Block_Spec Block_Proof BlockSimd_Model.

(** the bytes of end point j the decoder takes for channel k: each field with the bits below it *)
Definition raw_byte (raw : Z) (j k : nat) : Z :=
  match j, k with
  | O, O => (raw * 8) mod 256 | O, 1%nat => (raw / 8) mod 256 | O, _ => (raw / 256) mod 256
  | _, O => (raw / 2 ^ 13) mod 256 | _, 1%nat => (raw / 2 ^ 19) mod 256 | _, _ => (raw / 2 ^ 24) mod 256
  end.
(** the signed component of palette entry i *)
Definition comp (raw : Z) (i : Z) (k : nat) : Z :=
  let a := sgn 8 (raw_byte raw 0 k) in let b := sgn 8 (raw_byte raw 1 k) in
  match i with 0 => a | 1 => b | 2 => (a * 170 + b * 85) / 256 | _ => (a * 85 + b * 170) / 256 end.
Definition entry_word (raw i : Z) : Z := comp raw i 0 + 256 * comp raw i 1 + 65536 * comp raw i 2.

Lemma top_byte w : 0 <= w < 2 ^ 32 -> Z.shiftr (sgn 32 w) (Z.min (count 24) 31) = sgn 8 (w / 2 ^ 24).
Proof.
  intros H. change (Z.min (count 24) 31) with 24. rewrite Z.shiftr_div_pow2 by lia. unfold sgn, wrap. change (32 - 1) with 31. change (8 - 1) with 7.
  change (2 ^ 32) with 4294967296 in *. change (2 ^ 31) with 2147483648. change (2 ^ 24) with 16777216. change (2 ^ 8) with 256. change (2 ^ 7) with 128.
  rewrite !Z.mod_small by lia. destruct (Z.ltb_spec w 2147483648), (Z.ltb_spec (w / 16777216) 128); lia.
Qed.
Lemma sgn8_range x : - 128 <= sgn 8 x < 128.
Proof. pose proof (sgn_range 8 x ltac:(lia)) as H. unfold is_sword in H. change (2 ^ (8 - 1)) with 128 in H. lia. Qed.

Lemma rgb_lanes data raw : raw = le_value (firstn 4 data) -> 0 <= raw < 2 ^ 32 ->
  DecodeRGB565Blocks data = (map (wrap 32) [comp raw 0 0; comp raw 0 1; comp raw 0 2; 0], map (wrap 32) [comp raw 1 0; comp raw 1 1; comp raw 1 2; 0]).
Proof.
  intros E H. unfold DecodeRGB565Blocks. rewrite <- E. clear E data.
  unfold iall. rewrite (wrap_small 32 raw H). unfold ibinary, zipw, ishr. cbn [repeat combine map fst snd ilane].
  pose proof (fun x => wrap_range 32 x ltac:(lia)) as W. rewrite !top_byte by apply W. unfold comp, raw_byte.
  assert (Q : forall m s, wrap 32 (raw * m) / 2 ^ 24 = s -> sgn 8 (wrap 32 (raw * m) / 2 ^ 24) = sgn 8 s) by (intros m s ->; reflexivity).
  rewrite (Q 0x8000000 ((raw * 8) mod 256)), (Q 0x200000 ((raw / 8) mod 256)), (Q 0x10000 ((raw / 256) mod 256)), (Q 0x800 ((raw / 2 ^ 13) mod 256)), (Q 0x20 ((raw / 2 ^ 19) mod 256)), (Q 1 ((raw / 2 ^ 24) mod 256)), (Q 0 0).
  - reflexivity.
  - unfold wrap. rewrite Z.mul_0_r. reflexivity.
  - unfold wrap. change (2 ^ 32) with 4294967296 in *. change (2 ^ 24) with 16777216. lia.
  - unfold wrap. change (2 ^ 32) with 4294967296 in *. change (2 ^ 24) with 16777216. change (2 ^ 19) with 524288. lia.
  - unfold wrap. change (2 ^ 32) with 4294967296 in *. change (2 ^ 24) with 16777216. change (2 ^ 13) with 8192. lia.
  - unfold wrap. change (2 ^ 32) with 4294967296 in *. change (2 ^ 24) with 16777216. lia.
  - unfold wrap. change (2 ^ 32) with 4294967296 in *. change (2 ^ 24) with 16777216. lia.
  - unfold wrap. change (2 ^ 32) with 4294967296 in *. change (2 ^ 24) with 16777216. lia.
Qed.

Lemma wm_l x y : wrap 32 (wrap 32 x * y) = wrap 32 (x * y). Proof. unfold wrap. apply Zmult_mod_idemp_l. Qed.
Lemma wa_l x y : wrap 32 (wrap 32 x + y) = wrap 32 (x + y). Proof. unfold wrap. apply Zplus_mod_idemp_l. Qed.
Lemma wa_r x y : wrap 32 (x + wrap 32 y) = wrap 32 (x + y). Proof. unfold wrap. apply Zplus_mod_idemp_r. Qed.
Lemma sum4 p q r s : wrap 32 (wrap 32 (wrap 32 p + wrap 32 q) + wrap 32 (wrap 32 r + wrap 32 s)) = wrap 32 (p + q + (r + s)).
Proof. rewrite wa_r, wa_l. replace (wrap 32 p + wrap 32 q + (wrap 32 r + wrap 32 s)) with (wrap 32 p + (wrap 32 q + (wrap 32 r + wrap 32 s))) by lia. rewrite wa_l. replace (p + (wrap 32 q + (wrap 32 r + wrap 32 s))) with (wrap 32 q + (wrap 32 r + (wrap 32 s + p))) by lia. rewrite wa_l. replace (q + (wrap 32 r + (wrap 32 s + p))) with (wrap 32 r + (wrap 32 s + (p + q))) by lia. rewrite wa_l. replace (r + (wrap 32 s + (p + q))) with (wrap 32 s + (p + q + r)) by lia. rewrite wa_l. f_equal. lia. Qed.
Lemma mean_lane x : - 2 ^ 31 <= x < 2 ^ 31 -> Z.shiftr (sgn 32 (wrap 32 x)) (Z.min (count 8) 31) = x / 256.
Proof.
  intros H. change (Z.min (count 8) 31) with 8. rewrite Z.shiftr_div_pow2 by lia. f_equal. unfold sgn, wrap. change (32 - 1) with 31.
  change (2 ^ 32) with 4294967296 in *. change (2 ^ 31) with 2147483648 in *. rewrite Z.mod_mod by lia. destruct (Z.ltb_spec (x mod 4294967296) 2147483648); lia.
Qed.

Lemma mix_lanes a b c a' b' c' : -128 <= a < 128 -> -128 <= b < 128 -> -128 <= c < 128 -> -128 <= a' < 128 -> -128 <= b' < 128 -> -128 <= c' < 128 ->
  forall data, DecodeRGB565Blocks data = (map (wrap 32) [a; b; c; 0], map (wrap 32) [a'; b'; c'; 0]) ->
  finalMix data = map (wrap 32) [a + 256 * b + 65536 * c; a' + 256 * b' + 65536 * c';
    (a * 170 + a' * 85) / 256 + 256 * ((b * 170 + b' * 85) / 256) + 65536 * ((c * 170 + c' * 85) / 256);
    (a * 85 + a' * 170) / 256 + 256 * ((b * 85 + b' * 170) / 256) + 65536 * ((c * 85 + c' * 170) / 256)].
Proof.
  intros Ha Hb Hc Ha' Hb' Hc' data E. unfold finalMix. rewrite E.
  unfold ibinary_scalar, iall. change (wrap 32 170) with 170. change (wrap 32 85) with 85.
  unfold ibinary, zipw, ishr. cbn [repeat combine map fst snd ilane].
  rewrite !wm_l, !wa_l, !wa_r. rewrite !mean_lane by lia. cbn [hadd unpacklo32 unpacklo64 map].
  rewrite !sum4. change ((0 * 170 + 0 * 85) / 256) with 0. change ((0 * 85 + 0 * 170) / 256) with 0.
  assert (L4 : forall x y z t x' y' z' t' : Z, x = x' -> y = y' -> z = z' -> t = t' -> [x; y; z; t] = [x'; y'; z'; t']) by (intros; subst; reflexivity).
  apply L4; apply (f_equal (wrap 32)); ring.
Qed.
Lemma final_mix data raw : raw = le_value (firstn 4 data) -> 0 <= raw < 2 ^ 32 -> finalMix data = map (fun i => wrap 32 (entry_word raw i)) [0; 1; 2; 3].
Proof. intros E H. rewrite (mix_lanes _ _ _ _ _ _ (sgn8_range _) (sgn8_range _) (sgn8_range _) (sgn8_range _) (sgn8_range _) (sgn8_range _) data (rgb_lanes data raw E H)). reflexivity. Qed.

Fixpoint eqb_list (a b : list Z) : bool := match a, b with [], [] => true | x :: a, y :: b => (x =? y) && eqb_list a b | _, _ => false end.
Lemma eqb_list_ok a : forall b, eqb_list a b = true -> a = b.
Proof. induction a as [|x a IH]; intros [|y b] H; cbn in H; try discriminate; [reflexivity|]. apply andb_true_iff in H as [H1 H2]. apply Z.eqb_eq in H1. subst. f_equal. auto. Qed.
Definition four (k : Z) : list Z := [4 * k; 4 * k + 1; 4 * k + 2; 4 * k + 3].
Lemma indices d : is_byte d -> finalIndices d = four (d1 d) ++ four (d2 d) ++ four (d3 d) ++ four (d4 d).
Proof. intros H. apply eqb_list_ok. apply (byte_sweep (fun d => eqb_list (finalIndices d) (four (d1 d) ++ four (d2 d) ++ four (d3 d) ++ four (d4 d)))); [vm_compute; reflexivity|exact H]. Qed.

Definition pal (ms : list Z) : list (list Z) := map (fun m => firstn 3 (le_bytes 4 m)) ms.
Lemma pick16 (b : list Z) k : length b = 16%nat -> 0 <= k < 4 ->
  shuffle8 b (four k) = firstn 4 (skipn (Z.to_nat (4 * k)) b).
Proof.
  intros L H. do 16 (destruct b as [|? b]; [discriminate|]). destruct b; [|discriminate].
  assert (C : k = 0 \/ k = 1 \/ k = 2 \/ k = 3) by lia. destruct C as [->|[->|[->| ->]]]; reflexivity.
Qed.
Lemma regs m0 m1 m2 m3 k : 0 <= k < 4 -> firstn 4 (skipn (Z.to_nat (4 * k)) (reg_bytes [m0; m1; m2; m3])) = le_bytes 4 (nth (Z.to_nat k) [m0; m1; m2; m3] 0).
Proof. intros H. assert (C : k = 0 \/ k = 1 \/ k = 2 \/ k = 3) by lia. destruct C as [->|[->|[->| ->]]]; reflexivity. Qed.
Lemma row_bytes m0 m1 m2 m3 d : is_byte d -> simd_row [m0; m1; m2; m3] d =
  let c i := nth (Z.to_nat i) (pal [m0; m1; m2; m3]) [] in c (d1 d) ++ c (d2 d) ++ c (d3 d) ++ c (d4 d).
Proof.
  intros Hd. unfold simd_row. rewrite indices by exact Hd.
  assert (R1 : 0 <= d1 d < 4) by (rewrite j1 by exact Hd; lia). assert (R2 : 0 <= d2 d < 4) by (rewrite j2 by exact Hd; lia).
  assert (R3 : 0 <= d3 d < 4) by (rewrite j3 by exact Hd; lia). assert (R4 : 0 <= d4 d < 4) by (rewrite j4 by exact Hd; unfold is_byte in Hd; lia).
  assert (A : forall b x y, shuffle8 b (x ++ y) = shuffle8 b x ++ shuffle8 b y) by (intros; apply map_app).
  rewrite !A, !pick16, !regs by (auto; reflexivity).
  assert (P : forall k, 0 <= k < 4 -> nth (Z.to_nat k) (pal [m0; m1; m2; m3]) [] = firstn 3 (le_bytes 4 (nth (Z.to_nat k) [m0; m1; m2; m3] 0))).
  { intros k Hk. assert (C : k = 0 \/ k = 1 \/ k = 2 \/ k = 3) by lia. destruct C as [->|[->|[->| ->]]]; reflexivity. }
  cbv zeta. rewrite !P by assumption.
  generalize (nth (Z.to_nat (d1 d)) [m0; m1; m2; m3] 0) (nth (Z.to_nat (d2 d)) [m0; m1; m2; m3] 0) (nth (Z.to_nat (d3 d)) [m0; m1; m2; m3] 0) (nth (Z.to_nat (d4 d)) [m0; m1; m2; m3] 0).
  intros. reflexivity.
Qed.

Lemma store_app b1 b2 a buf : store (b1 ++ b2) a buf = writes [(a, b1); ((a + length b1)%nat, b2)] buf.
Proof.
  cbn [writes]. unfold store at 1 2. rewrite app_length. destruct (Nat.leb_spec (a + (length b1 + length b2)) (length buf)) as [H|H].
  - destruct (Nat.leb_spec (a + length b1) (length buf)); [|lia]. unfold store.
    assert (L : length (firstn a buf ++ b1 ++ skipn (a + length b1) buf) = length buf) by (rewrite !app_length, firstn_length, skipn_length; lia).
    rewrite L. destruct (Nat.leb_spec (a + length b1 + length b2) (length buf)); [|lia]. f_equal.
    assert (La : length (firstn a buf ++ b1) = (a + length b1)%nat) by (rewrite app_length, firstn_length; lia).
    rewrite (app_assoc (firstn a buf) b1). rewrite firstn_app, La, Nat.sub_diag. cbn [firstn]. rewrite app_nil_r.
    rewrite (firstn_all2 (firstn a buf ++ b1)) by lia.
    assert (T : skipn (a + length b1 + length b2) ((firstn a buf ++ b1) ++ skipn (a + length b1) buf) = skipn (a + (length b1 + length b2)) buf).
    { rewrite skipn_app, La. rewrite (skipn_all2 (firstn a buf ++ b1)) by lia. cbn [app].
      replace (a + length b1 + length b2 - (a + length b1))%nat with (length b2) by lia. rewrite skipn_skipn. f_equal. lia. }
    rewrite T, <- !app_assoc. reflexivity.
  - destruct (Nat.leb_spec (a + length b1) (length buf)); [|reflexivity]. unfold store.
    assert (L : length (firstn a buf ++ b1 ++ skipn (a + length b1) buf) = length buf) by (rewrite !app_length, firstn_length, skipn_length; lia).
    rewrite L. destruct (Nat.leb_spec (a + length b1 + length b2) (length buf)); [lia|reflexivity].
Qed.

Lemma writes_app ws1 ws2 buf : writes (ws1 ++ ws2) buf = match writes ws1 buf with Some b => writes ws2 b | None => None end.
Proof. revert buf. induction ws1 as [|[a bs] r IH]; intros buf; cbn [app writes]; [reflexivity|]. destruct (store bs a buf); [apply IH|reflexivity]. Qed.
(** a row is written in one go: the same as its four texels one after the other, when texels are three bytes *)
Lemma row_writes w h width (buf : list Z) c0 c1 c2 c3 row : fits w h width 3 buf -> 0 <= row < 4 ->
  length c0 = 3%nat -> length c1 = 3%nat -> length c2 = 3%nat ->
  forall b, store (c0 ++ c1 ++ c2 ++ c3) (texel 0 w h width row 0 3) b =
    writes [(texel 0 w h width row 0 3, c0); (texel 0 w h width row 1 3, c1); (texel 0 w h width row 2 3, c2); (texel 0 w h width row 3 3, c3)] b.
Proof.
  intros HF Hr L0 L1 L2 b.
  assert (T : forall c, 0 <= c < 4 -> texel 0 w h width row c 3 = (texel 0 w h width row 0 3 + Z.to_nat (3 * c))%nat).
  { intros c Hc. rewrite !(texel_cell 0 w h width 3 _ _ buf HF) by (split; lia). unfold cell.
    destruct HF as (Hw & Hh & _). destruct (cell_bounds w h width row 0 Hw Hh ltac:(split; lia)) as [P _].
    rewrite <- Nat.add_assoc. f_equal. rewrite <- Z2Nat.inj_add by lia. f_equal. lia. }
  rewrite (T 1), (T 2), (T 3) by lia. generalize (texel 0 w h width row 0 3). intros a.
  change (Z.to_nat (3 * 1)) with 3%nat. change (Z.to_nat (3 * 2)) with 6%nat. change (Z.to_nat (3 * 3)) with 9%nat.
  rewrite store_app, L0. cbn [writes]. destruct (store c0 a b) as [b1|]; [|reflexivity].
  rewrite store_app, L1. cbn [writes]. replace (a + 3 + 3)%nat with (a + 6)%nat by lia. destruct (store c1 (a + 3) b1) as [b2|]; [|reflexivity].
  rewrite store_app, L2. cbn [writes]. replace (a + 6 + 3)%nat with (a + 9)%nat by lia.
  destruct (store c2 (a + 6) b2) as [b3|]; [|reflexivity]. destruct (store c3 (a + 9) b3); reflexivity.
Qed.

(** the three bytes of palette entry i *)
Definition entry_bytes (raw i : Z) : list Z := firstn 3 (le_bytes 4 (wrap 32 (entry_word raw i))).
Definition simd_index (data : list Z) (row col : Z) : Z := field 2 (firstn 4 (skipn 4 data)) (number row col).
Lemma entry_length raw i : length (entry_bytes raw i) = 3%nat.
Proof. unfold entry_bytes. rewrite firstn_length, le_bytes_length. reflexivity. Qed.

Lemma simd_ok data buf w h width : (8 <= length data)%nat -> Forall is_byte data -> fits w h width 3 buf ->
  exists buf', SDecodeBC1Block data buf w h width 3 = Some buf' /\
    block_written 0 3 w h width 3 (fun row col => entry_bytes (le_value (firstn 4 data)) (simd_index data row col)) buf buf'.
Proof.
  intros HL HB HF. do 8 (destruct data as [|? data]; [cbn in HL; lia|]).
  rename z into a0, z0 into a1, z1 into a2, z2 into a3, z3 into e0, z4 into e1, z5 into e2, z6 into e3.
  set (raw := le_value (firstn 4 (a0 :: a1 :: a2 :: a3 :: e0 :: e1 :: e2 :: e3 :: data))).
  set (ms := map (fun i => wrap 32 (entry_word raw i)) [0; 1; 2; 3]).
  assert (HB4 : Forall is_byte (e0 :: e1 :: e2 :: e3 :: data)) by (do 4 (inversion_clear HB as [|? ? _ HB']; rename HB' into HB); exact HB).
  assert (HR : 0 <= raw < 2 ^ 32).
  { unfold raw. cbn [firstn]. do 4 (inversion_clear HB as [|? ? ? HB']; rename HB' into HB). unfold is_byte in *. cbn [le_value]. lia. }
  destruct (grid_writes 0 3 w h width 3 (fun r c => nth (Z.to_nat (field 2 [e0; e1; e2; e3] (number r c))) (pal ms) []) buf HF) as (buf' & E & W).
  { change (Z.to_nat 3) with 3%nat. lia. }
  { intros row col _. assert (F4 : 0 <= field 2 [e0; e1; e2; e3] (number row col) < 4) by (unfold field; apply Z.mod_pos_bound; lia).
    assert (C : field 2 [e0; e1; e2; e3] (number row col) = 0 \/ field 2 [e0; e1; e2; e3] (number row col) = 1 \/ field 2 [e0; e1; e2; e3] (number row col) = 2 \/ field 2 [e0; e1; e2; e3] (number row col) = 3) by lia.
    destruct C as [->|[->|[->| ->]]]; reflexivity. }
  exists buf'. split.
  - rewrite <- E. rewrite <- (color_rows 0 w h width 3 (pal ms) e0 e1 e2 e3 data HB4).
    unfold SDecodeBC1Block. rewrite (final_mix _ raw eq_refl HR). fold ms.
    inversion_clear HB4 as [|? ? B0 HB5]. inversion_clear HB5 as [|? ? B1 HB6]. inversion_clear HB6 as [|? ? B2 HB7]. inversion_clear HB7 as [|? ? B3 _].
    assert (LP : forall d, is_byte d -> length (nth (Z.to_nat (d1 d)) (pal ms) []) = 3%nat /\ length (nth (Z.to_nat (d2 d)) (pal ms) []) = 3%nat /\ length (nth (Z.to_nat (d3 d)) (pal ms) []) = 3%nat).
    { intros d Hd. assert (G : forall k, 0 <= k < 4 -> length (nth (Z.to_nat k) (pal ms) []) = 3%nat).
      { intros k Hk. assert (C : k = 0 \/ k = 1 \/ k = 2 \/ k = 3) by lia. destruct C as [->|[->|[->| ->]]]; reflexivity. }
      repeat split; apply G; [rewrite j1 by exact Hd|rewrite j2 by exact Hd|rewrite j3 by exact Hd]; lia. }
    assert (S : forall row d, 0 <= row < 4 -> is_byte d -> forall b, store (simd_row ms d) (texel 0 w h width row 0 3) b = writes (color_row 0 w h width 3 (pal ms) row d) b).
    { intros row d Hr Hd b. unfold ms at 1. cbn [map]. rewrite row_bytes by exact Hd. fold ms.
      destruct (LP d Hd) as (l1 & l2 & l3). exact (row_writes w h width buf _ _ _ _ row HF Hr l1 l2 l3 b). }
    cbn [writes]. rewrite !writes_app, S by (auto; lia). destruct (writes (color_row 0 w h width 3 (pal ms) 0 e0) buf) as [b0|]; [|reflexivity].
    rewrite !writes_app, S by (auto; lia). destruct (writes (color_row 0 w h width 3 (pal ms) 1 e1) b0) as [b1'|]; [|reflexivity].
    rewrite !writes_app, S by (auto; lia). destruct (writes (color_row 0 w h width 3 (pal ms) 2 e2) b1') as [b2'|]; [|reflexivity].
    rewrite S by (auto; lia). destruct (writes (color_row 0 w h width 3 (pal ms) 3 e3) b2'); reflexivity.
  - destruct W as (W1 & W2 & W3). split; [exact W1|]. split; [|exact W3]. intros row col Hin. rewrite (W2 row col Hin).
    unfold simd_index. cbn [skipn firstn]. assert (F4 : 0 <= field 2 [e0; e1; e2; e3] (number row col) < 4) by (unfold field; apply Z.mod_pos_bound; lia).
    set (f := field 2 [e0; e1; e2; e3] (number row col)) in *. clearbody f.
    assert (C : f = 0 \/ f = 1 \/ f = 2 \/ f = 3) by lia.
    destruct C as [->|[->|[->| ->]]]; reflexivity.
Qed.
