(** C41 and C52: block texture decoding, formats/BlockDecoder.inl.
    [fits w h width po buf]: block (w, h) lies inside the image [buf], [width] blocks wide with [po]
    bytes per texel.  [block_written base n ...  F buf buf']: in each texel of the block the n bytes
    from byte [base] on became [F row col], and no other byte of the image changed. *)
From Verif Require Import Base Reflector_Model Reflector_Spec Block_Model Block_Spec Block_Proof.

Definition block (n : nat) (data : list Z) : Prop := (n <= length data)%nat /\ Forall is_byte data.

Lemma half_block data : block 16 data -> block 8 data /\ block 8 (skipn 8 data).
Proof.
  intros (L & B). split; split; auto; [lia|rewrite skipn_length; lia|].
  rewrite <- (firstn_skipn 8 data) in B. now apply Forall_app in B as [_ B].
Qed.
Lemma fits_same w h width po (buf buf' : list Z) : fits w h width po buf -> length buf' = length buf -> fits w h width po buf'.
Proof. unfold fits. now intros H ->. Qed.

(** *** C41: one-channel and alpha blocks *)
(** One channel from one 8-byte block: each texel takes its own entry of the palette. *)
Theorem C41_bc4 : forall data buf w h width, block 8 data -> fits w h width 1 buf ->
  exists buf', DecodeBC4Block data buf w h width = Some buf' /\
    block_written 0 1 w h width 1 (fun row col => [alpha_of data row col]) buf buf'.
Proof. intros data buf w h width (L & B) HF. apply BC4_ok; auto. Qed.
Print Assumptions C41_bc4.

(** Two channels from two blocks: bytes 1 and 2 of each three-byte texel; byte 0 is untouched. *)
Theorem C41_bc5 : forall data buf w h width, block 16 data -> fits w h width 3 buf ->
  exists buf', DecodeBC5Block data buf w h width = Some buf' /\
    block_written 1 2 w h width 3 (fun row col => [alpha_of data row col; alpha_of (skipn 8 data) row col]) buf buf'.
Proof.
  intros data buf w h width HD HF. apply half_block in HD as [(L1 & B1) (L2 & B2)].
  pose proof HF as (Hw & Hh & Hp & _). unfold DecodeBC5Block.
  destruct (BC4_ok data 1 w h width 3 buf L1 B1 HF) as (buf1 & E1 & W1); [change (Z.to_nat 3) with 3%nat; lia|].
  rewrite E1. cbn [andThen].
  destruct (BC4_ok (skipn 8 data) 2 w h width 3 buf1 L2 B2) as (buf2 & E2 & W2);
    [apply (fits_same _ _ _ _ _ _ HF), W1 | change (Z.to_nat 3) with 3%nat; lia|].
  exists buf2. split; [exact E2|]. apply (written_up 1 1 1 w h width 3 (fun r c => [alpha_of data r c]) (fun r c => [alpha_of (skipn 8 data) r c]) buf buf1 buf2 Hw Hh Hp); auto.
Qed.
Print Assumptions C41_bc5.

(** The two-byte variant. *)
Theorem C41_bc5_ga : forall data buf w h width, block 16 data -> fits w h width 2 buf ->
  exists buf', DecodeBC5BlockGA data buf w h width = Some buf' /\
    block_written 0 2 w h width 2 (fun row col => [alpha_of data row col; alpha_of (skipn 8 data) row col]) buf buf'.
Proof.
  intros data buf w h width HD HF. apply half_block in HD as [(L1 & B1) (L2 & B2)].
  pose proof HF as (Hw & Hh & Hp & _). unfold DecodeBC5BlockGA.
  destruct (BC4_ok data 0 w h width 2 buf L1 B1 HF) as (buf1 & E1 & W1); [change (Z.to_nat 2) with 2%nat; lia|].
  rewrite E1. cbn [andThen].
  destruct (BC4_ok (skipn 8 data) 1 w h width 2 buf1 L2 B2) as (buf2 & E2 & W2);
    [apply (fits_same _ _ _ _ _ _ HF), W1 | change (Z.to_nat 2) with 2%nat; lia|].
  exists buf2. split; [exact E2|]. apply (written_up 0 1 1 w h width 2 (fun r c => [alpha_of data r c]) (fun r c => [alpha_of (skipn 8 data) r c]) buf buf1 buf2 Hw Hh Hp); auto.
Qed.
Print Assumptions C41_bc5_ga.

(** Explicit 4-bit alpha before a colour block: 17 times the stored value, so 0..15 spans 0..255. *)
Theorem C41_bc2 : forall data buf w h width, block 16 data -> fits w h width 4 buf ->
  exists C buf', DecodeBC2Block data buf w h width = Some buf' /\
    block_written 0 4 w h width 4 (fun row col => C row col ++ [alpha4_of data row col]) buf buf' /\
    forall row col, in_block row col -> color_ok (skipn 8 data) row col (C row col).
Proof.
  intros data buf w h width HD HF. apply half_block in HD as [(L1 & B1) (L2 & B2)].
  pose proof HF as (Hw & Hh & Hp & _). unfold DecodeBC2Block.
  destruct (BC2Alpha_ok data 3 w h width 4 buf L1 B1 HF) as (buf1 & E1 & W1); [change (Z.to_nat 4) with 4%nat; lia|].
  rewrite E1. cbn [andThen].
  destruct (BC1_ok (skipn 8 data) 0 w h width 4 buf1 L2 B2) as (C & buf2 & E2 & W2 & G);
    [apply (fits_same _ _ _ _ _ _ HF), W1 | change (Z.to_nat 4) with 4%nat; lia|].
  exists C, buf2. split; [exact E2|]. split; [|exact G].
  apply (written_down 0 1 3 w h width 4 (fun r c => [alpha4_of data r c]) C buf buf1 buf2 Hw Hh Hp); auto.
Qed.
Print Assumptions C41_bc2.

(** Interpolated alpha before a colour block. *)
Theorem C41_bc3 : forall data buf w h width, block 16 data -> fits w h width 4 buf ->
  exists C buf', DecodeBC3Block data buf w h width = Some buf' /\
    block_written 0 4 w h width 4 (fun row col => C row col ++ [alpha_of data row col]) buf buf' /\
    forall row col, in_block row col -> color_ok (skipn 8 data) row col (C row col).
Proof.
  intros data buf w h width HD HF. apply half_block in HD as [(L1 & B1) (L2 & B2)].
  pose proof HF as (Hw & Hh & Hp & _). unfold DecodeBC3Block.
  destruct (BC4_ok data 3 w h width 4 buf L1 B1 HF) as (buf1 & E1 & W1); [change (Z.to_nat 4) with 4%nat; lia|].
  rewrite E1. cbn [andThen].
  destruct (BC1_ok (skipn 8 data) 0 w h width 4 buf1 L2 B2) as (C & buf2 & E2 & W2 & G);
    [apply (fits_same _ _ _ _ _ _ HF), W1 | change (Z.to_nat 4) with 4%nat; lia|].
  exists C, buf2. split; [exact E2|]. split; [|exact G].
  apply (written_down 0 1 3 w h width 4 (fun r c => [alpha_of data r c]) C buf buf1 buf2 Hw Hh Hp); auto.
Qed.
Print Assumptions C41_bc3.

(** The palette stays between its end points. *)
Theorem C41_palette_range : forall a0 a1 i, is_byte a0 -> is_byte a1 -> 0 <= i < 8 ->
  is_byte (interpolate a0 a1 i) /\
  (a1 < a0 -> a1 <= interpolate a0 a1 i <= a0) /\
  (a0 <= a1 -> i < 6 -> a0 <= interpolate a0 a1 i <= a1).
Proof.
  intros a0 a1 i H0 H1 Hi. unfold is_byte in *.
  assert (C : i = 0 \/ i = 1 \/ i = 2 \/ i = 3 \/ i = 4 \/ i = 5 \/ i = 6 \/ i = 7) by lia.
  unfold interpolate. destruct (Z.ltb_spec a1 a0);
    decompose [or] C; subst; cbn [Z.eqb Pos.eqb]; lia.
Qed.
Print Assumptions C41_palette_range.

(** *** C52: colour blocks *)
Theorem C52_bc1 : forall data buf w h width, block 8 data -> fits w h width 3 buf ->
  exists C buf', DecodeBC1Block data buf w h width = Some buf' /\
    block_written 0 3 w h width 3 C buf buf' /\
    forall row col, in_block row col -> color_ok data row col (C row col).
Proof. intros data buf w h width (L & B) HF. apply BC1_ok; auto. Qed.
Print Assumptions C52_bc1.

(** With transparency: first word not greater than the second. *)
Theorem C52_bc1a_transparent : forall data buf w h width, block 8 data -> fits w h width 4 buf ->
  word_at data 0 <= word_at data 2 ->
  exists C buf', DecodeBC1BlockA data buf w h width = Some buf' /\
    block_written 0 4 w h width 4 C buf buf' /\
    forall row col, in_block row col -> color3_ok data row col (C row col).
Proof. intros data buf w h width (L & B) HF HW. now apply BC1A_transparent. Qed.
Print Assumptions C52_bc1a_transparent.

(** Otherwise only the colour bytes are written: the alpha byte keeps whatever the buffer held. *)
Theorem C52_bc1a_opaque : forall data buf w h width, block 8 data -> fits w h width 4 buf ->
  word_at data 2 < word_at data 0 ->
  exists C buf', DecodeBC1BlockA data buf w h width = Some buf' /\
    block_written 0 3 w h width 4 C buf buf' /\
    forall row col, in_block row col -> color_ok data row col (C row col) /\
      nth_error buf' (cell 3 w h width 4 row col) = nth_error buf (cell 3 w h width 4 row col).
Proof.
  intros data buf w h width (L & B) HF HW. unfold DecodeBC1BlockA. rewrite BC1A_opaque by assumption.
  destruct (BC1_ok data 0 w h width 4 buf L B HF) as (C & buf' & E & W & G); [change (Z.to_nat 4) with 4%nat; lia|].
  exists C, buf'. split; [exact E|]. split; [exact W|]. intros row col Hin. split; [auto|].
  destruct W as (_ & _ & U). apply U. intros row' col' Hin' Hx.
  pose proof HF as (Hw & Hh & Hp & _).
  destruct (cells_apart w h width 4 row col row' col' 3 0 (cell 3 w h width 4 row col) 1 3) as [-> ->]; auto;
    try (change (Z.to_nat 4) with 4%nat; lia); try lia.
  unfold cell in Hx. lia.
Qed.
Print Assumptions C52_bc1a_opaque.

(** The colour of an end point is the nearest value below; the greatest colour is exactly 255 and
    the least exactly 0, in every palette entry of a four-colour block between equal end points. *)
Theorem C52_color_monotone_ends : forall w1 w2 i k v, (k < 3)%nat -> 0 <= i < 4 -> color_value w1 w2 i k v ->
  (chan565 w1 k = 0 -> chan565 w2 k = 0 -> v = 0) /\
  (i = 0 \/ i = 1 -> chan565 w1 k = max565 k -> chan565 w2 k = max565 k -> v = 255).
Proof.
  intros w1 w2 i k v Hk Hi (R & B & S). cbv zeta in *.
  assert (M : max565 k = 31 \/ max565 k = 63) by (destruct k as [|[|k]]; cbn; lia).
  assert (i = 0 \/ i = 1 \/ i = 2 \/ i = 3) as C by lia.
  split.
  - intros E1 E2. rewrite E1, E2 in B. destruct M as [M|M]; rewrite M in B; decompose [or] C; subst i; cbn [weight] in B; lia.
  - intros Hx E1 E2. specialize (S (match Hx with or_introl a => or_introl a | or_intror b => or_intror (or_introl b) end)).
    rewrite E1, E2 in B, S. destruct M as [M|M]; rewrite M in B, S; destruct Hx; subst i; cbn [weight] in B, S; lia.
Qed.
Print Assumptions C52_color_monotone_ends.

(** Not so: the middle colour of a transparent block between two whites is not white. *)
Theorem C52_white_mean_not_white : forall buf, length buf = 64%nat ->
  exists buf', DecodeBC1BlockA [255; 255; 255; 255; 170; 170; 170; 170] buf 0 0 1 = Some buf' /\
    exists x y z, bytes_at 0 4 buf' = [x; y; z; 255] /\ x < 255 /\ y < 255 /\ z < 255.
Proof.
  intros buf HL.
  destruct (C52_bc1a_transparent [255; 255; 255; 255; 170; 170; 170; 170] buf 0 0 1) as (C & buf' & E & (_ & W & _) & G).
  - split; [cbn; lia|]. repeat constructor; unfold is_byte; lia.
  - unfold fits. rewrite HL. lia.
  - vm_compute. discriminate.
  - exists buf'. split; [exact E|]. assert (Hin : in_block 0 0) by (split; lia).
    specialize (W 0 0 Hin). change (cell 0 0 0 1 4 0 0) with 0%nat in W. rewrite W.
    destruct (G 0 0 Hin) as (L & K & A). change (index_of [255; 255; 255; 255; 170; 170; 170; 170] 0 0) with 2 in *.
    cbn [Z.ltb Z.compare Pos.compare Pos.compare_cont Z.eqb Pos.eqb] in K, A.
    pose proof (K 0%nat ltac:(lia)) as K0. pose proof (K 1%nat ltac:(lia)) as K1. pose proof (K 2%nat ltac:(lia)) as K2.
    unfold mean_value in K0, K1, K2.
    change (chan565 (word_at [255; 255; 255; 255; 170; 170; 170; 170] 0) 0) with 31 in *.
    change (chan565 (word_at [255; 255; 255; 255; 170; 170; 170; 170] 2) 0) with 31 in *.
    change (chan565 (word_at [255; 255; 255; 255; 170; 170; 170; 170] 0) 1) with 63 in *.
    change (chan565 (word_at [255; 255; 255; 255; 170; 170; 170; 170] 2) 1) with 63 in *.
    change (chan565 (word_at [255; 255; 255; 255; 170; 170; 170; 170] 0) 2) with 31 in *.
    change (chan565 (word_at [255; 255; 255; 255; 170; 170; 170; 170] 2) 2) with 31 in *.
    cbn [max565] in *. destruct (C 0 0) as [|x [|y [|z [|t [|]]]]]; try discriminate L. cbn [nth] in *.
    exists x, y, z. rewrite A. repeat split; lia.
Qed.
Print Assumptions C52_white_mean_not_white.

(** *** The hypotheses are met *)
Example C41_case :
  match DecodeBC3Block [255; 0; 136; 198; 250; 136; 198; 250; 31; 0; 224; 7; 228; 228; 228; 228] (repeat 9 256) 1 0 2 with
  | Some buf' => bytes_at 16 16 buf' = [255; 0; 0; 255; 0; 255; 0; 0; 170; 85; 0; 218; 85; 170; 0; 182] | None => False end.
Proof. vm_compute. reflexivity. Qed.
Example C41_fits : fits 1 0 2 4 (repeat 9 256).
Proof. unfold fits. rewrite repeat_length. lia. Qed.
Example C52_case :
  match DecodeBC1BlockA [31; 0; 224; 7; 228; 228; 228; 228] (repeat 9 64) 0 0 1 with
  | Some buf' => bytes_at 0 16 buf' = [255; 0; 0; 255; 0; 255; 0; 255; 127; 127; 0; 255; 127; 127; 0; 0] | None => False end.
Proof. vm_compute. reflexivity. Qed.
