(** What decoding a texture block means (C41, C52). *)
From Verif Require Import Base Reflector_Spec.

(** First byte of texel (col, row) of block (w, h) in an image of [width] blocks per row, [po] bytes
    per texel, starting [base] bytes into each texel. *)
Definition cell (base : nat) (w h width po row col : Z) : nat :=
  (base + Z.to_nat (((4 * h + row) * (4 * width) + (4 * w + col)) * po))%nat.
Definition in_block (row col : Z) : Prop := 0 <= row < 4 /\ 0 <= col < 4.

(** The block lies inside the image buffer, which 32-bit offsets can address. *)
Definition fits (w h width po : Z) (buf : list Z) : Prop :=
  0 <= w < width /\ 0 <= h /\ 0 < po /\
  (4 * h + 4) * (4 * width) * po <= 2 ^ 32 /\ (4 * h + 4) * (4 * width) * po <= Z.of_nat (length buf).

(** [n] bytes of each of the sixteen texels, from [base] on, hold [F row col]; no other byte of the
    image changed. *)
Definition block_written (base n : nat) (w h width po : Z) (F : Z -> Z -> list Z) (buf buf' : list Z) : Prop :=
  length buf' = length buf /\
  (forall row col, in_block row col -> bytes_at (cell base w h width po row col) n buf' = F row col) /\
  (forall i, (forall row col, in_block row col ->
       ~ (cell base w h width po row col <= i < cell base w h width po row col + n)%nat) ->
     nth_error buf' i = nth_error buf i).

(** Field k, of [bits] bits, of a little-endian byte string. *)
Definition field (bits : Z) (bytes : list Z) (k : Z) : Z := (le_value bytes / 2 ^ (bits * k)) mod 2 ^ bits.
(** texels are numbered row by row *)
Definition number (row col : Z) : Z := 4 * row + col.

(** The eight-entry palette: two end points and values between them. *)
Definition interpolate (a0 a1 i : Z) : Z :=
  if i =? 0 then a0 else if i =? 1 then a1
  else if a1 <? a0 then ((8 - i) * a0 + (i - 1) * a1) / 7
  else if i =? 6 then 0 else if i =? 7 then 255
  else ((6 - i) * a0 + (i - 1) * a1) / 5.

(** The channels of a 5:6:5 colour, in output order: field and largest value. *)
Definition chan565 (word : Z) (k : nat) : Z :=
  match k with O => word mod 32 | 1%nat => (word / 32) mod 64 | _ => (word / 2048) mod 32 end.
Definition max565 (k : nat) : Z := match k with 1%nat => 63 | _ => 31 end.
(** thirds of the way from the first to the second end point *)
Definition weight (i : Z) : Z := match i with 0 => 0 | 1 => 3 | 2 => 1 | _ => 2 end.
(** [v] is at most one below the exact value of palette entry i on the scale 0..255, never above;
    for the end points it is the exact value rounded down *)
Definition color_value (word1 word2 i : Z) (k : nat) (v : Z) : Prop :=
  let exact := 255 * ((3 - weight i) * chan565 word1 k + weight i * chan565 word2 k) in
  0 <= v <= 255 /\ 3 * max565 k * v <= exact <= 3 * max565 k * (v + 1) /\
  (i = 0 \/ i = 1 \/ k = 1%nat -> exact < 3 * max565 k * (v + 1)).
(** the middle colour of a three-colour block: the mean of the end points on the scale 0..254, at
    most one below, never above *)
Definition mean_value (word1 word2 : Z) (k : nat) (v : Z) : Prop :=
  let exact := 127 * (chan565 word1 k + chan565 word2 k) in
  0 <= v <= 254 /\ max565 k * v <= exact <= max565 k * (v + 1).
(** the two end-point words of a colour block *)
Definition word_at (data : list Z) (i : nat) : Z := le_value (firstn 2 (skipn i data)).

(** What the texels of the various blocks hold, by position in the block. *)
(** eight-entry palette: two end points, then sixteen 3-bit indices *)
Definition alpha_of (data : list Z) (row col : Z) : Z :=
  interpolate (nth 0 data 0) (nth 1 data 0) (field 3 (firstn 6 (skipn 2 data)) (number row col)).
(** sixteen 4-bit alphas *)
Definition alpha4_of (data : list Z) (row col : Z) : Z := 17 * field 4 (firstn 8 data) (number row col).
(** a colour block: two 5:6:5 words, then sixteen 2-bit indices *)
Definition index_of (data : list Z) (row col : Z) : Z := field 2 (firstn 4 (skipn 4 data)) (number row col).
Definition color_ok (data : list Z) (row col : Z) (bytes : list Z) : Prop :=
  length bytes = 3%nat /\
  forall k, (k < 3)%nat -> color_value (word_at data 0) (word_at data 2) (index_of data row col) k (nth k bytes (-1)).
(** colour and alpha of a transparent block *)
Definition color3_ok (data : list Z) (row col : Z) (bytes : list Z) : Prop :=
  length bytes = 4%nat /\
  (forall k, (k < 3)%nat ->
     if index_of data row col <? 2
     then color_value (word_at data 0) (word_at data 2) (index_of data row col) k (nth k bytes (-1))
     else mean_value (word_at data 0) (word_at data 2) k (nth k bytes (-1))) /\
  nth 3 bytes (-1) = if index_of data row col =? 3 then 0 else 255.
