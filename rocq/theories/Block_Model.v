(** Model of formats/BlockDecoder.inl and formats/BlockDecoder.h:39-44 (DecodeRGB565Block).
    A block is its list of bytes, the output buffer a list of bytes; [None] is an access outside
    either or an undefined float-to-integer cast.  Offsets are uint32. *)
From Verif Require Import Base Reflector_Model Writes Float_Model.

Definition byte (data : list Z) (i : nat) : option Z := nth_error data i.

(** obuffer + base + ((h*4 + row) * width*4 + w*4 + col) * pixeloffset *)
Definition texel (base : nat) (w h width row col po : Z) : nat :=
  (base + Z.to_nat (u32 (((h * 4 + row) * (width * 4) + w * 4 + col) * po)))%nat.

(** *** Eight-entry palette blocks, _DecodeBC4Block, BlockDecoder.inl:160-208 *)
Definition alpha_palette (a0 a1 : Z) : list Z :=
  if a1 <? a0 then
    [a0; a1; (6 * a0 + 1 * a1) / 7; (5 * a0 + 2 * a1) / 7; (4 * a0 + 3 * a1) / 7;
     (3 * a0 + 4 * a1) / 7; (2 * a0 + 5 * a1) / 7; (1 * a0 + 6 * a1) / 7]
  else
    [a0; a1; (4 * a0 + 1 * a1) / 5; (3 * a0 + 2 * a1) / 5; (2 * a0 + 3 * a1) / 5;
     (1 * a0 + 4 * a1) / 5; 0; 255].
Definition pick (pal : list Z) (i : Z) : Z := nth (Z.to_nat i) pal 0.

(** one iteration of the loop :185-207: three bytes, two rows *)
Definition bc4_rows (base : nat) (w h width po : Z) (pal : list Z) (b d0 d1 d2 : Z) : list write :=
  let at_ row col := texel base w h width row col po in
  [ (at_ b 0, [pick pal (Z.land d0 7)]);
    (at_ b 1, [pick pal (Z.shiftr (Z.land d0 56) 3)]);
    (at_ b 2, [pick pal (Z.lor (Z.shiftr (Z.land d0 192) 6) (Z.shiftl (Z.land d1 1) 2))]);
    (at_ b 3, [pick pal (Z.shiftr (Z.land d1 14) 1)]);
    (at_ (b + 1) 0, [pick pal (Z.shiftr (Z.land d1 112) 4)]);
    (at_ (b + 1) 1, [pick pal (Z.lor (Z.shiftr (Z.land d1 128) 7) (Z.shiftl (Z.land d2 3) 1))]);
    (at_ (b + 1) 2, [pick pal (Z.shiftr (Z.land d2 28) 2)]);
    (at_ (b + 1) 3, [pick pal (Z.shiftr (Z.land d2 224) 5)]) ].
Definition BC4 (data : list Z) (base : nat) (w h width po : Z) (buf : list Z) : option (list Z) :=
  match data with
  | a0 :: a1 :: d0 :: d1 :: d2 :: d3 :: d4 :: d5 :: _ =>
    let pal := alpha_palette a0 a1 in
    writes (bc4_rows base w h width po pal 0 d0 d1 d2 ++ bc4_rows base w h width po pal 2 d3 d4 d5) buf
  | _ => None
  end.

(** *** Four-bit alpha, _DecodeBC2Block, :122-142 *)
Definition bc2_row (base : nat) (w h width po row d0 d1 : Z) : list write :=
  [ (texel base w h width row 0 po, [u8 (Z.land d0 15 * 17)]);
    (texel base w h width row 1 po, [u8 (Z.shiftr (Z.land d0 240) 4 * 17)]);
    (texel base w h width row 2 po, [u8 (Z.land d1 15 * 17)]);
    (texel base w h width row 3 po, [u8 (Z.shiftr (Z.land d1 240) 4 * 17)]) ].
Definition BC2Alpha (data : list Z) (base : nat) (w h width po : Z) (buf : list Z) : option (list Z) :=
  match data with
  | d0 :: d1 :: d2 :: d3 :: d4 :: d5 :: d6 :: d7 :: _ =>
    writes (bc2_row base w h width po 0 d0 d1 ++ bc2_row base w h width po 1 d2 d3 ++
            bc2_row base w h width po 2 d4 d5 ++ bc2_row base w h width po 3 d6 d7) buf
  | _ => None
  end.

(** *** Colours *)
(** DecodeRGB565Block, BlockDecoder.h:39-44; (col & mask) >> shift times the reciprocal *)
Definition recip (n : Z) : f32 := fdiv (of_int 1) (of_int n).
Definition channel (n c : Z) : f32 := fmul (of_int c) (recip n).
Definition color : Type := f32 * f32 * f32.
Definition RGB565 (lo hi : Z) : color :=
  let col := lo + 256 * hi in
  (channel 31 (Z.land col 31), channel 63 (Z.shiftr (Z.land col 2016) 5), channel 31 (Z.shiftr (Z.land col 63488) 11)).
Definition third (k : Z) : f32 := fdiv (of_int k) (of_int 3).
Definition blend (k1 k2 : Z) (a b : f32) : f32 := fadd (fmul a (third k1)) (fmul b (third k2)).
Definition scaled (s : Z) (f : f32) : option Z := to_unsigned 8 (fmul f (of_int s)).
(** (color * s).Convert<uint8>() *)
Definition to_bytes (s : Z) (c : color) : option (list Z) :=
  let '(x, y, z) := c in
  match scaled s x, scaled s y, scaled s z with
  | Some a, Some b, Some d => Some [a; b; d]
  | _, _, _ => None
  end.
Definition map_color (f : f32 -> f32 -> f32) (a b : color) : color :=
  let '(x, y, z) := a in let '(x', y', z') := b in (f x x', f y y', f z z').

(** the four colours, :32-39 and :72-82 *)
Definition four_colors (c1 c2 : color) : option (list (list Z)) :=
  match to_bytes 255 c1, to_bytes 255 c2, to_bytes 255 (map_color (blend 2 1) c1 c2), to_bytes 255 (map_color (blend 1 2) c1 c2) with
  | Some a, Some b, Some c, Some d => Some [a; b; c; d]
  | _, _, _, _ => None
  end.
(** the three-colour variant, :83-87 *)
Definition three_colors (c1 c2 : color) : option (list (list Z)) :=
  match to_bytes 255 c1, to_bytes 255 c2, to_bytes 127 (map_color fadd c1 c2) with
  | Some a, Some b, Some c => Some [a; b; c; c]
  | _, _, _ => None
  end.

Definition d1 (d : Z) : Z := Z.land d 3.
Definition d2 (d : Z) : Z := Z.shiftr (Z.land d 12) 2.
Definition d3 (d : Z) : Z := Z.shiftr (Z.land d 48) 4.
Definition d4 (d : Z) : Z := Z.shiftr (Z.land d 192) 6.
Definition color_row (base : nat) (w h width po : Z) (colors : list (list Z)) (row d : Z) : list write :=
  let c i := nth (Z.to_nat i) colors [] in
  [ (texel base w h width row 0 po, c (d1 d)); (texel base w h width row 1 po, c (d2 d));
    (texel base w h width row 2 po, c (d3 d)); (texel base w h width row 3 po, c (d4 d)) ].

(** _DecodeBC1Block, :21-55 *)
Definition BC1 (data : list Z) (base : nat) (w h width po : Z) (buf : list Z) : option (list Z) :=
  match data with
  | a :: b :: c :: d :: r0 :: r1 :: r2 :: r3 :: _ =>
    match four_colors (RGB565 a b) (RGB565 c d) with
    | None => None
    | Some colors =>
      writes (color_row base w h width po colors 0 r0 ++ color_row base w h width po colors 1 r1 ++
              color_row base w h width po colors 2 r2 ++ color_row base w h width po colors 3 r3) buf
    end
  | _ => None
  end.

(** the alpha stores :105-118 *)
Definition alpha_row (base : nat) (w h width po row d : Z) : list write :=
  let a i := [if i =? 3 then 0 else 255] in
  let at_ col := (3 + texel base w h width row col po)%nat in
  [ (at_ 0, a (d1 d)); (at_ 1, a (d2 d)); (at_ 2, a (d3 d)); (at_ 3, a (d4 d)) ].
Definition colorA_row (base : nat) (w h width po : Z) (colors : list (list Z)) (usealpha : bool) (row d : Z) : list write :=
  color_row base w h width po colors row d ++ (if usealpha then alpha_row base w h width po row d else []).
(** _DecodeBC1BlockA, :57-120 *)
Definition BC1A (data : list Z) (base : nat) (w h width po : Z) (buf : list Z) : option (list Z) :=
  match data with
  | a :: b :: c :: d :: r0 :: r1 :: r2 :: r3 :: _ =>
    let usealpha := negb (c + 256 * d <? a + 256 * b) in
    match (if usealpha then three_colors else four_colors) (RGB565 a b) (RGB565 c d) with
    | None => None
    | Some colors =>
      writes (colorA_row base w h width po colors usealpha 0 r0 ++ colorA_row base w h width po colors usealpha 1 r1 ++
              colorA_row base w h width po colors usealpha 2 r2 ++ colorA_row base w h width po colors usealpha 3 r3) buf
    end
  | _ => None
  end.

(** *** The public decoders, :144-158 and :210-231 *)
Definition andThen (a : option (list Z)) (f : list Z -> option (list Z)) : option (list Z) :=
  match a with Some b => f b | None => None end.
Definition DecodeBC1Block (data : list Z) (buf : list Z) (w h width : Z) := BC1 data 0 w h width 3 buf.
Definition DecodeBC1BlockA (data : list Z) (buf : list Z) (w h width : Z) := BC1A data 0 w h width 4 buf.
Definition DecodeBC2Block (data : list Z) (buf : list Z) (w h width : Z) :=
  andThen (BC2Alpha data 3 w h width 4 buf) (BC1 (skipn 8 data) 0 w h width 4).
Definition DecodeBC3Block (data : list Z) (buf : list Z) (w h width : Z) :=
  andThen (BC4 data 3 w h width 4 buf) (BC1 (skipn 8 data) 0 w h width 4).
Definition DecodeBC4Block (data : list Z) (buf : list Z) (w h width : Z) := BC4 data 0 w h width 1 buf.
Definition DecodeBC5Block (data : list Z) (buf : list Z) (w h width : Z) :=
  andThen (BC4 data 1 w h width 3 buf) (BC4 (skipn 8 data) 2 w h width 3).
Definition DecodeBC5BlockGA (data : list Z) (buf : list Z) (w h width : Z) :=
  andThen (BC4 data 0 w h width 2 buf) (BC4 (skipn 8 data) 1 w h width 2).
