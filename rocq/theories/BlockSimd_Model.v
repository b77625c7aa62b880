(** The SSE block decoder: formats/BlockDecoderSimd.hpp.
    A register is its four 32-bit lanes; the byte shuffles see it as its 16 bytes. *)
From Verif Require Import Base Reflector_Model Writes Vector_Model Block_Model.

(** DecodeRGB565Blocks: 22-31.  >> on IVector4A16 is the arithmetic shift *)
Definition DecodeRGB565Blocks (data : list Z) : list Z * list Z :=
  let rawdata := le_value (firstn 4 data) in
  let cl00 := iall rawdata in
  let cl0 := ibinary IMul cl00 [0x8000000; 0x200000; 0x10000; 0] in
  let cl1 := ibinary IMul cl00 [0x800; 0x20; 0x1; 0] in
  (ishr true cl0 24, ishr true cl1 24).

(** _mm_hadd_epi32 *)
Definition hadd (a b : list Z) : list Z :=
  match a, b with
  | [x; y; z; w], [x'; y'; z'; w'] => [wrap 32 (x + y); wrap 32 (z + w); wrap 32 (x' + y'); wrap 32 (z' + w')]
  | _, _ => []
  end.
(** _mm_unpacklo_epi32, _mm_unpacklo_epi64 *)
Definition unpacklo32 (a b : list Z) : list Z :=
  match a, b with [x; y; _; _], [x'; y'; _; _] => [x; x'; y; y'] | _, _ => [] end.
Definition unpacklo64 (a b : list Z) : list Z :=
  match a, b with [x; y; _; _], [x'; y'; _; _] => [x; y; x'; y'] | _, _ => [] end.
(** a register as bytes and back; _mm_shuffle_epi8, _mm_add_epi8 *)
Definition reg_bytes (a : list Z) : list Z := flat_map (le_bytes 4) a.
Definition shuffle8 (src sel : list Z) : list Z :=
  map (fun s => if Z.testbit s 7 then 0 else nth (Z.to_nat (Z.land s 15)) src 0) sel.
Definition add8 (a b : list Z) : list Z := zipw (fun x y => u8 (x + y)) a b.

(** the palette register: 36-68 *)
Definition finalMix (data : list Z) : list Z :=
  let (color0, color1) := DecodeRGB565Blocks data in
  let color2 := ishr true (ibinary IAdd (ibinary_scalar IMul color0 0xaa) (ibinary_scalar IMul color1 0x55)) 8 in
  let color3 := ishr true (ibinary IAdd (ibinary_scalar IMul color0 0x55) (ibinary_scalar IMul color1 0xaa)) 8 in
  let shiftMask := [1; 0x100; 0x10000; 1] in
  let c0 := ibinary IMul color0 shiftMask in
  let c1 := ibinary IMul color1 shiftMask in
  let c2 := ibinary IMul color2 shiftMask in
  let c3 := ibinary IMul color3 shiftMask in
  let cl c := hadd (hadd c c) c in
  unpacklo64 (unpacklo32 (cl c0) (cl c1)) (unpacklo32 (cl c2) (cl c3)).

(** the bytes of palette indices of a row: 71-82; the byte read is a signed char *)
Definition finalIndices (d : Z) : list Z :=
  let cMask0 := iall (sgn 8 d) in
  let cMask := ibinary IMul (ibinary IAnd cMask0 [0x3; 0xc; 0x30; 0xc0]) [0x400; 0x100; 0x40; 0x10] in
  let sfMask := shuffle8 (reg_bytes cMask) (reg_bytes [0x01010101; 0x05050505; 0x09090909; 0x0d0d0d0d]) in
  add8 sfMask (reg_bytes [0x03020100; 0x03020100; 0x03020100; 0x03020100]).
(** the 12 bytes of a row: 83-90 *)
Definition simd_row (mix : list Z) (d : Z) : list Z :=
  let indexedMix := shuffle8 (reg_bytes mix) (finalIndices d) in
  firstn 12 (shuffle8 indexedMix (reg_bytes [0x04020100; 0x09080605; 0x0e0d0c0a; 0x10101010])).

(** _SDecodeBC1Block: 33-92; 12 bytes are stored per row whatever the pixel offset *)
Definition SDecodeBC1Block (data : list Z) (buf : list Z) (w h width po : Z) : option (list Z) :=
  match data with
  | _ :: _ :: _ :: _ :: r0 :: r1 :: r2 :: r3 :: _ =>
    let mix := finalMix data in
    writes [ (texel 0 w h width 0 0 po, simd_row mix r0); (texel 0 w h width 1 0 po, simd_row mix r1);
             (texel 0 w h width 2 0 po, simd_row mix r2); (texel 0 w h width 3 0 po, simd_row mix r3) ] buf
  | _ => None
  end.
