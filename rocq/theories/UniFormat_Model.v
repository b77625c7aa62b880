(** Vertex formats: uni/internal/format_full.hpp, uni/uni_format.cpp, uni/format.hpp.
    [mem] is the memory readable from the input pointer on, as bytes; a read past its end gives
    [None].  The target is little-endian x86-64.  Integer lanes and float lanes are 32-bit patterns;
    vector operators are those of Vector_Model.v.
    Simplification: the vtable trick of uni/uni_format.cpp 27-44 is taken to dispatch correctly. *)
From Coq Require Import Floats.SpecFloat.
From Verif Require Import Base Float_Model HalfFloat_Model Vector_Model.

(** uni/format.hpp 24-32 and 34-53; the constructors in the order of the enumerators *)
Inductive ftype := INVALID | INT | UINT | NORM | UNORM | FLOAT | UFLOAT.
Inductive dtype :=
| CUSTOM | R32G32B32A32 | R32G32B32 | R16G16B16A16 | R32G32 | R16G16B16 | R32 | R16G16
| R10G10B10A2 | R11G11B10 | R8G8B8A8 | R24G8 | R8G8B8 | R8G8 | R16 | R5G6B5 | R5G5B5A1 | R8.
Definition fnum (f : ftype) : Z :=
  match f with INVALID => 0 | INT => 1 | UINT => 2 | NORM => 3 | UNORM => 4 | FLOAT => 5 | UFLOAT => 6 end.
Definition dnum (d : dtype) : Z :=
  match d with
  | CUSTOM => 0 | R32G32B32A32 => 1 | R32G32B32 => 2 | R16G16B16A16 => 3 | R32G32 => 4 | R16G16B16 => 5 | R32 => 6
  | R16G16 => 7 | R10G10B10A2 => 8 | R11G11B10 => 9 | R8G8B8A8 => 10 | R24G8 => 11 | R8G8B8 => 12 | R8G8 => 13
  | R16 => 14 | R5G6B5 => 15 | R5G5B5A1 => 16 | R8 => 17
  end.

(** format_full.hpp 23-24 *)
Definition fmtStrides : list Z := [0; 128; 96; 64; 64; 48; 32; 32; 32; 32; 32; 32; 24; 16; 16; 16; 16; 8].
(** format_full.hpp 29-32 *)
Definition BM (a b c d : Z) : Z := Z.lor (Z.lor (Z.lor a (Z.shiftl b 8)) (Z.shiftl c 16)) (Z.shiftl d 24).
(** format_full.hpp 34-53 *)
Definition fmtBitmasks : list Z :=
  [BM 0 0 0 0; BM 32 32 32 32; BM 32 32 32 0; BM 16 16 16 16; BM 32 32 0 0; BM 16 16 16 0; BM 32 0 0 0; BM 16 16 0 0;
   BM 10 10 10 2; BM 11 11 10 0; BM 8 8 8 8; BM 24 8 0 0; BM 8 8 8 0; BM 8 8 0 0; BM 16 0 0 0; BM 5 6 5 0; BM 5 5 5 1; BM 8 0 0 0].

(** reading one little-endian word of n bytes; reading [count] words laid out one after the other *)
Definition rd (n : nat) (mem : list Z) : option Z :=
  if (n <=? length mem)%nat then Some (le_value (firstn n mem)) else None.
Definition rdv (size count : nat) (mem : list Z) : option (list Z) :=
  if (size * count <=? length mem)%nat
  then Some (map (fun i => le_value (firstn size (skipn (size * i) mem))) (seq 0 count)) else None.
(** the constructor of the four-lane vectors *)
Definition vec4 (a b c d : Z) : list Z := map (wrap 32) [a; b; c; d].

(** FormatCodec_t<UINT, ...>::GetValue: format_full.hpp 86-235.  R32G32 and R32 dereference a
    three-component vector (104, 111). *)
Definition uint_value (d : dtype) (mem : list Z) : option (list Z) :=
  match d with
  | CUSTOM => None
  | R32G32B32A32 => match rdv 4 4 mem with Some [x; y; z; w] => Some (vec4 x y z w) | _ => None end
  | R32G32B32 => match rdv 4 3 mem with Some [x; y; z] => Some (vec4 x y z 0) | _ => None end
  | R32G32 => match rdv 4 3 mem with Some [x; y; z] => Some (vec4 x y 0 0) | _ => None end
  | R32 => match rdv 4 3 mem with Some [x; y; z] => Some (vec4 x 0 0 0) | _ => None end
  | R16G16B16A16 => match rdv 2 4 mem with Some [x; y; z; w] => Some (vec4 x y z w) | _ => None end
  | R16G16B16 => match rdv 2 3 mem with Some [x; y; z] => Some (vec4 x y z 0) | _ => None end
  | R16G16 => match rdv 2 2 mem with Some [x; y] => Some (vec4 x y 0 0) | _ => None end
  | R16 => match rd 2 mem with Some x => Some (vec4 x 0 0 0) | None => None end
  | R8G8B8A8 => match rdv 1 4 mem with Some [x; y; z; w] => Some (vec4 x y z w) | _ => None end
  | R8G8B8 => match rdv 1 3 mem with Some [x; y; z] => Some (vec4 x y z 0) | _ => None end
  | R8G8 => match rdv 1 2 mem with Some [x; y] => Some (vec4 x y 0 0) | _ => None end
  | R8 => match rd 1 mem with Some x => Some (vec4 x 0 0 0) | None => None end
  | R10G10B10A2 =>
    match rd 4 mem with
    | Some w => Some (ibinary IAnd (vec4 w (Z.shiftr w 10) (Z.shiftr w 20) (Z.shiftr w 30)) (vec4 1023 1023 1023 3))
    | None => None end
  | R11G11B10 =>
    match rd 4 mem with
    | Some w => Some (ibinary IAnd (vec4 w (Z.shiftr w 11) (Z.shiftr w 22) 0) (vec4 2047 2047 1023 0))
    | None => None end
  | R24G8 =>
    match rd 4 mem with
    | Some w => Some (ibinary IAnd (vec4 w (Z.shiftr w 24) 0 0) (vec4 (2 ^ 24 - 1) 255 0 0))
    | None => None end
  | R5G6B5 =>
    match rd 2 mem with
    | Some w => Some (ibinary IAnd (vec4 w (Z.shiftr w 5) (Z.shiftr w 11) 0) (vec4 31 63 31 0))
    | None => None end
  | R5G5B5A1 =>
    match rd 2 mem with
    | Some w => Some (ibinary IAnd (vec4 w (Z.shiftr w 5) (Z.shiftr w 10) (Z.shiftr w 15)) (vec4 31 31 31 1))
    | None => None end
  end.

(** _mm_cmpgt_epi32 on one lane *)
Definition lcmpgt (a b : Z) : Z := if sgn 32 b <? sgn 32 a then 2 ^ 32 - 1 else 0.
(** FormatCodec_t<INT, ...>::GetValue: format_full.hpp 241-289 *)
Definition int_value (d : dtype) (mem : list Z) : option (list Z) :=
  match d with
  | R32G32B32A32 | R32G32B32 | R32G32 | R32 => uint_value d mem
  | _ =>
    let bm := nth (Z.to_nat (dnum d)) fmtBitmasks 0 in
    let bits k := Z.land (Z.shiftr bm (8 * k)) 255 in
    let sbit k := if bits k =? 0 then 0 else Z.shiftl 1 (bits k - 1) in
    let sBit := vec4 (sbit 0) (sbit 1) (sbit 2) (sbit 3) in
    let sMaskLow := ibinary_scalar ISub sBit 1 in
    let sMask := ibinary_scalar IXor (ibinary_scalar IOr (ishl sMaskLow 1) 1) 0xffffffff in
    match uint_value d mem with
    | Some out =>
      let negated := ibinary IOr out sMask in
      let cmpRes := zipw lcmpgt out sMaskLow in
      Some (map (fun p => lblend (fst (fst p)) (snd (fst p)) (snd p)) (combine (combine out negated) cmpRes))
    | None => None
    end
  end.

(** multiplication of float patterns lane by lane (datas/vectors_simd.hpp 98-100) *)
Definition fmul_bits (a b : Z) : Z :=
  if is_nan_bits a then Z.lor a (2 ^ 22)
  else if is_nan_bits b then Z.lor b (2 ^ 22) else to_bits (fmul (of_bits a) (of_bits b)).
Definition fscale (v f : list Z) : list Z := zipw fmul_bits v f.
(** GetFraction: datas/supercore.hpp 80-82 *)
Definition GetFraction (n : Z) : Z := to_bits (fdiv (of_int 1) (of_int (Z.shiftl 1 n - 1))).
Definition fall (f : Z) : list Z := repeat f 4.

Definition omap {A B} (f : A -> B) (o : option A) : option B := match o with Some a => Some (f a) | None => None end.

(** FormatCodec_t<UNORM, ...>::GetValueNoFrac: format_full.hpp 295-513.  The scalar ones (R32, R16,
    R8) return the number alone, here the first lane of a vector. *)
Definition unorm_raw (d : dtype) (mem : list Z) : option (list Z) :=
  let spread n mul sh := omap (fun w => ishr false (ibinary IMul (iall w) mul) sh) (rd n mem) in
  match d with
  | CUSTOM => None
  | R32G32B32A32 | R32G32B32 | R32G32 => uint_value d mem
  | R32 => omap (fun w => vec4 w 0 0 0) (rd 4 mem)
  | R16G16B16A16 | R16G16B16 =>
    omap (fun w =>
      let xy := wrap 32 w in let zw := Z.shiftr w 32 in
      let last := match d with R16G16B16 => 0 | _ => 1 end in
      let result := ishr false (ibinary IMul [xy; zw; xy; zw] (vec4 (2 ^ 16) (2 ^ 16) 1 last)) 16 in
      [nth 0 result 0; nth 2 result 0; nth 1 result 0; nth 3 result 0]) (rd 8 mem)
  | R16G16 => spread 4%nat (vec4 (2 ^ 16) 1 0 0) 16
  | R16 => omap (fun w => vec4 w 0 0 0) (rd 2 mem)
  | R8G8B8A8 => spread 4%nat (vec4 (2 ^ 24) (2 ^ 16) (2 ^ 8) 1) 24
  | R8G8B8 => spread 4%nat (vec4 (2 ^ 24) (2 ^ 16) (2 ^ 8) 0) 24
  | R8G8 => spread 2%nat (vec4 (2 ^ 24) (2 ^ 16) 0 0) 24
  | R8 => omap (fun w => vec4 w 0 0 0) (rd 1 mem)
  | R10G10B10A2 =>
    omap (fun w =>
      let v := ishr false (ibinary IMul (iall w) (vec4 (2 ^ 22) (2 ^ 12) (2 ^ 2) 0)) 22 in
      [nth 0 v 0; nth 1 v 0; nth 2 v 0; Z.shiftr w 30]) (rd 4 mem)
  | R11G11B10 => spread 4%nat (vec4 (2 ^ 21) (2 ^ 10) 1 0) 21
  | R24G8 => omap (fun w => vec4 (Z.land w (2 ^ 24 - 1)) (Z.shiftr w 24) 0 0) (rd 4 mem)
  | R5G5B5A1 =>
    omap (fun w =>
      let v := ibinary IMul (iall w) (vec4 (2 ^ 27) (2 ^ 22) (2 ^ 17) 1) in
      let cmpMask := zipw lcmpeq (iall (2 ^ 15)) (ibinary IAnd v (iall (2 ^ 15))) in
      ishr false (icompound IOr v cmpMask) 27) (rd 2 mem)
  | R5G6B5 => spread 2%nat (vec4 (2 ^ 27) (2 ^ 21) (2 ^ 16) 0) 26
  end.
(** FormatCodec_t<UNORM, ...>::GetValue *)
Definition unorm_value (d : dtype) (mem : list Z) : option (list Z) :=
  let by_ f := omap (fun v => fscale (to_float v) f) (unorm_raw d mem) in
  match d with
  | CUSTOM => None
  | R32G32B32A32 | R32G32B32 | R32G32 | R32 =>
    omap (fun v => fscale (to_float (ishr false v 1)) (fall (GetFraction 31))) (unorm_raw d mem)
  | R16G16B16A16 | R16G16B16 | R16G16 | R16 => by_ (fall (GetFraction 16))
  | R8G8B8A8 | R8G8B8 | R8G8 | R8 => by_ (fall (GetFraction 8))
  | R10G10B10A2 => by_ [GetFraction 10; GetFraction 10; GetFraction 10; GetFraction 2]
  | R11G11B10 => by_ (fall (GetFraction 11))
  | R24G8 => by_ [GetFraction 24; GetFraction 8; 0; 0]
  | R5G5B5A1 => by_ (fall (GetFraction 5))
  | R5G6B5 => by_ (fall (GetFraction 6))
  end.

(** FormatCodec_t<NORM, ...>::GetValue: format_full.hpp 519-681; the scalar ones convert the
    first lane only, the others being 0 *)
Definition norm_value (d : dtype) (mem : list Z) : option (list Z) :=
  let signed k f := omap (fun v => fscale (to_float (ishr true (ishl v k) k)) f) (unorm_raw d mem) in
  match d with
  | CUSTOM => None
  | R32G32B32A32 | R32G32B32 | R32G32 | R32 => omap (fun v => fscale (to_float v) (fall (GetFraction 31))) (unorm_raw d mem)
  | R16G16B16A16 | R16G16B16 | R16G16 => signed 16 (fall (GetFraction 15))
  | R16 => omap (fun v => fscale (to_float (vec4 (sgn 16 (nth 0 v 0)) 0 0 0)) (fall (GetFraction 15))) (unorm_raw d mem)
  | R8G8B8A8 | R8G8B8 | R8G8 => signed 24 (fall (GetFraction 7))
  | R8 => omap (fun v => fscale (to_float (vec4 (sgn 8 (nth 0 v 0)) 0 0 0)) (fall (GetFraction 7))) (unorm_raw d mem)
  | R10G10B10A2 =>
    omap (fun w =>
      let v := ishr true (ibinary IMul (iall w) (vec4 (2 ^ 22) (2 ^ 12) (2 ^ 2) 0)) 22 in
      let v := [nth 0 v 0; nth 1 v 0; nth 2 v 0; wrap 32 (Z.shiftr (sgn 32 w) 30)] in
      fscale (to_float v) [GetFraction 9; GetFraction 9; GetFraction 9; GetFraction 1]) (rd 4 mem)
  | R11G11B10 => signed 21 (fall (GetFraction 10))
  | R24G8 =>
    omap (fun w =>
      let v0 := sgn 32 (Z.shiftl w 8) in
      let v1 := sgn 8 (Z.shiftr (sgn 32 w) 24) in
      fscale (to_float (vec4 (Z.shiftr v0 8) v1 0 0)) [GetFraction 23; GetFraction 7; 0; 0]) (rd 4 mem)
  | R5G5B5A1 => signed 27 [GetFraction 4; GetFraction 4; GetFraction 4; 0x3f800000]
  | R5G6B5 => signed 26 (fall (GetFraction 5))
  end.

(** FormatCodec_t<FLOAT, ...>::GetValue: format_full.hpp 687-767 *)
Definition float_value (d : dtype) (mem : list Z) : option (list Z) :=
  match d with
  | R32G32B32A32 => match rdv 4 4 mem with Some [x; y; z; w] => Some (vec4 x y z w) | _ => None end
  | R32G32B32 => match rdv 4 3 mem with Some [x; y; z] => Some (vec4 x y z 0) | _ => None end
  | R32G32 => match rdv 4 2 mem with Some [x; y] => Some (vec4 x y 0 0) | _ => None end
  | R32 => match rd 4 mem with Some x => Some (vec4 x 0 0 0) | None => None end
  | R16G16B16A16 | R16G16B16 | R16G16 => omap (ToVector4 10 5 true) (unorm_raw d mem)
  | R16 => omap (fun w => [ToFloat 10 5 true w; 0; 0; 0]) (rd 2 mem)
  | R11G11B10 => omap (ToVector4 5 5 true) (unorm_raw d mem)
  | _ => None
  end.
(** FormatCodec_t<UFLOAT, R11G11B10>::GetValue: format_full.hpp 769-779 *)
Definition ufloat_value (d : dtype) (mem : list Z) : option (list Z) :=
  match d with
  | R11G11B10 => omap (ToVector4 6 5 false) (unorm_raw d mem)
  | _ => None
  end.
Definition codec_value (f : ftype) (d : dtype) (mem : list Z) : option (list Z) :=
  match f with
  | INVALID => None
  | INT => int_value d mem | UINT => uint_value d mem | NORM => norm_value d mem | UNORM => unorm_value d mem
  | FLOAT => float_value d mem | UFLOAT => ufloat_value d mem
  end.

(** What a call does: it returns normally, throws, or leaves defined behaviour (a read outside
    the readable memory). *)
Inductive outcome (A : Type) := Returns (a : A) | Throws | Faults.
Arguments Returns {_}. Arguments Throws {_}. Arguments Faults {_}.
Definition of_read {A} (o : option A) : outcome A := match o with Some a => Returns a | None => Faults end.

(** the loop of _fmtSampler (format_full.hpp 72-75) over the n elements of [out] *)
Fixpoint sample_loop (get : list Z -> option (list Z)) (n : nat) (mem : list Z) (stride : nat) : option (list (list Z)) :=
  match n with
  | O => Some []
  | S m =>
    match get mem with
    | Some v => match sample_loop get m (skipn stride mem) stride with Some r => Some (v :: r) | None => None end
    | None => None
    end
  end.
(** _fmtSampler: format_full.hpp 55-76; only the length of the previous contents of [out] matters *)
Definition fmtSampler (f : ftype) (d : dtype) (out : list (list Z)) (mem : list Z) (count stride : nat) : outcome (list (list Z)) :=
  let fmtStride := Z.to_nat (nth (Z.to_nat (dnum d)) fmtStrides 0 / 8) in
  if negb (Nat.eqb stride 0) && (stride <? fmtStride)%nat then Throws
  else
    let n := if Nat.eqb count 0 then length out else count in
    let stride := if Nat.eqb stride 0 then fmtStride else stride in
    of_read (sample_loop (codec_value f d) n mem stride).

(** *** The registry, uni/uni_format.cpp *)
(** FormatDescr as two uint16 numbers; operator== compares them as one uint32 (format.hpp 77-80) *)
Definition descr_word (k : Z * Z) : Z := fst k + 2 ^ 16 * snd k.
Definition descr_eq (a b : Z * Z) : bool := descr_word a =? descr_word b.
(** operator<: format.hpp 82-85 *)
Definition descr_lt (a b : Z * Z) : bool := descr_word b >? descr_word a.
(** std::hash<FormatDescr>: uni_format.cpp 56-63 *)
Definition descr_hash (k : Z * Z) : Z := Z.lor (snd k) (Z.shiftl (fst k) 16).
(** MakePair, _MAKE_CODEC_BASE: uni_format.cpp 45-54 *)
Definition MakePair (f : ftype) (d : dtype) : (Z * Z) * (ftype * dtype) := ((fnum f, dnum d), (f, d)).
Definition make_base (d : dtype) : list ((Z * Z) * (ftype * dtype)) :=
  [MakePair INT d; MakePair UINT d; MakePair UNORM d; MakePair NORM d].
(** registry: uni_format.cpp 65-80 *)
Definition registry : list ((Z * Z) * (ftype * dtype)) :=
  flat_map make_base [R32G32B32A32; R32G32B32; R16G16B16A16; R32G32; R16G16B16; R32; R16G16; R10G10B10A2; R11G11B10;
                      R8G8B8A8; R24G8; R8G8B8; R8G8; R16; R5G6B5; R5G5B5A1; R8] ++
  [MakePair FLOAT R32G32B32A32; MakePair FLOAT R32G32B32; MakePair FLOAT R32G32; MakePair FLOAT R32;
   MakePair FLOAT R16G16B16A16; MakePair FLOAT R16G16B16; MakePair FLOAT R16G16; MakePair FLOAT R16;
   MakePair FLOAT R11G11B10; MakePair UFLOAT R11G11B10].
(** FormatCodec::Get: uni_format.cpp 98-100, unordered_map::at: look in the bucket of the key's
    hash for an equal key *)
Definition Get (k : Z * Z) : outcome (ftype * dtype) :=
  match find (fun e => (descr_hash (fst e) =? descr_hash k) && descr_eq (fst e) k) registry with
  | Some e => Returns (snd e)
  | None => Throws
  end.
(** _FormatCodecImpl_t overrides the integer members for INT and UINT and the float members
    otherwise (format_full.hpp 781-824); the rest is inherited and throws (uni_format.cpp 82-96) *)
Definition is_int (f : ftype) : bool := match f with INT | UINT => true | _ => false end.
Definition GetValue_int (c : ftype * dtype) (mem : list Z) : outcome (list Z) :=
  if is_int (fst c) then of_read (codec_value (fst c) (snd c) mem) else Throws.
Definition GetValue_float (c : ftype * dtype) (mem : list Z) : outcome (list Z) :=
  if is_int (fst c) then Throws else of_read (codec_value (fst c) (snd c) mem).
Definition Sample_int (c : ftype * dtype) (out : list (list Z)) (mem : list Z) (count stride : nat) : outcome (list (list Z)) :=
  if is_int (fst c) then fmtSampler (fst c) (snd c) out mem count stride else Throws.
Definition Sample_float (c : ftype * dtype) (out : list (list Z)) (mem : list Z) (count stride : nat) : outcome (list (list Z)) :=
  if is_int (fst c) then Throws else fmtSampler (fst c) (snd c) out mem count stride.
