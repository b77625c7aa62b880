(** Model of datas/float.hpp: small floats of [m] mantissa and [e] exponent bits, [s] with a sign
    bit.  A float is its 32-bit pattern; vector lanes are 32-bit patterns too, the operators being
    those of V4SimdIntType_t<int32> (datas/vectors_simd.hpp 241-349): mullo, slli, and for >> the
    arithmetic srai.  size_t is 64 bits; every value here fits 32. *)
From Verif Require Import Base Float_Model.

(** lane operators, vectors_simd.hpp 276-318 *)
Definition ladd (a b : Z) : Z := wrap 32 (a + b).
Definition lmul (a b : Z) : Z := wrap 32 (a * b).
Definition lshl (a k : Z) : Z := wrap 32 (Z.shiftl a k).
Definition lsar (a k : Z) : Z := wrap 32 (Z.shiftr (sgn 32 a) k).
(** _mm_cmpeq_epi32 and _mm_blendv_ps on one lane *)
Definition lcmpeq (a b : Z) : Z := if a =? b then 2 ^ 32 - 1 else 0.
Definition lblend (a b mask : Z) : Z := if Z.testbit mask 31 then b else a.

(** float.hpp 23-29: the class constants *)
Definition TOTAL_SIZE (m e : Z) (s : bool) : Z := m + e + (if s then 1 else 0).
Definition MANTISSA_MASK (m : Z) : Z := Z.shiftl 1 m - 1.
Definition EXPONENT_MASK_NS (e : Z) : Z := Z.shiftl 1 e - 1.
Definition EXPONENT_MASK (m e : Z) : Z := Z.shiftl (EXPONENT_MASK_NS e) m.
Definition SIGN_MASK (m e : Z) (s : bool) : Z := if s then Z.shiftl 1 (TOTAL_SIZE m e s - 1) else 0.
Definition EXP_REF (e : Z) : Z := 0x3f800000 - Z.shiftl (Z.shiftr (EXPONENT_MASK_NS e) 1) 23.

(** float.hpp 31-62: ToFloat.  The four lanes are exponent, mantissa, sign, mantissa; the two
    horizontal additions leave their sum in lane 0. *)
Definition ToFloat (m e : Z) (s : bool) (value : Z) : Z :=
  let v := wrap 32 value in
  let kE := Z.land v (EXPONENT_MASK m e) in
  let kM := Z.land v (MANTISSA_MASK m) in
  let kS := Z.land v (SIGN_MASK m e s) in
  let shE := lmul kE (Z.shiftl 1 (23 - m)) in
  let shM := lmul kM (Z.shiftl 1 (23 - m)) in
  let shS := lmul kS (Z.shiftl 1 (32 - TOTAL_SIZE m e s)) in
  let shM1 := lmul kM 1 in
  let fin :=
    if negb (kE =? 0) then
      if kE =? EXPONENT_MASK m e then (ladd (lmul shE 0) 0x7f800000, lmul shM 1, lmul shS 1, lmul shM1 0)
      else (ladd (lmul shE 1) (EXP_REF e), lmul shM 1, lmul shS 1, lmul shM1 0)
    else (ladd (lmul shE 0) 0x3f000000, lmul shM 0, lmul shS 1, lmul shM1 1) in
  let '(x, y, z, w) := fin in
  let result := ladd (ladd x y) (ladd z w) in
  if negb (kE =? 0) then result else fsub_bits result 0x3f000000.

(** float.hpp 64-88: FromFloat *)
Definition FromFloat (m e : Z) (s : bool) (cvted : Z) : Z :=
  let cvtedDenorm := fadd_bits cvted 0x3f000000 in
  let mskExp := Z.land cvted 0x7f800000 in
  let isSubNorm := Z.land cvtedDenorm 0x3f000000 =? 0x3f000000 in
  let result := Z.land (if isSubNorm then cvtedDenorm else Z.shiftr cvted (23 - m)) (MANTISSA_MASK m) in
  let result := if s && negb (Z.land cvted 0x80000000 =? 0) then Z.lor result (SIGN_MASK m e s) else result in
  if mskExp =? 0x7f800000 then Z.lor result (EXPONENT_MASK m e)
  else if negb isSubNorm then
    let unRef := wrap 64 (mskExp - EXP_REF e) in
    Z.lor result (Z.land (Z.shiftr unRef (23 - m)) (EXPONENT_MASK m e))
  else result.

(** float.hpp 98-134: FromVector4, one lane *)
Definition from_lane (m e : Z) (s : bool) (cvted : Z) : Z :=
  let shtSign := Z.land (lsar (Z.land cvted 0x80000000) (32 - TOTAL_SIZE m e s)) (SIGN_MASK m e s) in
  let mskExp := Z.land cvted 0x7f800000 in
  let shtMant := lsar cvted (23 - m) in
  let cvtedDenorm := fadd_bits cvted 0x3f000000 in
  let mskExpDenorm := Z.land cvtedDenorm 0x7f800000 in
  let denormMask := lcmpeq mskExpDenorm 0x3f000000 in
  let blendMant := lblend shtMant cvtedDenorm denormMask in
  let maskedMant := Z.land blendMant (MANTISSA_MASK m) in
  let nanMask := lcmpeq mskExp 0x7f800000 in
  let unRef := Z.land (lsar (wrap 32 (mskExp - EXP_REF e)) (23 - m)) (EXPONENT_MASK m e) in
  let blendExp0 := lblend unRef (EXPONENT_MASK m e) nanMask in
  let blendExp1 := lblend blendExp0 0 denormMask in
  Z.lor (Z.lor blendExp1 maskedMant) shtSign.
Definition FromVector4 (m e : Z) (s : bool) (lanes : list Z) : list Z := map (from_lane m e s) lanes.

(** float.hpp 136-164: ToVector4, one lane *)
Definition to_lane (m e : Z) (s : bool) (value : Z) : Z :=
  let exponentI := Z.land value (EXPONENT_MASK m e) in
  let mantissa := lshl (Z.land value (MANTISSA_MASK m)) (23 - m) in
  let sign := lshl (Z.land value (SIGN_MASK m e s)) (32 - TOTAL_SIZE m e s) in
  let exponentMask := lcmpeq exponentI (EXPONENT_MASK m e) in
  let nzResult := Z.lor (ladd (lshl exponentI (23 - m)) (EXP_REF e)) mantissa in
  let imNANNZ := lblend nzResult 0x7f800000 exponentMask in
  let denormMask := lcmpeq exponentI 0 in
  let denormResult0 := Z.lor (Z.land value (MANTISSA_MASK m)) 0x3f000000 in
  let denormResult1 := fsub_bits denormResult0 0x3f000000 in
  let finalResult := lblend imNANNZ denormResult1 denormMask in
  Z.lor finalResult sign.
Definition ToVector4 (m e : Z) (s : bool) (lanes : list Z) : list Z := map (to_lane m e s) lanes.

(** float.hpp 171-182: VectorR11G11B10_UFLOAT; the codec there is esFloat<11, 5, false> *)
Definition R11G11B10_UFLOAT (data : Z) : list Z :=
  let input1 := map (fun k => lsar (lmul data k) 21) [2 ^ 21; 2 ^ 10; 1; 0] in
  ToVector4 11 5 false input1.
