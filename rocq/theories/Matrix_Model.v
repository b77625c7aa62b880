(** esMatrix44: datas/matrix44.hpp and datas/matrix44.cpp, over an abstract scalar (Simd_Model.v).
    SwapEndian, the row accessors' bounds and the Python bindings are not modelled. *)
From Verif Require Import Base Simd_Model.

(** datas/matrix44.hpp 22-24 *)
Record matrix (K : scalar) : Type := M { r1 : vec K; r2 : vec K; r3 : vec K; r4 : vec K }.
Arguments M {_}. Arguments r1 {_}. Arguments r2 {_}. Arguments r3 {_}. Arguments r4 {_}.

Section Matrix.
  Context {K : scalar}.
  Implicit Types m : matrix K.
  Notation "0" := (s_int 0%Z : K). Notation "1" := (s_int 1%Z : K). Notation "2" := (s_int 2%Z : K).
  Notation "- 1" := (s_int (-1)%Z : K). Notation "- 2" := (s_int (-2)%Z : K).

  (** MakeIdentity: datas/matrix44.cpp 47-52 *)
  Definition Identity : matrix K := M (V 1 0 0 0) (V 0 1 0 0) (V 0 0 1 0) (V 0 0 0 1).

  (** Transpose: datas/matrix44.cpp 177-186; the rows are overwritten one after another *)
  Definition Transpose m : matrix K :=
    let tmp00 := shuffle (r1 m) (r2 m) 1 0 1 0 in
    let tmp01 := shuffle (r1 m) (r2 m) 2 1 2 1 in
    let r1' := shuffle tmp00 (r3 m) 3 0 2 0 in
    let r2' := shuffle tmp01 (r3 m) 3 1 2 0 in
    let r3' := shuffle tmp01 (r3 m) 3 2 3 1 in
    M r1' r2' r3' (r4 m).

  (** TransposeFull: datas/matrix44.cpp 188-190; _MM_TRANSPOSE4_PS is four unpacks/shuffles *)
  Definition TransposeFull m : matrix K :=
    let t0 := shuffle (r1 m) (r2 m) 1 0 1 0 in
    let t2 := shuffle (r1 m) (r2 m) 3 2 3 2 in
    let t1 := shuffle (r3 m) (r4 m) 1 0 1 0 in
    let t3 := shuffle (r3 m) (r4 m) 3 2 3 2 in
    M (shuffle t0 t1 2 0 2 0) (shuffle t0 t1 3 1 3 1) (shuffle t2 t3 2 0 2 0) (shuffle t2 t3 3 1 3 1).

  (** operator*=: datas/matrix44.cpp 192-222 (and operator*: datas/matrix44.hpp 50-52) *)
  Definition mmul m (right : matrix K) : matrix K :=
    let c := TransposeFull right in
    let row (a : vec K) := V (Dot a (r1 c)) (Dot a (r2 c)) (Dot a (r3 c)) (Dot a (r4 c)) in
    M (row (r1 m)) (row (r2 m)) (row (r3 m)) (row (r4 m)).

  (** RotatePoint: datas/matrix44.cpp 61-70 *)
  Definition RotatePoint m (point : vec K) : vec K :=
    let c := Transpose m in
    V (Dot (r1 c) point) (Dot (r2 c) point) (Dot (r3 c) point) 1.

  (** FromQuat: datas/matrix44.cpp 72-116; the fourth row is kept *)
  Definition FromQuat m (q : vec K) : matrix K :=
    let xo := vmul (all4 (X q)) q in
    let yo := vmul (all4 (Y q)) q in
    let zo := vmul (all4 (Z_ q)) q in
    let tmp00 := shuffle yo xo 3 2 1 2 in
    let r20 := shuffle xo yo 1 2 0 1 in
    let r10 := shuffle r20 xo 2 2 0 3 in
    let r30 := shuffle tmp00 xo 0 0 0 2 in
    let r11 := vmul (shuffle zo yo 3 3 3 2) (V 1 (-1) 1 0) in
    let r21 := vmul (shuffle zo xo 3 3 2 3) (V 1 1 (-1) 0) in
    let tmp06 := shuffle tmp00 yo 3 3 1 3 in
    let r31 := vmul (shuffle tmp06 tmp06 1 1 0 3) (V (-1) 1 1 0) in
    M (vadd (V 1 0 0 0) (vmul (vadd r10 r11) (V (-2) 2 2 0)))
      (vadd (V 0 1 0 0) (vmul (vadd r20 r21) (V 2 (-2) 2 0)))
      (vadd (V 0 0 1 0) (vmul (vadd r30 r31) (V 2 2 (-2) 0)))
      (r4 m).
  (** esMatrix44(quat): datas/matrix44.cpp 56-59 *)
  Definition of_quat (q : vec K) : matrix K := FromQuat Identity q.

  (** ToQuat: datas/matrix44.cpp 118-175 *)
  Definition ToQuat m : vec K :=
    let traceType0 := s_lt (Z_ (r3 m)) 0 in
    let traceType1 := if traceType0 then s_lt (Y (r2 m)) (X (r1 m)) else s_lt (X (r1 m)) (s_neg (Y (r2 m))) in
    let tmp10 := shuffle (r1 m) (r2 m) 2 0 2 0 in
    let tmp11 := V (X (r3 m)) (Y (r1 m)) (Z_ (r1 m)) (W (r1 m)) in
    let tmp00 := shuffle tmp10 tmp10 1 2 3 0 in
    let tmp01 := shuffle (r3 m) tmp11 0 1 1 2 in
    let tmp03 := shuffle (r2 m) (r2 m) 3 3 3 1 in
    let one := V 1 0 0 0 in
    let half := s_div 1 2 in
    let scaled t := vmuls t (s_div half (s_sqrt (X t))) in
    if traceType0 then
      if traceType1 then
        let t := scaled (vadd (vadd (vadd one (vmul tmp00 (V 1 (-1) 1 1))) (vmul tmp01 (V (-1) 1 1 1))) (vmuls tmp03 (-1))) in
        shuffle t t 1 3 2 0
      else
        let t := vmuls (scaled (vadd (vadd (vadd one (vmul tmp00 (V (-1) 1 1 1))) (vmul tmp01 (V (-1) 1 1 (-1)))) tmp03)) (-1) in
        shuffle t t 3 1 0 2
    else
      if traceType1 then
        let t := scaled (vadd (vadd (vadd one (vmul tmp00 (V (-1) 1 1 1))) (vmul tmp01 (V 1 1 (-1) 1))) (vmuls tmp03 (-1))) in
        shuffle t t 2 0 1 3
      else
        let t := scaled (vadd (vadd (vadd one (vmul tmp00 (V 1 (-1) 1 1))) (vmul tmp01 (V 1 1 (-1) (-1)))) tmp03) in
        shuffle t t 0 2 3 1.

  (** Compose: datas/matrix44.cpp 38-45; the matrix before the call only lends its storage *)
  Definition Compose m (position rotation scale : vec K) : matrix K :=
    let m1 := FromQuat m rotation in
    M (vmuls (r1 m1) (X scale)) (vmuls (r2 m1) (Y scale)) (vmuls (r3 m1) (Z_ scale)) position.

  (** Vector::Cross of the first three lanes: datas/vectors.hpp 256-259; the fourth lane 0 comes
      from Vector4A16(Vector, 0.0f), datas/vectors_simd.hpp 74-76 *)
  Definition cross3 (a b : vec K) : vec K :=
    V (s_sub (s_mul (Y a) (Z_ b)) (s_mul (Z_ a) (Y b))) (s_sub (s_mul (Z_ a) (X b)) (s_mul (X a) (Z_ b)))
      (s_sub (s_mul (X a) (Y b)) (s_mul (Y a) (X b))) 0.
  (** Decompose: datas/matrix44.cpp 21-36; [scale] is what the caller passes in, the result is
      position, rotation and scale *)
  Definition Decompose m (scale : vec K) : vec K * vec K * vec K :=
    let position := r4 m in
    let s0 := V (Length (r1 m)) (Length (r2 m)) (Length (r3 m)) (W scale) in
    let s := if s_lt (Dot (r1 m) (cross3 (r2 m) (r3 m))) 0 then vmuls s0 (-1) else s0 in
    let tmp := M (vdivs (r1 m) (X s)) (vdivs (r2 m) (Y s)) (vdivs (r3 m) (Z_ s)) (r4 m) in
    (position, ToQuat tmp, s).

  (** operator-() const: datas/matrix44.cpp 225-250; 0.000001f is the rounded quotient 1/1000000 *)
  Definition Inverse m : matrix K :=
    let t := Transpose m in
    let sizeSqr := vadd (vadd (vmul (r1 t) (r1 t)) (vmul (r2 t) (r2 t))) (vmul (r3 t) (r3 t)) in
    let eps := s_div 1 (s_int 1000000) in
    let guard (x : K) := s_div 1 (s_add (if s_lt x eps then 1 else 0) (if s_lt x eps then 0 else x)) in
    let f := V (guard (X sizeSqr)) (guard (Y sizeSqr)) (guard (Z_ sizeSqr)) (guard (W sizeSqr)) in
    let a := vmul (r1 t) f in let b := vmul (r2 t) f in let c := vmul (r3 t) f in
    M a b c (QConjugate (V (Dot a (r4 m)) (Dot b (r4 m)) (Dot c (r4 m)) 1)).
End Matrix.
