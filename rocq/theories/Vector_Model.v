(** Component-wise vectors: datas/vectors.hpp (t_Vector2, t_Vector, V4ScalarType with 32-bit integer
    lanes) and datas/vectors_simd.hpp (V4SimdIntType_t, the bitwise and comparison operators of
    V4SimdFltType).  A vector is the list of its lanes.  Lanes of integer vectors are the mathematical
    values of int32 or uint32 ([signed] says which); lanes of SSE vectors are 32-bit patterns.
    Not modelled: the operators with a scalar of V4ScalarType (datas/vectors.hpp 329-352 assign to
    *this in a const member and do not compile when used).  Narrow lanes, Length, Normalize and Convert of the
    scalar classes: VecNarrow_Model. *)
From Coq Require Import Floats.SpecFloat.
From Verif Require Import Base Float_Model Float_Proof HalfFloat_Model.

Inductive cls := Two | Three | Four.
Definition arity (c : cls) : nat := match c with Two => 2 | Three => 3 | Four => 4 end.
Inductive op := Add | Sub | Mul | Div | And | Or | Shr | Shl.

(** A C++ int32/uint32 operation on one lane; [None] is undefined behaviour (signed overflow,
    division by zero, shift count outside 0..31, left shift of a negative number). *)
Definition arith (signed : bool) (z : Z) : option Z :=
  if signed then (if (- 2 ^ 31 <=? z) && (z <? 2 ^ 31) then Some z else None) else Some (wrap 32 z).
Definition lane_op (signed : bool) (o : op) (x y : Z) : option Z :=
  match o with
  | Add => arith signed (x + y)
  | Sub => arith signed (x - y)
  | Mul => arith signed (x * y)
  | Div => if y =? 0 then None else arith signed (Z.quot x y)
  | And => Some (Z.land x y)
  | Or => Some (Z.lor x y)
  | Shr => if (0 <=? y) && (y <? 32) then Some (Z.shiftr x y) else None
  | Shl => if (0 <=? y) && (y <? 32) then (if signed then (if 0 <=? x then arith true (Z.shiftl x y) else None)
                                            else Some (wrap 32 (Z.shiftl x y))) else None
  end.
Fixpoint lanes2 (f : Z -> Z -> option Z) (a b : list Z) : option (list Z) :=
  match a, b with
  | x :: a', y :: b' => match f x y, lanes2 f a' b' with Some z, Some r => Some (z :: r) | _, _ => None end
  | _, _ => Some []
  end.
(** operators + - * / & | >> << with a vector: datas/vectors.hpp 53-64, 169-192, 304-327 *)
Definition binary (c : cls) (signed : bool) (o : op) (a b : list Z) : option (list Z) := lanes2 (lane_op signed o) a b.
(** vector(input): all lanes the same (datas/vectors.hpp 50, 166, 301) *)
Definition broadcast (c : cls) (s : Z) : list Z := repeat s (arity c).
(** operators with a scalar of the two smaller classes: datas/vectors.hpp 66-73, 194-201 *)
Definition binary_scalar (c : cls) (signed : bool) (o : op) (a : list Z) (s : Z) : option (list Z) :=
  binary c signed o a (broadcast c s).
(** the compound operators: datas/vectors.hpp 75-82, 203-210, 354-361; line 359 writes & for |= *)
Definition compound (c : cls) (signed : bool) (o : op) (a b : list Z) : option (list Z) :=
  match c, o with
  | Four, Or => binary c signed And a b
  | _, _ => binary c signed o a b
  end.
(** the compound operators with a scalar of the two smaller classes: datas/vectors.hpp 84-91, 212-219 *)
Definition compound_scalar (c : cls) (signed : bool) (o : op) (a : list Z) (s : Z) : option (list Z) :=
  binary_scalar c signed o a s.
(** operator== of integer vectors: datas/vectors.hpp 102-106, 226-230, 383-387 *)
Fixpoint equal (a b : list Z) : bool :=
  match a, b with x :: a', y :: b' => (x =? y) && equal a' b' | _, _ => true end.
(** IsSymetrical of integer vectors: datas/vectors.hpp 116, 243, 374 *)
Definition is_symmetrical (a : list Z) : bool :=
  match a with
  | [x; y] => (x =? y) && (y =? x)
  | [x; y; z] => (x =? y) && (x =? z)
  | [x; y; z; w] => (x =? y) && (x =? z) && (z =? w)
  | _ => false
  end.
(** Sign: datas/vectors.hpp 125, 249, 381 (the or of unsigned lanes is unsigned) *)
Definition sign (a : list Z) : Z := if fold_left Z.lor a 0 <? 0 then -1 else 1.
(** Dot (datas/vectors.hpp 126, 253-255, 401-403), summed left to right *)
Definition dot (signed : bool) (a b : list Z) : option Z :=
  match a, b with
  | x :: a', y :: b' =>
    fold_left (fun acc p => match acc, arith signed (fst p * snd p) with Some u, Some v => arith signed (u + v) | _, _ => None end)
      (combine a' b') (arith signed (x * y))
  | _, _ => Some 0
  end.
(** Cross: datas/vectors.hpp 256-259 *)
Definition cross (signed : bool) (a b : list Z) : option (list Z) :=
  match a, b with
  | [x; y; z], [x'; y'; z'] =>
    let minor p q r s := match arith signed (p * q), arith signed (r * s) with Some u, Some v => arith signed (u - v) | _, _ => None end in
    match minor y z' z y', minor z x' x z', minor x y' y x' with
    | Some i, Some j, Some k => Some [i; j; k] | _, _, _ => None
    end
  | _, _ => None
  end.

(** *** V4SimdIntType_t, datas/vectors_simd.hpp 240-348: lanes are 32-bit patterns *)
Inductive iop := IAdd | ISub | IMul | IAnd | IOr | IXor.
Definition zipw (f : Z -> Z -> Z) (a b : list Z) : list Z := map (fun p => f (fst p) (snd p)) (combine a b).
(** operators + - * & | ^: datas/vectors_simd.hpp 276-293 *)
Definition ilane (o : iop) (x y : Z) : Z :=
  match o with
  | IAdd => wrap 32 (x + y) | ISub => wrap 32 (x - y) | IMul => wrap 32 (x * y)
  | IAnd => Z.land x y | IOr => Z.lor x y | IXor => Z.lxor x y
  end.
Definition ibinary (o : iop) (a b : list Z) : list Z := zipw (ilane o) a b.
(** the compound operators: datas/vectors_simd.hpp 320-325 *)
Definition icompound (o : iop) (a b : list Z) : list Z := ibinary o a b.
(** vector(value_type s) and the operators with a scalar: datas/vectors_simd.hpp 266, 297-301, 327-332 *)
Definition iall (s : Z) : list Z := repeat (wrap 32 s) 4.
Definition ibinary_scalar (o : iop) (a : list Z) (s : Z) : list Z := ibinary o a (iall s).
(** operator~: datas/vectors_simd.hpp 295 *)
Definition inot (a : list Z) : list Z := ibinary IXor a (iall 0xffffffff).
(** pslld/psrld/psrad take the count as an unsigned number; 32 and above shift everything out *)
Definition count (n : Z) : Z := wrap 32 n.
(** operator<<: datas/vectors_simd.hpp 302-304 *)
Definition ishl (a : list Z) (n : Z) : list Z := map (fun x => if count n <? 32 then wrap 32 (Z.shiftl x (count n)) else 0) a.
(** operator>>, logical and arithmetic: datas/vectors_simd.hpp 306-318 *)
Definition ishr (signed : bool) (a : list Z) (n : Z) : list Z :=
  map (fun x => if signed then wrap 32 (Z.shiftr (sgn 32 x) (Z.min (count n) 31))
                else if count n <? 32 then Z.shiftr x (count n) else 0) a.
(** operator==: datas/vectors_simd.hpp 341-345 *)
Definition iequal (a b : list Z) : bool := forallb (fun p => Z.testbit (lcmpeq (fst p) (snd p)) 31) (combine b a).
(** operator V4SimdFltType: datas/vectors_simd.hpp 274 (cvtdq2ps reads signed lanes); float patterns *)
Definition to_float (a : list Z) : list Z := map (fun x => to_bits (of_int (sgn 32 x))) a.
(** operator V4SimdIntType of a float vector: datas/vectors_simd.hpp 350-352 (cvtps2dq rounds to the
    nearest integer, ties to even; 0x80000000 when there is none in range) *)
Definition cvt (w : Z) : Z :=
  match of_bits w with
  | S754_zero _ => 0
  | S754_finite s m e =>
    let a := rne (Zpos m) (- e) in let v := if s then - a else a in
    if (- 2 ^ 31 <=? v) && (v <? 2 ^ 31) then wrap 32 v else 2 ^ 31
  | _ => 2 ^ 31
  end.
Definition to_int (a : list Z) : list Z := map cvt a.

(** *** V4SimdFltType on patterns, datas/vectors_simd.hpp 29-238 *)
(** operators & | ^ ~: datas/vectors_simd.hpp 104-115 *)
Definition fbit (o : iop) (a b : list Z) : list Z := zipw (ilane o) a b.
Definition fnot (a : list Z) : list Z := fbit IXor a (repeat (2 ^ 32 - 1) 4).
(** Sign, from the sign bits: datas/vectors_simd.hpp 178-179 *)
Definition fsign (a : list Z) : Z := if existsb (fun w => Z.testbit w 31) a then -1 else 1.
