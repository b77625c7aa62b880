(** IEEE-754 binary32 arithmetic as used by the float code of the project: the standard library's
    executable specification (Coq.Floats.SpecFloat, plain integer arithmetic, no axioms) at
    precision 24 and emax 128, rounding to nearest even.  Evaluation in single precision without
    contraction is assumed. *)
From Coq Require Import Floats.SpecFloat.
From Verif Require Import Base.

Definition f32 : Set := spec_float.
Definition fmul : f32 -> f32 -> f32 := SFmul 24 128.
Definition fadd : f32 -> f32 -> f32 := SFadd 24 128.
Definition fsub : f32 -> f32 -> f32 := SFsub 24 128.
Definition fdiv : f32 -> f32 -> f32 := SFdiv 24 128.
Definition fsqrt : f32 -> f32 := SFsqrt 24 128.
(** conversion from an integer *)
Definition of_int (z : Z) : f32 := binary_normalize 24 128 z 0 false.
(** m * 2^e correctly rounded *)
Definition of_dyadic (m e : Z) : f32 := binary_normalize 24 128 m e false.
(** truncation toward zero, as in a cast to an integer type; [None] when there is no integer *)
Definition trunc (f : f32) : option Z :=
  match f with
  | S754_zero _ => Some 0
  | S754_finite s m e =>
    let a := if 0 <=? e then Zpos m * 2 ^ e else Zpos m / 2 ^ (- e) in
    Some (if s then - a else a)
  | _ => None
  end.
(** static_cast to an unsigned n-bit type; [None] is undefined behaviour *)
Definition to_unsigned (n : Z) (f : f32) : option Z :=
  match trunc f with
  | Some v => if (0 <=? v) && (v <? 2 ^ n) then Some v else None
  | None => None
  end.
Definition flt (a b : f32) : bool := SFltb a b.

(** The 32-bit pattern of a float and back (reinterpret_cast between float and uint32). *)
Definition of_bits (w : Z) : f32 :=
  let s := Z.testbit w 31 in
  let E := (w / 2 ^ 23) mod 2 ^ 8 in
  let M := w mod 2 ^ 23 in
  if E =? 255 then (if M =? 0 then S754_infinity s else S754_nan)
  else if E =? 0 then match M with Zpos p => S754_finite s p (-149) | _ => S754_zero s end
  else match M + 2 ^ 23 with Zpos p => S754_finite s p (E - 150) | _ => S754_nan end.
(** A NaN created by an operation on numbers is the one x86 creates. *)
Definition to_bits (f : f32) : Z :=
  let sign (s : bool) := if s then 2 ^ 31 else 0 in
  match f with
  | S754_zero s => sign s
  | S754_infinity s => sign s + 255 * 2 ^ 23
  | S754_nan => 2 ^ 31 + 255 * 2 ^ 23 + 2 ^ 22
  | S754_finite s m e =>
    if Zpos m <? 2 ^ 23 then sign s + Zpos m
    else sign s + (e + 150) * 2 ^ 23 + (Zpos m - 2 ^ 23)
  end.
Definition is_nan_bits (w : Z) : bool := ((w / 2 ^ 23) mod 2 ^ 8 =? 255) && negb (w mod 2 ^ 23 =? 0).
(** Adding or subtracting on patterns: a NaN first operand comes back with its quiet bit set. *)
Definition fadd_bits (a b : Z) : Z :=
  if is_nan_bits a then Z.lor a (2 ^ 22)
  else if is_nan_bits b then Z.lor b (2 ^ 22) else to_bits (fadd (of_bits a) (of_bits b)).
Definition fsub_bits (a b : Z) : Z :=
  if is_nan_bits a then Z.lor a (2 ^ 22)
  else if is_nan_bits b then Z.lor b (2 ^ 22) else to_bits (fsub (of_bits a) (of_bits b)).
