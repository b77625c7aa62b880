(** Vectors with 8-, 16- and 32-bit integer components, datas/vectors.hpp (CVector2 ... USVector4 of vectors_fwd.hpp 35-60):
    operators on narrow components, negation, conversions, length, normalisation, byte order.  A vector is the list of
    its components.  The list-initialisations with int values that may not fit (lines 53-64, 169-192, 304-327) are taken
    as the conversions GCC makes them (a diagnosed narrowing).
    The floating point classes are modelled over the reals.
    Not modelled: division of a V4ScalarType by a number, and so its Normalize and unary minus (lines 363, 404-410 use the
    const operators of 329-352 that assign to *this and do not compile). *)
From Coq Require Import Reals.
From Verif Require Import Base Endian_Model Vector_Model.

(** component types: signed or not, 8, 16 or 32 bits *)
Record elem := Elem { el_signed : bool; el_bits : Z }.
Definition fits (e : elem) (z : Z) : bool :=
  if el_signed e then (- 2 ^ (el_bits e - 1) <=? z) && (z <? 2 ^ (el_bits e - 1)) else (0 <=? z) && (z <? 2 ^ el_bits e).
(** conversion of an integer *)
Definition cast (e : elem) (z : Z) : Z :=
  let m := wrap (el_bits e) z in if el_signed e && (2 ^ (el_bits e - 1) <=? m) then m - 2 ^ el_bits e else m.
(** operators + - * / & | >> <<, vectors.hpp 53-64, 169-192, 304-327: narrow components are computed as int *)
Definition nlane (e : elem) (o : op) (x y : Z) : option Z :=
  if el_bits e <? 32 then option_map (cast e) (lane_op true o x y) else lane_op (el_signed e) o x y.
Definition nbinary (e : elem) (o : op) (a b : list Z) : option (list Z) := lanes2 (nlane e o) a b.
(** operators with a scalar of the two smaller classes, 66-73, 194-201 *)
Definition nscalar (e : elem) (o : op) (a : list Z) (s : Z) : option (list Z) := nbinary e o a (repeat s (length a)).
(** unary minus of the two smaller classes, 93, 224: times the component type's -1 *)
Definition negate (e : elem) (a : list Z) : option (list Z) := nscalar e Mul a (cast e (-1)).
(** Convert, 118-120, 245-247, 376-379 *)
Definition Convert (e2 : elem) (a : list Z) : list Z := map (cast e2) a.
(** conversions between the classes: 221-222, 430-435, 453-456 *)
Definition to_two (a : list Z) : list Z := firstn 2 a.
Definition to_three (a : list Z) : list Z := firstn 3 a.
Definition to_four (a : list Z) : list Z := firstn 3 a ++ [0].

(** ** Length, 122-124, 250-252, 398-400: squares, sum and root in double precision *)
(** a non-negative integer as a double: 53 bits, to nearest, ties to even *)
Definition dbl (z : Z) : Z :=
  if z <? 2 ^ 53 then z
  else
    let u := 2 ^ (Z.log2 z - 52) in
    let q := z / u in
    let r := z mod u in
    (if (u <? 2 * r) || ((u =? 2 * r) && Z.odd q) then q + 1 else q) * u.
(** pow(x, 2), assumed correctly rounded *)
Definition pow2 (x : Z) : Z := dbl (x * x).
Definition squares (a : list Z) : Z :=
  match a with [] => 0 | x :: r => fold_left (fun s y => dbl (s + pow2 y)) r (pow2 x) end.
(** the integer part of sqrt(n), correctly rounded to 53 bits (a root is never half way between two doubles) *)
Definition root (n : Z) : Z :=
  if n =? 0 then 0
  else
    let k := 52 - Z.log2 (Z.sqrt n) in
    let s := Z.sqrt (n * 4 ^ k) in
    (if s <? n * 4 ^ k - s * s then s + 1 else s) / 2 ^ k.
(** the conversion of a double beyond the range of the type is undefined *)
Definition Length (e : elem) (a : list Z) : option Z := let l := root (squares a) in if fits e l then Some l else None.
(** Normalize of the two smaller classes, 128-134, 261-267 *)
Definition Normalize (e : elem) (a : list Z) : option (list Z) :=
  match Length e a with
  | None => None
  | Some l => if l =? 0 then Some a else nscalar e Div a l
  end.

(** ** SwapEndian, 136-143, 269-277, 440-449 *)
Fixpoint SwapEndian (e : elem) (a : list Z) : option (list Z) :=
  if el_bits e =? 8 then Some a
  else match a with
  | [] => Some []
  | x :: r =>
    match FByteswapper (el_bits e / 8) (wrap (el_bits e) x), SwapEndian e r with
    | Some y, Some s => Some (cast e y :: s)
    | _, _ => None
    end
  end.

(** ** Floating point components over the reals *)
Local Open Scope R_scope.
Definition squaresR (a : list R) : R := fold_left (fun s x => s + x * x) a 0.
(** 122-124, 250-252, 398-400 *)
Definition LengthR (a : list R) : R := sqrt (squaresR a).
(** 128-134, 261-267 *)
Definition NormalizeR (a : list R) : list R :=
  if Req_EM_T (LengthR a) 0 then a else map (fun x => x / LengthR a) a.
(** fltcmp, 26-28; operator==, 108-112, 232-236, 389-394 *)
Definition fltcmpR (eps a b : R) : bool := if Rle_dec a (b + eps) then if Rle_dec (b - eps) a then true else false else false.
Fixpoint equalR (eps : R) (a b : list R) : bool :=
  match a, b with
  | x :: a', y :: b' => fltcmpR eps x y && equalR eps a' b'
  | _, _ => true
  end.
