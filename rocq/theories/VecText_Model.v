(** Model of the texts of vectors: datas/vectors_string.hpp (std::to_string) and datas/vectors_stream.hpp
    (operator<<).  Characters as byte values.  A vector is the list of its 2, 3 or 4 components.
    The to_wstring templates (vectors_string.hpp:37-49) are not modelled: they return a std::string built
    from a std::wstring and so do not compile when used. *)
From Verif Require Import Base Reflector_Model.

(** vectors_string.hpp:24-26, 28-30, 32-35: the text of each component, ' ' between them.
    The same shape as vectors_stream.hpp:23-26, 28-31, 33-36 *)
Fixpoint spaced (l : list (list Z)) : list Z :=
  match l with
  | [] => []
  | [w] => w
  | w :: r => w ++ [32] ++ spaced r
  end.

(** Integer components of [bits] bits: std::to_string takes all of them as numbers *)
Definition to_string_int (v : list Z) : list Z := spaced (map to_string v).
(** the stream writes an 8 bit component (int8 and uint8 are char and unsigned char, sc_type.hpp:23,28) as a character
    and any other as a number (default flags, classic locale) *)
Definition stream_int (bits : Z) (v : list Z) : list Z := spaced (map (fun x => if bits =? 8 then [u8 x] else to_string x) v).

(** A finite float: sign, and mantissa times a power of two.  std::to_string(float) is sprintf %f of the
    value as a double: six decimals of the exact value, rounded to nearest, ties to even (glibc). *)
Record fl := Fl { neg : bool; mant : Z; expo : Z }.
Definition round_even (n d : Z) : Z :=
  let q := n / d in let r := n mod d in
  if 2 * r <? d then q else if d <? 2 * r then q + 1 else if Z.even q then q else q + 1.
Definition millionths (f : fl) : Z :=
  if 0 <=? expo f then mant f * 2 ^ expo f * 10 ^ 6 else round_even (mant f * 10 ^ 6) (2 ^ (- expo f)).
(** n decimal digits of x, with leading zeros *)
Fixpoint padded (n : nat) (x : Z) : list Z := match n with O => [] | S m => padded m (x / 10) ++ [48 + x mod 10] end.
Definition percent_f (f : fl) : list Z :=
  (if neg f then [45] else []) ++ dec_digits 60 (millionths f / 10 ^ 6) ++ [46] ++ padded 6 (millionths f mod 10 ^ 6).
Definition to_string_float (v : list fl) : list Z := spaced (map percent_f v).
