(** Words of C85. *)
From Coq Require Import Reals.
From Verif Require Import Base Vector_Model VecNarrow_Model.

(** one of the six component types *)
Definition elem_ok (e : elem) : Prop := el_bits e = 8 \/ el_bits e = 16 \/ el_bits e = 32.
(** the numbers a component can hold *)
Definition holds_number (e : elem) (z : Z) : Prop :=
  if el_signed e then - 2 ^ (el_bits e - 1) <= z < 2 ^ (el_bits e - 1) else 0 <= z < 2 ^ el_bits e.
(** [z] is [v] modulo 2^bits, as a number of the type *)
Definition stored (e : elem) (v z : Z) : Prop := holds_number e z /\ (2 ^ el_bits e | z - v).
(** the exact result of an operator; division truncates *)
Definition exact_result (o : op) (x y : Z) : Z :=
  match o with
  | Add => x + y | Sub => x - y | Mul => x * y | Div => Z.quot x y
  | And => Z.land x y | Or => Z.lor x y | Shr => x / 2 ^ y | Shl => x * 2 ^ y
  end.
(** when the language defines the operation on 8- and 16-bit components *)
Definition narrow_defined (o : op) (x y : Z) : Prop :=
  match o with
  | Add | Sub | And | Or => True
  | Mul => x * y < 2 ^ 31
  | Div => y <> 0
  | Shr => 0 <= y < 32
  | Shl => 0 <= y < 32 /\ 0 <= x /\ x * 2 ^ y < 2 ^ 31
  end.
Definition component (a : list Z) (i : nat) : Z := nth i a 0.
Fixpoint sum_of_squares (a : list Z) : Z := match a with [] => 0 | x :: r => x * x + sum_of_squares r end.
(** the whole part of the length *)
Definition whole_length (a : list Z) (l : Z) : Prop := 0 <= l /\ l * l <= sum_of_squares a < (l + 1) * (l + 1).
Fixpoint sum_of_squaresR (a : list R) : R := match a with [] => 0 | x :: r => x * x + sum_of_squaresR r end%R.
