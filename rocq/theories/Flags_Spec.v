(** Specification: a flag set is a boolean function of the flag index; the last
    operation on an index decides. *)
From Verif Require Import Base.
Fixpoint last_op (ops : list (Z * bool)) (p : Z) (initial : bool) : bool :=
  match ops with
  | [] => initial
  | (q, b) :: r => last_op r p (if p =? q then b else initial)
  end.
