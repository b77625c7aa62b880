(** Counting vocabulary for C13-C14. *)
From Verif Require Import Base Ownership_Model.

Definition block_eq_dec (a b : block) : {a = b} + {a <> b}. Proof. decide equality; apply Nat.eq_dec. Defined.
Definition object_eq_dec (a b : object) : {a = b} + {a <> b}. Proof. decide equality; apply Nat.eq_dec. Defined.

Definition times_deleted (b : block) (s : alloc_state) : nat := count_occ block_eq_dec (deleted s) b.
Definition is_free_of (b : block) (o : alloc_op) : bool :=
  match o with Deallocate x => block_eqb x b | _ => false end.
Definition times_returned (b : block) (ops : list alloc_op) : nat :=
  length (filter (is_free_of b) ops).

Definition held (s : own_state) : list object :=
  flat_map (fun e => match ptr e with Some o => [o] | None => [] end) (slots s).
Definition times (o : object) (l : list object) : nat := count_occ object_eq_dec l o.
