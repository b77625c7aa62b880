(** Specification: reversing the [n] bytes of a word. *)
From Verif Require Import Base.
Definition byte_reverse (n : nat) (x : Z) : Z := le_value (rev (le_bytes n x)).
