(** The published constants of Blowfish: the fractional part of pi, 32 bits at a time. *)
From Coq Require Import Reals ZArith.

(** Bits 32j+1 .. 32j+32 of pi behind the binary point. *)
Definition pi_word (j : nat) : Z := (Int_part (PI * 2 ^ (32 * (j + 1))) mod 2 ^ 32)%Z.
