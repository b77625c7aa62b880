(** C75: the kinds of file and their numbers in st_mode (POSIX). *)
From Verif Require Import Base.
Inductive kind := Socket | Link | Regular | Block | Dir | Char | Fifo.
Definition kind_number (k : kind) : Z :=
  match k with Socket => 12 | Link => 10 | Regular => 8 | Block => 6 | Dir => 4 | Char => 2 | Fifo => 1 end.
(** file kind in bits 12 to 15, permissions below *)
Definition mode (k : kind) (permissions : Z) : Z := kind_number k * 4096 + permissions.
