(** C82: colours. *)
From Verif Require Import Base Errors_Spec.

(** a number as printf's %i writes it *)
Definition decimal (x : Z) (t : list Z) : Prop := (0 <= x /\ writes 10 x t) \/ (x < 0 /\ exists d, t = 45 :: d /\ writes 10 (- x) d).
(** one of the sixteen colours of the Windows console: wincon.h FOREGROUND_BLUE 1, GREEN 2, RED 4, INTENSITY 8 *)
Definition colour16 (intense red green blue : bool) : Z := 8 * Z.b2z intense + 4 * Z.b2z red + 2 * Z.b2z green + Z.b2z blue.
Definition component (x : Z) : Prop := 0 <= x <= 255.
Definition is_int (x : Z) : Prop := - 2 ^ 31 <= x < 2 ^ 31.
(** the colour asked for is intense *)
Definition intense (r g b : Z) : Prop :=
  exists x, In x [r; g; b] /\ (x > 128 \/ (x = 128 /\ exists y, In y [r; g; b] /\ 1 <= y <= 127)).
