(** Restoring the third component of a unit vector (C53).  A byte a stands for (2a - 255)/255; the
    component restored is z = sqrt(1 - x^2 - y^2), or 0 when that is negative; the byte stored is
    (z + 1) * 127 rounded down. *)
From Verif Require Import Base.
(** 255^2 * z^2 *)
Definition z_square (a b : Z) : Z := Z.max 0 (255 ^ 2 - (2 * a - 255) ^ 2 - (2 * b - 255) ^ 2).
(** v = floor(127 + 127 z), in integers: v - 127 <= 127 z < v - 127 + 1 *)
Definition blue_value (a b v : Z) : Prop :=
  127 <= v <= 254 /\
  (v - 127) ^ 2 * 255 ^ 2 <= 127 ^ 2 * z_square a b < (v - 127 + 1) ^ 2 * 255 ^ 2.
