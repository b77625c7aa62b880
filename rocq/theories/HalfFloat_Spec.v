(** What a binary floating-point pattern stands for: IEEE 754 interchange formats of [mb] mantissa
    and [eb] exponent bits.  Finite magnitudes are given in units of 2^-149, the smallest binary32
    step, so that they are integers. *)
From Verif Require Import Base.

Inductive number : Set :=
| Finite (negative : bool) (magnitude : Z)
| Infinite (negative : bool)
| NotANumber.

Definition ieee (mb eb w : Z) : number :=
  let bias := 2 ^ (eb - 1) - 1 in
  let negative := Z.testbit w (mb + eb) in
  let E := (w / 2 ^ mb) mod 2 ^ eb in
  let M := w mod 2 ^ mb in
  if E =? 2 ^ eb - 1 then (if M =? 0 then Infinite negative else NotANumber)
  else if E =? 0 then Finite negative (M * 2 ^ (150 - bias - mb))
  else Finite negative ((2 ^ mb + M) * 2 ^ (149 + E - bias - mb)).

Definition half (w : Z) : Prop := 0 <= w < 65536.
(** a half with the sign bit set and exponent 0: minus zero and the negative subnormals *)
Definition negative_tiny (w : Z) : Prop := 0x8000 <= w < 0x8400.

(** H is the magnitude V rounded toward zero to a half; H is a half nearest to V. *)
Definition rounded_down (V H : Z) : Prop :=
  H <= V /\ forall h n H', half h -> ieee 10 5 h = Finite n H' -> H' <= V -> H' <= H.
Definition nearest_half (V H : Z) : Prop :=
  forall h n H', half h -> ieee 10 5 h = Finite n H' -> Z.abs (V - H) <= Z.abs (V - H').
