(** What the Morton order of a texture is (C40). *)
From Verif Require Import Base.

(** The address of texel (x, y) of a texture 2^a wide and 2^b high, b <= a: the low b bits of the
    coordinates interleaved, x first, the remaining bits of x above them. *)
Definition morton_order (a b x y addr : Z) : Prop :=
  0 <= addr < 2 ^ (a + b) /\
  (forall i, 0 <= i < b -> Z.testbit addr (2 * i) = Z.testbit x i /\
                           Z.testbit addr (2 * i + 1) = Z.testbit y i) /\
  (forall i, b <= i < a -> Z.testbit addr (b + i) = Z.testbit x i).
