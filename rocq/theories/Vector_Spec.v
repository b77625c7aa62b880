(** Words of C46. *)
From Coq Require Import Reals.
From Verif Require Import Base Float_Proof Vector_Model Simd_Model.

(** a lane of an int32 or uint32 vector *)
Definition lane_ok (signed : bool) (x : Z) : Prop := if signed then is_sword 32 x else is_word 32 x.
(** what an operator means on two numbers: exact when signed, modulo 2^32 when unsigned *)
Definition means (signed : bool) (o : op) (x y z : Z) : Prop :=
  let exactly v := if signed then z = v else z = v mod 2 ^ 32 in
  match o with
  | Add => exactly (x + y)
  | Sub => exactly (x - y)
  | Mul => exactly (x * y)
  | Div => y <> 0 /\ Z.abs (x - y * z) < Z.abs y /\ 0 <= x * (x - y * z)
  | And => forall k, 0 <= k -> Z.testbit z k = (Z.testbit x k && Z.testbit y k)%bool
  | Or => forall k, 0 <= k -> Z.testbit z k = (Z.testbit x k || Z.testbit y k)%bool
  | Shr => z = x / 2 ^ y
  | Shl => exactly (x * 2 ^ y)
  end.
(** the first operand's sign is kept by the remainder of a division that truncates *)

Definition words (a : list Z) : Prop := length a = 4%nat /\ Forall (is_word 32) a.
Definition at_ (a : list Z) (i : nat) : Z := nth i a 0.

(** reals *)
Definition within (eps x y : R) : Prop := (Rabs (x - y) <= eps)%R.
