(** C71: what a history of calls on a Python list should return. *)
From Verif Require Import Base PyUni_Model.

(** Elements taken since iteration was last started *)
Fixpoint taken (before : list call) (k : nat) : nat :=
  match before with
  | [] => k
  | Iter :: r => taken r 0
  | Next :: r => taken r (S k)
  | _ :: r => taken r k
  end.
Fixpoint run {A} (cs : list call) (p : plist A) : list (ret A) * plist A :=
  match cs with
  | [] => ([], p)
  | c :: r => let (x, p1) := do_call c p in let (xs, p2) := run r p1 in (x :: xs, p2)
  end.
Definition expected {A} (l : list A) (before : list call) (c : call) (x : ret A) : Prop :=
  match c with
  | Len => x = Value (Z.of_nat (length l))
  | Iter => x = Self
  | Get i => (0 <= i < Z.of_nat (length l) -> exists a, nth_error l (Z.to_nat i) = Some a /\ x = Object a) /\
             (i < 0 \/ Z.of_nat (length l) <= i -> x = Terminates)
  | Next => let k := taken before 0 in
            ((k < length l)%nat -> exists a, nth_error l k = Some a /\ x = Object a) /\ ((length l <= k)%nat -> x = Stop)
  end.
Definition index_ok (c : call) : Prop := match c with Get i => - 2 ^ 63 <= i < 2 ^ 63 | _ => True end.
(** a body that does not touch the list *)
Definition pure {A B} (f : A -> B) : A -> plist A -> B * plist A := fun a p => (f a, p).
