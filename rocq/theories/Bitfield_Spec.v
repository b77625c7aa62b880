(** Specification of bit-field layouts: member i occupies the size_i bits that
    start at the sum of the sizes before it. *)
From Verif Require Import Base.

Definition start (l : list Z) (i : nat) : Z := fold_right Z.add 0 (firstn i l).
Definition size (l : list Z) (i : nat) : Z := nth i l 0.

(** A layout the storage can hold: at least two members, none empty. *)
Definition layout_ok (w : Z) (l : list Z) : Prop :=
  (w = 8 \/ w = 16 \/ w = 32 \/ w = 64) /\ (2 <= length l)%nat /\
  Forall (fun s => 1 <= s) l /\ fold_right Z.add 0 l <= w.

(** Value of member i of the word v. *)
Definition field (l : list Z) (i : nat) (v : Z) : Z := (v / 2 ^ start l i) mod 2 ^ size l i.

(** Bit b belongs to member i. *)
Definition in_member (l : list Z) (i : nat) (b : Z) : Prop :=
  (i < length l)%nat /\ start l i <= b < start l i + size l i.
