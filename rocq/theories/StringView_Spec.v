(** Vocabulary for C20-C23, independent of the code. *)
From Verif Require Import Base.

(** lexicographic order on character codes, a proper prefix being smaller *)
Definition lex_lt (a b : list Z) : Prop :=
  (exists p x y ra rb, a = p ++ x :: ra /\ b = p ++ y :: rb /\ x < y) \/
  (exists x r, b = a ++ x :: r).

(** [r] is the least/greatest index in [from, to) satisfying [Q], or [none] when there is none *)
Definition least_in (Q : Z -> Prop) (from to none r : Z) : Prop :=
  (from <= r < to /\ Q r /\ forall i, from <= i < r -> ~ Q i) \/
  (r = none /\ forall i, from <= i < to -> ~ Q i).
Definition greatest_in (Q : Z -> Prop) (from to none r : Z) : Prop :=
  (from <= r < to /\ Q r /\ forall i, r < i < to -> ~ Q i) \/
  (r = none /\ forall i, from <= i < to -> ~ Q i).

Definition char_at (s : list Z) (i : Z) : option Z := nth_error s (Z.to_nat i).
(** the character at index i of s is one of those in v *)
Definition char_in (s v : list Z) (i : Z) : Prop := exists c, char_at s i = Some c /\ In c v.
Definition char_not (s : list Z) (x : Z) (i : Z) : Prop := exists c, char_at s i = Some c /\ c <> x.
(** v occurs in s at index i *)
Definition occurs (s v : list Z) (i : Z) : Prop := exists a b, s = a ++ v ++ b /\ Z.of_nat (length a) = i.

(** v read forwards is s read backwards from index i; and: v agrees so far as s goes, but is longer *)
Definition rev_at (s v : list Z) (i : Z) : Prop := forall j, 0 <= j < Z.of_nat (length v) -> j <= i /\ char_at v j = char_at s (i - j).
Definition falls (s v : list Z) (i : Z) : Prop := i + 1 < Z.of_nat (length v) /\ forall j, 0 <= j <= i -> char_at v j = char_at s (i - j).
