(** What C07-C09 mean, independent of the code. *)
From Verif Require Import Base.

Definition blank (nl : bool) (c : Z) : Prop := c = 32 \/ c = 9 \/ (nl = true /\ c = 10).
(** [r] is [s] without its maximal leading run of blanks *)
Definition strips_front (nl : bool) (s r : list Z) : Prop :=
  exists p, s = p ++ r /\ Forall (blank nl) p /\ (forall c t, r = c :: t -> ~ blank nl c).
Definition strips_back (nl : bool) (s r : list Z) : Prop :=
  exists p, s = r ++ p /\ Forall (blank nl) p /\ (forall c t, r = t ++ [c] -> ~ blank nl c).
Definition alnum (c : Z) : Prop := 48 <= c <= 57 \/ 65 <= c <= 90 \/ 97 <= c <= 122.
