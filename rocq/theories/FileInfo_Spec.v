(** Path vocabulary for C10-C12, independent of the code. *)
From Verif Require Import Base.

Definition slash := 47. Definition backslash := 92. Definition dot := 46.
Definition normal (s : list Z) : list Z := map (fun c => if c =? backslash then slash else c) s.

Fixpoint join (cs : list (list Z)) : list Z :=
  match cs with
  | [] => []
  | [c] => c
  | c :: r => c ++ slash :: join r
  end.
Definition no_slash (c : list Z) : Prop := ~ In slash c.
(** a path without one leading slash *)
Definition drop_lead (s : list Z) : list Z :=
  match s with c :: r => if c =? slash then r else s | [] => [] end.
(** [cs] are the components of [body] *)
Definition components (body : list Z) (cs : list (list Z)) : Prop :=
  Forall no_slash cs /\
  ( (body = [] /\ cs = []) \/
    (cs <> [] /\ body = join cs /\ last cs [] <> []) \/   (* last component non-empty *)
    (cs <> [] /\ body = join cs ++ [slash]) ).             (* trailing slash *)
