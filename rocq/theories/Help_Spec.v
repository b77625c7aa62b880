(** C73: the lines of a help text. *)
From Coq Require Import Strings.String.
From Verif Require Import Base Reflector_Model RefAccess_Model Help_Model.

(** A line: its depth and its text *)
Definition line := (nat * list Z)%type.
Definition render (ls : list line) : list Z := flat_map (fun l => repeat 9 (fst l) ++ snd l ++ [10]) ls.

(** a member that is an object of a reflected class, or an array of such objects *)
Definition holds_class (t : reflType) : Prop :=
  type t = RClass \/ type t = RBitClass \/ ((type t = RArray \/ type t = RArrayClass) /\ (subType t = RClass \/ subType t = RBitClass)).

(** [own] : the lines of a member itself; then those of what it contains *)
Definition own (level : nat) (name desc : list Z) : list line :=
  (level, name) :: match desc with [] => [] | _ => [(S level, desc)] end.
Definition values_line (names : list (list Z)) : list Z := ascii "Values: " ++ flat_map (fun n => n ++ ascii ", ") names.
Inductive described (r : registry) : info -> nat -> list line -> Prop :=
| DClass c level ls : members r c level 0 (iTypes c) ls -> described r c level ls
with members (r : registry) : info -> nat -> nat -> list reflType -> list line -> Prop :=
| MNil c level i : members r c level i [] []
| MCons c level i t ts ns ds name d1 d2 inner ls : iNames c = Some ns -> nth_error ns i = Some name ->
    iDescs c = Some ds -> nth_error ds i = Some (d1, d2) -> contents r level t inner -> members r c level (S i) ts ls ->
    members r c level i (t :: ts) (own level name d1 ++ inner ++ ls)
with contents (r : registry) : nat -> reflType -> list line -> Prop :=
| CClass level t s ls : holds_class t -> rClasses r (typeHash t) = Some s -> described r s (S level) ls -> contents r level t ls
| CEnum level t names : type t = REnum -> rEnums r (typeHash t) = Some names -> contents r level t [(S level, values_line names)]
| CPlain level t : ~ holds_class t -> type t <> REnum -> contents r level t [].

(** Classes that can be reached from a class through members, with the depth *)
Inductive reaches (r : registry) : info -> nat -> info -> Prop :=
| RHere c : reaches r c 0 c
| RInside c t s d u : In t (iTypes c) -> holds_class t -> rClasses r (typeHash t) = Some s -> reaches r s d u -> reaches r c (S d) u.
(** A class reflected with names and descriptions *)
Definition complete (c : info) : Prop := exists ns ds, iNames c = Some ns /\ iDescs c = Some ds /\
  length ns = length (iTypes c) /\ length ds = length (iTypes c).
Definition registered (r : registry) (c : info) : Prop := forall t, In t (iTypes c) ->
  (holds_class t -> rClasses r (typeHash t) <> None) /\ (type t = REnum -> rEnums r (typeHash t) <> None).

(** What is left of a text given as a C string: the part before the first NUL *)
Definition before_nul (s v : list Z) : Prop := ~ In 0 v /\ (s = v \/ exists r, s = v ++ 0 :: r).
