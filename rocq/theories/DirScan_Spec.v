(** Specification vocabulary for C31, C32. *)
From Verif Require Import Base FileInfo_Model FileInfo_Spec DirScan_Model StringView_Spec.

(** A finite directory tree: names with either a leaf (anything that is not a directory) or a
    sub-directory; [None] = a directory that cannot be opened. *)
Inductive tree := Tree (children : option (list child))
with child := Leaf (name : list Z) | Sub (name : list Z) (t : tree).

Definition child_name (c : child) : list Z := match c with Leaf n => n | Sub n _ => n end.
Definition child_entry (c : child) : entry :=
  match c with Leaf n => mkEntry n false | Sub n _ => mkEntry n true end.
Definition kids (t : tree) : list child := match t with Tree (Some l) => l | Tree None => [] end.

(** [p] is the path below [t] of a leaf called [n], written with slashes. *)
Inductive leaf_at : tree -> list Z -> list Z -> Prop :=
| leaf_here t n : In (Leaf n) (kids t) -> leaf_at t n n
| leaf_below t d t' p n : In (Sub d t') (kids t) -> leaf_at t' p n -> leaf_at t (d ++ slash :: p) n.

(** The file system shows tree [t] at prefix [dir] (empty or ending with a slash): opendir of
    [dir] followed by "." lists the children, possibly with "." and ".." among them. *)
Definition real_entry (e : entry) : bool :=
  if list_eq_dec Z.eq_dec (d_name e) [dot] then false
  else if list_eq_dec Z.eq_dec (d_name e) [dot; dot] then false else true.
Inductive shows (o : fs) : list Z -> tree -> Prop :=
| shows_closed dir : o (dir ++ [dot]) = None -> shows o dir (Tree None)
| shows_open dir es l : o (dir ++ [dot]) = Some es ->
    filter real_entry es = map child_entry l ->
    (forall d t, In (Sub d t) l -> shows o (dir ++ d ++ [slash]) t) ->
    shows o dir (Tree (Some l)).

(** Ordinary names: not empty, no slash, not "." or ".."; directory names do not end with a
    quote or a backslash; names within a directory are distinct. *)
Definition plain (n : list Z) : Prop := n <> [] /\ ~ In slash n /\ n <> [dot] /\ n <> [dot; dot].
Inductive well_named : tree -> Prop :=
| wn t : NoDup (map child_name (kids t)) ->
    (forall n, In (Leaf n) (kids t) -> plain n) ->
    (forall d t', In (Sub d t') (kids t) ->
       plain d /\ last d 0 <> cQuote /\ last d 0 <> backslash /\ well_named t') ->
    well_named t.

(** The filter as the user understands it. *)
Definition wanted (filters : list (list Z)) (n : list Z) : Prop :=
  filters = [] \/ exists f a b, In f filters /\ n = a ++ f ++ b.

(** [p] is a proper ancestor directory spelled as a prefix of path [s] up to a slash. *)
Definition ancestor (s p : list Z) : Prop := exists r, normal s = p ++ slash :: r.

(** What mkdir does to the set of existing directories: it succeeds when the parent
    exists (a path without a slash has the current directory as parent). *)
Definition parent (p a : list Z) : Prop := exists b, p = a ++ slash :: b /\ ~ In slash b.
Definition mkdir_ok (E : list Z -> Prop) (p : list Z) : Prop := forall a, parent p a -> E a.
Definition after_mkdir (E : list Z -> Prop) (p : list Z) : list Z -> Prop :=
  fun q => E q \/ (q = p /\ mkdir_ok E p).
Definition after_mkdirs (E : list Z -> Prop) (calls : list (list Z)) : list Z -> Prop :=
  fold_left after_mkdir calls E.
