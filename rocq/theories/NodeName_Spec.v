(** C76: what a suffix says. *)
From Coq Require Import Sorting.Sorted Permutation.
From Verif Require Import Base NodeName_Model Reflector_Model.

(** the channel numbers added by a history: every AddChannel, a 0 with the first color, a -2 with every full color *)
Definition added (h : list scall) : list Z := flat_map (fun c => match c with AddChannel id => [id] | _ => [] end) h.
Definition is_color (c : scall) : bool := match c with AddColor | AddFullColor => true | _ => false end.
Definition full_colors (h : list scall) : nat := length (filter (fun c => match c with AddFullColor => true | _ => false end) h).
Definition numbers (h : list scall) : list Z := added h ++ (if existsb is_color h then [0] else []) ++ repeat (-2) (full_colors h).
Definition used (c : scall) (h : list scall) : Prop := In c h.

(** text = [, U and the numbers in ascending order if there are any, N if normals, S if skin, M if morph, ] *)
Definition suffix_of (h : list scall) (t : list Z) : Prop :=
  exists ns n s m, Permutation ns (numbers h) /\ Sorted Z.le ns /\
    (n = [78] /\ used UseNormals h \/ n = [] /\ ~ used UseNormals h) /\
    (s = [83] /\ used UseSkin h \/ s = [] /\ ~ used UseSkin h) /\
    (m = [77] /\ used UseMorph h \/ m = [] /\ ~ used UseMorph h) /\
    t = [91] ++ (match ns with [] => [] | _ => 85 :: concat (map to_string ns) end) ++ n ++ s ++ m ++ [93].

(** a matrix that sends axes to axes: every row has one element that is not zero *)
Definition axis_row (r : row) : Prop := exists s, s <> Nul /\ (r = (s, Nul, Nul) \/ r = (Nul, s, Nul) \/ r = (Nul, Nul, s)).
Definition axis_matrix (m : row * row * row) : Prop := let '(a, b, c) := m in axis_row a /\ axis_row b /\ axis_row c.
