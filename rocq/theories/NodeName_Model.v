(** Model of MAXex/NodeSuffix.h (INodeSuffixer) and GetCorrectionMatrix of MAXex/hk_preset.hpp. *)
From Verif Require Import Base Reflector_Model.

(** NodeSuffix.h:8-13 *)
Record suffixer := mkSuffixer { channels : list Z; skin : bool; morph : bool; normals : bool; color : bool }.
Definition new_suffixer : suffixer := mkSuffixer [] false false false false.
Inductive scall := AddChannel (id : Z) | AddColor | AddFullColor | UseNormals | UseSkin | UseMorph | Generated.
Definition push (c : Z) (s : suffixer) : suffixer := mkSuffixer (channels s ++ [c]) (skin s) (morph s) (normals s) (color s).
Definition with_color (s : suffixer) : suffixer := mkSuffixer (channels s) (skin s) (morph s) (normals s) true.
(** std::sort *)
Fixpoint insert_sorted (x : Z) (l : list Z) : list Z :=
  match l with [] => [x] | y :: r => if x <=? y then x :: l else y :: insert_sorted x r end.
Fixpoint sort (l : list Z) : list Z := match l with [] => [] | x :: r => insert_sorted x (sort r) end.
(** NodeSuffix.h:14-34; [Generated] is the effect Generate has on the object: its numbers are sorted in place *)
Definition do_scall (c : scall) (s : suffixer) : suffixer :=
  match c with
  | AddChannel id => push id s
  | AddColor => if color s then s else with_color (push 0 s)
  | AddFullColor => with_color (push (-2) (if color s then s else push 0 s))
  | UseNormals => mkSuffixer (channels s) (skin s) (morph s) true (color s)
  | UseSkin => mkSuffixer (channels s) true (morph s) (normals s) (color s)
  | UseMorph => mkSuffixer (channels s) (skin s) true (normals s) (color s)
  | Generated => mkSuffixer (sort (channels s)) (skin s) (morph s) (normals s) (color s)
  end.
(** NodeSuffix.h:36-72.  Characters: ( 40, ) 41, [ 91, ] 93, U 85, N 78, S 83, M 77 *)
Definition Generate (className : option (list Z)) (s : suffixer) : list Z :=
  (match className with Some n => [40] ++ n | None => [] end) ++ [91] ++
  (match channels s with [] => [] | _ => [85] ++ flat_map to_string (sort (channels s)) end) ++
  (if normals s then [78] else []) ++ (if skin s then [83] else []) ++ (if morph s then [77] else []) ++ [93] ++
  (match className with Some _ => [41] | None => [] end).

(** hk_preset.hpp:21-38.  Of a number only its comparison with zero matters (a NaN is not equal to and not below zero: [Pos]). *)
Inductive sgn3 := Neg | Nul | Pos.
Definition row := (sgn3 * sgn3 * sgn3)%type.
Definition element (v : sgn3) (letter : Z) : list Z := match v with Nul => [] | Neg => [45; letter] | Pos => [letter] end.
Definition row_text (r : row) : list Z := let '(a, b, c) := r in element a 88 ++ element b 89 ++ element c 90.
Definition GetCorrectionMatrix (m : row * row * row) : list Z :=
  let '(a, b, c) := m in row_text a ++ row_text b ++ row_text c.
