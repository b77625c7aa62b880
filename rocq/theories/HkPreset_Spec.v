(** Vocabulary for C86: the Havok preset as a part of a document. *)
From Coq Require Import Strings.Ascii Strings.String.
From Verif Require Import Base Reflector_Model XmlRefl_Model FloatText_Spec.
Local Open Scope list_scope.

Definition spelled (s : string) : list Z := map (fun c => Z.of_nat (nat_of_ascii c)) (list_ascii_of_string s).
(** a string without NUL characters *)
Definition plain_string (s : list Z) : Prop := ~ In 0 s.
(** a text inside an element *)
Definition content (s : list Z) : list xml := match s with [] => [] | _ => [Txt s] end.
Definition preset (name scale matrix : list Z) (extensions : list (list Z)) : xml :=
  Elem (spelled "HavokPreset") [(spelled "name", name)]
    [ Elem (spelled "scale") [] (content scale);
      Elem (spelled "matrix") [] (content matrix);
      Elem (spelled "extensions") [] (map (fun e => Elem e [] []) extensions) ].

(** What a single precision element of the matrix adds to its text in the column with this letter: nothing if it is zero,
    the letter if it is not, with a minus if it is below zero; a nan is not below zero. *)
Inductive entry (letter : Z) : Z -> list Z -> Prop :=
| entry_zero neg : entry letter (pattern 24 8 neg 0 0) []
| entry_negative E M : fields 24 8 E M -> ~ (E = 0 /\ M = 0) -> ~ (E = 255 /\ M <> 0) -> entry letter (pattern 24 8 true E M) [45; letter]
| entry_positive E M : fields 24 8 E M -> ~ (E = 0 /\ M = 0) -> ~ (E = 255 /\ M <> 0) -> entry letter (pattern 24 8 false E M) [letter]
| entry_nan neg M : fields 24 8 255 M -> M <> 0 -> entry letter (pattern 24 8 neg 255 M) [letter].
(** a row, in the columns X, Y and Z *)
Inductive row_entries : list Z -> list Z -> Prop :=
| row_of x y z a b c : entry 88 x a -> entry 89 y b -> entry 90 z c -> row_entries [x; y; z] (a ++ b ++ c).
Inductive matrix_entries : list (list Z) -> list Z -> Prop :=
| matrix_of r s t a b c : row_entries r a -> row_entries s b -> row_entries t c -> matrix_entries [r; s; t] (a ++ b ++ c).
(** every row has exactly one element that is not zero: the matrix turns axes into axes *)
Definition turns_axes (m : list (list Z)) : Prop :=
  exists r s t a b c, m = [r; s; t] /\ row_entries r a /\ row_entries s b /\ row_entries t c /\
    (exists l, In l [88; 89; 90] /\ (a = [l] \/ a = [45; l])) /\ (exists l, In l [88; 89; 90] /\ (b = [l] \/ b = [45; l])) /\
    (exists l, In l [88; 89; 90] /\ (c = [l] \/ c = [45; l])).
(** the elements of two matrices compare alike with zero *)
Definition same_signs (m m' : list (list Z)) : Prop :=
  Forall2 (Forall2 (fun x y => forall s, entry 88 x s <-> entry 88 y s)) m m'.
