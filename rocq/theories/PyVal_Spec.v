(** C89: what the values and objects of the Python bindings should be. *)
From Verif Require Import Base PyVal_Model.

(** Rows of four *)
Fixpoint rows {A} (n : nat) (l : list A) : list (list A) :=
  match n with O => [] | S n => firstn 4 l :: rows n (skipn 4 l) end.
(** The shape of a value: one float, a tuple of four floats, or a tuple of n tuples of four floats *)
Inductive shape := Scalar | Vector | Rows (n : nat).
Definition size (s : shape) : nat := match s with Scalar => 1 | Vector => 4 | Rows n => 4 * n end.
Inductive shaped {D} : shape -> list D -> pyval D -> Prop :=
| shaped_scalar x : shaped Scalar [x] (PFloat x)
| shaped_vector l : length l = 4%nat -> shaped Vector l (PTuple (map PFloat l))
| shaped_rows n l : length l = (4 * n)%nat -> shaped (Rows n) l (PTuple (map (fun r => PTuple (map PFloat r)) (rows n l))).

(** Position, Rotation, Scale: a vector; Matrix: four rows; PositionRotationScale: three rows; SingleFloat: a float *)
Inductive gives : Z -> shape -> Prop :=
| gives_position : gives 0 Vector
| gives_rotation : gives 1 Vector
| gives_scale : gives 2 Vector
| gives_matrix : gives 3 (Rows 4)
| gives_all : gives 4 (Rows 3)
| gives_single : gives 5 Scalar.
Inductive overrides {F} (t : track F) : shape -> option (F -> assigned F) -> Prop :=
| over_vector : overrides t Vector (value_vector F t)
| over_matrix : overrides t (Rows 4) (value_matrix F t)
| over_rts : overrides t (Rows 3) (value_rts F t)
| over_float : overrides t Scalar (value_float F t).

(** What a component is when nothing was ever assigned to it: zero; the unit rotation; the scale 1, 1, 1, 0; the identity;
    anything for a single float *)
Inductive initial {F} (zero one garbage : F) : shape -> nat -> F -> Prop :=
| init_vector c : (c < 4)%nat -> initial zero one garbage Vector c zero
| init_position c : (c < 4)%nat -> initial zero one garbage (Rows 3) c zero
| init_rotation c : (4 <= c < 7)%nat -> initial zero one garbage (Rows 3) c zero
| init_rotation_w : initial zero one garbage (Rows 3) 7 one
| init_scale c : (8 <= c < 11)%nat -> initial zero one garbage (Rows 3) c one
| init_scale_w : initial zero one garbage (Rows 3) 11 zero
| init_matrix r c : (r < 4)%nat -> (c < 4)%nat -> initial zero one garbage (Rows 4) (4 * r + c) (if Nat.eqb r c then one else zero)
| init_single : initial zero one garbage Scalar 0 garbage.

(** [latest get ts c d x]: component c was last assigned x among the times ts, or never and x is d *)
Definition latest {F} (get : F -> assigned F) (ts : list F) (c : nat) (d x : F) : Prop :=
  (exists before t after, ts = before ++ t :: after /\ nth_error (get t) c = Some (Some x) /\
     forall u, In u after -> forall y, nth_error (get u) c <> Some (Some y)) \/
  (x = d /\ forall u, In u ts -> forall y, nth_error (get u) c <> Some (Some y)).

(** Python's references to object i after a history *)
Fixpoint created (ps : list op) : nat :=
  match ps with [] => 0 | Root :: r | Child _ _ :: r => S (created r) | _ :: r => created r end.
Fixpoint balance (ps : list op) (i : nat) : Z :=
  match ps with
  | [] => 0
  | Hold j :: r => (if Nat.eqb i j then 1 else 0) + balance r i
  | Drop j :: r => (if Nat.eqb i j then -1 else 0) + balance r i
  | _ :: r => balance r i
  end.
Definition references (ps : list op) (i : nat) : Z := (if (i <? created ps)%nat then 1 else 0) + balance ps i.
(** A history Python can produce: only objects that exist and are held are named *)
Definition legal (ps : list op) : Prop :=
  forall before p after i, ps = before ++ p :: after ->
    (p = Hold i \/ p = Drop i \/ p = Use i \/ exists own, p = Child i own) -> (i < created before)%nat /\ 0 < references before i.
(** [origin ps i j]: object j is the one whose Element deletes what object i points into *)
Inductive origin (ps : list op) : nat -> nat -> Prop :=
| origin_root before after : ps = before ++ Root :: after -> origin ps (created before) (created before)
| origin_own before k after : ps = before ++ Child k true :: after -> origin ps (created before) (created before)
| origin_part before k after j : ps = before ++ Child k false :: after -> origin ps k j -> origin ps (created before) j.
