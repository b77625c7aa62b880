(** Words of C45: matrices by entries, row vectors, rotations and quaternions, in exact real
    arithmetic. *)
From Coq Require Import Reals Floats.SpecFloat.
From Verif Require Import Base Float_Model Float_Proof Simd_Model Matrix_Model.
Local Open Scope R_scope.

Section Entries.
  Context {K : scalar}.
  (** component i of a vector and row i of a matrix, i = 0..3 *)
  Definition comp (a : vec K) (i : nat) : K := nth i [X a; Y a; Z_ a; W a] (W a).
  Definition row (m : matrix K) (i : nat) : vec K := nth i [r1 m; r2 m; r3 m; r4 m] (r4 m).
  Definition entry (m : matrix K) (i j : nat) : K := comp (row m i) j.
End Entries.

Notation vecR := (vec reals).
Notation matR := (matrix reals).
Notation VR := (@V reals).
Definition sum4 (f : nat -> R) : R := f 0%nat + f 1%nat + f 2%nat + f 3%nat.
Definition sum3 (f : nat -> R) : R := f 0%nat + f 1%nat + f 2%nat.

(** the first three rows end in 0 *)
Definition linear_rows (m : matR) : Prop := W (r1 m) = 0 /\ W (r2 m) = 0 /\ W (r3 m) = 0.
Definition affine (m : matR) : Prop := linear_rows m /\ W (r4 m) = 1.
Definition dot3 (a b : vecR) : R := X a * X b + Y a * Y b + Z_ a * Z_ b.
(** the first three rows are orthogonal *)
Definition orthogonal_rows (m : matR) : Prop :=
  dot3 (r1 m) (r2 m) = 0 /\ dot3 (r1 m) (r3 m) = 0 /\ dot3 (r2 m) (r3 m) = 0.
Definition det3 (m : matR) : R :=
  X (r1 m) * (Y (r2 m) * Z_ (r3 m) - Z_ (r2 m) * Y (r3 m)) -
  Y (r1 m) * (X (r2 m) * Z_ (r3 m) - Z_ (r2 m) * X (r3 m)) +
  Z_ (r1 m) * (X (r2 m) * Y (r3 m) - Y (r2 m) * X (r3 m)).
(** a proper rotation in the first three rows *)
Definition rotation (m : matR) : Prop :=
  linear_rows m /\ orthogonal_rows m /\
  dot3 (r1 m) (r1 m) = 1 /\ dot3 (r2 m) (r2 m) = 1 /\ dot3 (r3 m) (r3 m) = 1 /\ det3 m = 1.

(** quaternions (x, y, z, w), w the real part *)
Definition qmul (a b : vecR) : vecR :=
  VR (W a * X b + X a * W b + Y a * Z_ b - Z_ a * Y b)
    (W a * Y b - X a * Z_ b + Y a * W b + Z_ a * X b)
    (W a * Z_ b + X a * Y b - Y a * X b + Z_ a * W b)
    (W a * W b - X a * X b - Y a * Y b - Z_ a * Z_ b).
Definition qconj (a : vecR) : vecR := VR (- X a) (- Y a) (- Z_ a) (W a).
Definition qnorm2 (a : vecR) : R := X a * X a + Y a * Y a + Z_ a * Z_ a + W a * W a.
Definition unit_quat (a : vecR) : Prop := qnorm2 a = 1.
Definition opp (a : vecR) : vecR := VR (- X a) (- Y a) (- Z_ a) (- W a).
(** a point as a pure quaternion *)
Definition pure (p : vecR) : vecR := VR (X p) (Y p) (Z_ p) 0.

(** the two ways a matrix moves a point: as a row vector, p M, and with the rows as equations,
    M p; the fourth row is the translation in both *)
Definition move_row (m : matR) (p : vecR) : vecR :=
  let c j := X p * comp (r1 m) j + Y p * comp (r2 m) j + Z_ p * comp (r3 m) j + comp (r4 m) j in
  VR (c 0%nat) (c 1%nat) (c 2%nat) 1.
Definition move_column (m : matR) (p : vecR) : vecR :=
  VR (dot3 (r1 m) p + X (r4 m)) (dot3 (r2 m) p + Y (r4 m)) (dot3 (r3 m) p + Z_ (r4 m)) 1.
Definition diag (a b c : R) : matR := M (VR a 0 0 0) (VR 0 b 0 0) (VR 0 0 c 0) (VR 0 0 0 1).

(** *** Binary32 *)
Local Close Scope R_scope.
(** a float that is neither infinite nor NaN: read from a pattern whose exponent field is not 255 *)
Definition finite_single (x : f32) : Prop := exists w, finite w /\ x = of_bits w.
Definition is_0 (x : f32) : bool := match x with S754_zero _ => true | _ => false end.
(** equal, or both zeros *)
Definition same_single (x y : f32) : Prop := x = y \/ (is_0 x = true /\ is_0 y = true).
Definition finite_vec (v : vec singles) : Prop := finite_single (X v) /\ finite_single (Y v) /\ finite_single (Z_ v) /\ finite_single (W v).
Definition finite_matrix (m : matrix singles) : Prop := finite_vec (r1 m) /\ finite_vec (r2 m) /\ finite_vec (r3 m) /\ finite_vec (r4 m).
Definition same_vec (a b : vec singles) : Prop := same_single (X a) (X b) /\ same_single (Y a) (Y b) /\ same_single (Z_ a) (Z_ b) /\ same_single (W a) (W b).
Definition same_matrix (a b : matrix singles) : Prop := same_vec (r1 a) (r1 b) /\ same_vec (r2 a) (r2 b) /\ same_vec (r3 a) (r3 b) /\ same_vec (r4 a) (r4 b).
