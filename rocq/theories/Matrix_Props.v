(** C45: esMatrix44, datas/matrix44.cpp.  [matR] is the matrix over the reals, [entry m i j] its
    number in row i, column j (Matrix_Spec.v). *)
From Coq Require Import Reals Lra Psatz Nsatz Floats.SpecFloat.
From Verif Require Import Base Float_Model Float_Proof Simd_Model Matrix_Model Matrix_Spec Matrix_Proof Matrix_Float_Proof.
Local Open Scope R_scope.

Ltac upto4 i := destruct i as [|[|[|[|i]]]]; [| | | |exfalso; lia].

(** *** Products *)
(** Every entry of a product is the sum of row times column. *)
Theorem C45_product_entries : forall (a b : matR) i j, (i < 4)%nat -> (j < 4)%nat ->
  entry (mmul a b) i j = sum4 (fun k => entry a i k * entry b k j).
Proof.
  intros a b i j Hi Hj. open_all. upto4 i; upto4 j; unfold sum4; cbn; inR; ring.
Qed.
Print Assumptions C45_product_entries.
Theorem C45_product_associative : forall a b c : matR, mmul (mmul a b) c = mmul a (mmul b c).
Proof. intros. open_all. entries; ring. Qed.
Print Assumptions C45_product_associative.
Theorem C45_identity_unit : forall m : matR, mmul m Identity = m /\ mmul Identity m = m.
Proof. intros. open_all. split; entries; ring. Qed.
Print Assumptions C45_identity_unit.
(** In single precision the identity is still a unit for finite entries (up to the sign of zero)... *)
Theorem C45_identity_unit_single : forall m : matrix singles, finite_matrix m ->
  same_matrix (mmul m Identity) m /\ same_matrix (mmul Identity m) m.
Proof. intros m H. split; [now apply identity_right|now apply identity_left]. Qed.
Print Assumptions C45_identity_unit_single.
Example C45_single_case : let one := of_bits 0x3f800000 in let m : matrix singles :=
  M (V (K:=singles) one (of_bits 0x80000000) (of_bits 1) (of_bits 0x7f7fffff)) (V (K:=singles) one one one one) (V (K:=singles) one one one one) (V (K:=singles) one one one one) in
  finite_matrix m /\ X (r1 (mmul m Identity)) = one /\ Y (r1 (mmul m Identity)) = S754_zero false /\ Z_ (r1 (mmul m Identity)) = of_bits 1 /\
  W (r1 (mmul m Identity)) = of_bits 0x7f7fffff.
Proof.
  cbv zeta. split; [|repeat split; vm_compute; reflexivity].
  repeat split; (eexists; split; [|reflexivity]; split; [lia|vm_compute; discriminate]).
Qed.
(** ... and is not one when an entry is infinite. *)
Theorem C45_identity_not_unit_infinite : exists m : matrix singles,
  X (r1 m) = S754_infinity false /\ Y (r1 m) = S754_zero false /\ Y (r1 (mmul m Identity)) = S754_nan.
Proof.
  exists (M (V (K:=singles) (S754_infinity false) (S754_zero false) (S754_zero false) (S754_zero false)) (r2 Identity) (r3 Identity) (r4 Identity)).
  repeat split; vm_compute; reflexivity.
Qed.
Print Assumptions C45_identity_not_unit_infinite.

(** *** Transposes: for every kind of number *)
Theorem C45_full_transpose_entries : forall (K : scalar) (m : matrix K) i j, (i < 4)%nat -> (j < 4)%nat ->
  entry (TransposeFull m) i j = entry m j i.
Proof. intros K m i j Hi Hj. upto4 i; upto4 j; reflexivity. Qed.
Print Assumptions C45_full_transpose_entries.
Theorem C45_full_transpose_involution : forall (K : scalar) (m : matrix K), TransposeFull (TransposeFull m) = m.
Proof. intros K m. destruct m as [[] [] [] []]. reflexivity. Qed.
Print Assumptions C45_full_transpose_involution.
Theorem C45_full_transpose_product : forall a b : matR, TransposeFull (mmul a b) = mmul (TransposeFull b) (TransposeFull a).
Proof. intros. open_all. entries; ring. Qed.
Print Assumptions C45_full_transpose_product.
(** Transpose swaps the 3x3 part, keeps the fourth row, and copies the third row's last number
    into the first two rows. *)
Theorem C45_transpose_entries : forall (K : scalar) (m : matrix K),
  (forall i j, (i < 3)%nat -> (j < 3)%nat -> entry (Transpose m) i j = entry m j i) /\
  (forall i, (i < 3)%nat -> entry (Transpose m) i 3 = entry m 2 3) /\
  (forall j, (j < 4)%nat -> entry (Transpose m) 3 j = entry m 3 j).
Proof.
  intros K m. split; [|split].
  - intros i j Hi Hj. destruct i as [|[|[|i]]]; [| | |lia]; (destruct j as [|[|[|j]]]; [| | |lia]); reflexivity.
  - intros i Hi. destruct i as [|[|[|i]]]; [| | |lia]; reflexivity.
  - intros j Hj. upto4 j; reflexivity.
Qed.
Print Assumptions C45_transpose_entries.
(** Twice restores the matrix exactly when the three rows end in the same number. *)
Theorem C45_transpose_involution : forall (K : scalar) (m : matrix K),
  Transpose (Transpose m) = m <-> entry m 0 3 = entry m 2 3 /\ entry m 1 3 = entry m 2 3.
Proof.
  intros K m. destruct m as [[a b c d] [e f g h] [i j k l] r]. cbn. split.
  - intros E. split; [exact (eq_sym (f_equal (fun m => W (r1 m)) E))|exact (eq_sym (f_equal (fun m => W (r2 m)) E))].
  - now intros [-> ->].
Qed.
Print Assumptions C45_transpose_involution.

(** *** RotatePoint *)
(** The point as a row times the 3x3 part; the translation is left out, the last lane of the point
    meets the third row's last number in every component, and the result's last lane is 1. *)
Theorem C45_rotate_entries : forall (m : matR) (p : vecR),
  (forall j, (j < 3)%nat -> comp (RotatePoint m p) j = sum3 (fun k => comp p k * entry m k j) + W p * W (r3 m)) /\
  W (RotatePoint m p) = 1.
Proof.
  intros m p. open_all. split; [|reflexivity]. intros j Hj. destruct j as [|[|[|j]]]; [| | |lia]; unfold sum3; cbn; inR; ring.
Qed.
Print Assumptions C45_rotate_entries.
(** Applying a product is applying the factors in order. *)
Theorem C45_rotate_product : forall (a b : matR) (p : vecR), linear_rows a -> linear_rows b ->
  RotatePoint (mmul a b) p = RotatePoint b (RotatePoint a p).
Proof.
  intros a b p (A1 & A2 & A3) (B1 & B2 & B3). open_all. cbn in *. subst. apply vec_eq; cbn; inR; ring.
Qed.
Print Assumptions C45_rotate_product.
(** Not so when the third row's last number is set. *)
Theorem C45_rotate_product_needs_zero_lanes : exists (a : matR) (p : vecR), W (r1 a) = 0 /\ W (r2 a) = 0 /\
  RotatePoint (mmul a Identity) p = RotatePoint a p /\ RotatePoint (mmul Identity a) p <> RotatePoint a (RotatePoint Identity p).
Proof.
  exists (M (VR 1 0 0 0) (VR 0 1 0 0) (VR 0 0 1 1) (VR 0 0 0 1)), (VR 0 0 0 0). repeat split.
  - lanes; ring.
  - intros E. apply (f_equal (@X reals)) in E. cbn in E. lra.
Qed.
Print Assumptions C45_rotate_product_needs_zero_lanes.
(** A rotation keeps dot products, so lengths and angles. *)
Theorem C45_rotate_isometry : forall (m : matR) (p q : vecR), rotation m ->
  dot3 (RotatePoint m p) (RotatePoint m q) = dot3 p q.
Proof.
  intros [[a b c j] [d e f k] [g h i l] r] [x y z w] [x' y' z' w'] (L & O & N1 & N2 & N3 & _).
  change R in a, b, c, d, e, f, g, h, i, j, k, l, x, y, z, w, x', y', z', w'.
  unfold orthogonal_rows, linear_rows, dot3 in *. cbn in *. destruct L as (-> & -> & ->). destruct O as (O1 & O2 & O3).
  transitivity (x * x' * (a * a + b * b + c * c) + y * y' * (d * d + e * e + f * f) + z * z' * (g * g + h * h + i * i) +
    (x * y' + y * x') * (a * d + b * e + c * f) + (x * z' + z * x') * (a * g + b * h + c * i) + (y * z' + z * y') * (d * g + e * h + f * i)); [ring|].
  rewrite N1, N2, N3, O1, O2, O3. ring.
Qed.
Print Assumptions C45_rotate_isometry.

(** *** Quaternions *)
(** The matrix of a unit quaternion is a rotation, whatever matrix it is written into; the fourth
    row is kept. *)
Theorem C45_quaternion_rotation : forall (m : matR) q, unit_quat q -> rotation (FromQuat m q) /\ r4 (FromQuat m q) = r4 m.
Proof. intros m q U. split; [now apply FromQuat_rotation|reflexivity]. Qed.
Print Assumptions C45_quaternion_rotation.
(** The matrix of a product of quaternions is the product of the matrices. *)
Theorem C45_quaternion_product : forall a b : vecR, unit_quat a -> unit_quat b ->
  of_quat (qmul a b) = mmul (of_quat a) (of_quat b).
Proof. intros a b. unfold unit_quat, qnorm2. intros. open_all. entries; cbn in *; try ring; nsatz. Qed.
Print Assumptions C45_quaternion_product.
(** RotatePoint with the matrix of q turns a point by the conjugate of q: it computes conj(q) p q. *)
Theorem C45_quaternion_rotates : forall q p : vecR, unit_quat q ->
  pure (RotatePoint (of_quat q) p) = qmul (qmul (qconj q) (pure p)) q.
Proof. intros q p. unfold unit_quat, qnorm2. intros. open_all. lanes; cbn in *; try ring; nsatz. Qed.
Print Assumptions C45_quaternion_rotates.
(** The conjugate gives the transposed matrix, the opposite quaternion the same one. *)
Theorem C45_quaternion_conjugate : forall q : vecR,
  of_quat (QConjugate q) = Transpose (of_quat q) /\ of_quat (opp q) = of_quat q /\ QConjugate q = qconj q.
Proof. intros q. open_all. repeat split; [entries|entries|lanes]; try reflexivity; ring. Qed.
Print Assumptions C45_quaternion_conjugate.
(** Reading the quaternion back gives it up to its sign, in all four branches... *)
Theorem C45_quaternion_readback : forall (m : matR) q, unit_quat q ->
  ToQuat (FromQuat m q) = q \/ ToQuat (FromQuat m q) = opp q.
Proof.
  intros m q U. destruct (ToQuat_FromQuat m q U) as (s & Hs & E). rewrite E. destruct q as [x y z w]. change R in x, y, z, w.
  destruct Hs as [-> | ->]; [left|right]; lanes; ring.
Qed.
Print Assumptions C45_quaternion_readback.
(** ... and every rotation matrix is reproduced from the quaternion read from it. *)
Theorem C45_matrix_readback : forall m : matR, rotation m -> FromQuat m (ToQuat m) = m.
Proof. exact FromQuat_ToQuat. Qed.
Print Assumptions C45_matrix_readback.
Example C45_unit_case : unit_quat (VR (1/2) (-1/2) (1/2) (1/2)) /\
  rotation (M (VR 0 (-1) 0 0) (VR 0 0 (-1) 0) (VR 1 0 0 0) (VR 7 8 9 1)).
Proof.
  split; unfold unit_quat, qnorm2, rotation, linear_rows, orthogonal_rows, dot3, det3; cbn; repeat split; lra.
Qed.

(** *** Compose and Decompose *)
(** Composing what Decompose returns gives the matrix back, for orthogonal rows of any non-zero
    lengths and either handedness. *)
Theorem C45_compose_decompose : forall (m m' : matR) s0, linear_rows m -> orthogonal_rows m ->
  dot3 (r1 m) (r1 m) <> 0 -> dot3 (r2 m) (r2 m) <> 0 -> dot3 (r3 m) (r3 m) <> 0 ->
  let '(p, q, s) := Decompose m s0 in Compose m' p q s = m.
Proof. exact Compose_Decompose. Qed.
Print Assumptions C45_compose_decompose.
(** Decomposing a composed matrix gives the parts back (the quaternion up to sign) when the three
    scales have the same sign; the fourth lane of scale is what the caller had there, negated for a
    mirroring scale. *)
Theorem C45_decompose_compose : forall (m : matR) (p q s s0 : vecR), unit_quat q ->
  (0 < X s /\ 0 < Y s /\ 0 < Z_ s) \/ (X s < 0 /\ Y s < 0 /\ Z_ s < 0) ->
  exists q', (q' = q \/ q' = opp q) /\
    Decompose (Compose m p q s) s0 = (p, q', VR (X s) (Y s) (Z_ s) (if Rlt_dec (X s) 0 then - W s0 else W s0)).
Proof. exact Decompose_Compose. Qed.
Print Assumptions C45_decompose_compose.
(** With mixed signs the scales cannot come back: the three returned ones always have one sign. *)
Theorem C45_decompose_one_sign : forall (m : matR) s0, let '(p, q, s) := Decompose m s0 in
  p = r4 m /\ ((0 <= X s /\ 0 <= Y s /\ 0 <= Z_ s) \/ (X s <= 0 /\ Y s <= 0 /\ Z_ s <= 0)).
Proof.
  intros m s0. unfold Decompose. cbv zeta. split; [reflexivity|].
  assert (P : forall v : vecR, 0 <= Length v) by (intros v; apply sqrt_pos).
  pose proof (P (r1 m)). pose proof (P (r2 m)). pose proof (P (r3 m)).
  destruct (s_lt _ _); [right|left]; unfold vmuls, vmul, map2, all4; cbn [X Y Z_ W s_mul s_int reals]; repeat split; try assumption; lra.
Qed.
Print Assumptions C45_decompose_one_sign.
Example C45_decompose_case : linear_rows (diag 2 (-3) 4) /\ orthogonal_rows (diag 2 (-3) 4) /\ dot3 (r2 (diag 2 (-3) 4)) (r2 (diag 2 (-3) 4)) <> 0.
Proof. unfold linear_rows, orthogonal_rows, dot3, diag; cbn; repeat split; try intros H; lra. Qed.

(** *** operator-() *)
Definition long_enough (m : matR) : Prop :=
  / 1000000 <= dot3 (r1 m) (r1 m) /\ / 1000000 <= dot3 (r2 m) (r2 m) /\ / 1000000 <= dot3 (r3 m) (r3 m).
Lemma open_affine (m : matR) : affine m -> exists a b c d e f g h i x y z,
  m = M (VR a b c 0) (VR d e f 0) (VR g h i 0) (VR x y z 1).
Proof.
  destruct m as [[a b c j] [d e f k] [g h i l] [x y z w]]. unfold affine, linear_rows. cbn. intros ((-> & -> & ->) & ->).
  now exists a, b, c, d, e, f, g, h, i, x, y, z.
Qed.
(** Reading rows as equations (M p + t), the negated matrix undoes the matrix, both ways. *)
Theorem C45_inverse_columns : forall (m : matR) (p : vecR), affine m -> orthogonal_rows m -> long_enough m -> W p = 1 ->
  move_column (Inverse m) (move_column m p) = p /\ move_column m (move_column (Inverse m) p) = p.
Proof.
  intros m p A O L Hp. destruct (open_affine m A) as (a & b & c & d & e & f & g & h & i & x & y & z & ->).
  unfold orthogonal_rows, long_enough, dot3 in *. cbn [r1 r2 r3 X Y Z_] in *. destruct L as (L1 & L2 & L3). destruct O as (O1 & O2 & O3).
  rewrite Inverse_rows by (assumption || reflexivity).
  assert (P0 : 0 < / 1000000) by lra.
  destruct (weighted_columns a b c d e f g h i _ _ _ eq_refl eq_refl eq_refl ltac:(lra) ltac:(lra) ltac:(lra) O1 O2 O3) as ((K1 & K2 & K3) & K4 & K5 & K6).
  set (u := a * a + b * b + c * c) in *. set (v := d * d + e * e + f * f) in *. set (w := g * g + h * h + i * i) in *.
  destruct p as [px py pz pw]. change R in px, py, pz, pw. cbn in Hp. subst pw.
  unfold Rdiv in *. set (iu := / u) in *. set (iv := / v) in *. set (iw := / w) in *.
  assert (Iu : u * iu = 1) by (unfold iu; apply Rinv_r; lra). assert (Iv : v * iv = 1) by (unfold iv; apply Rinv_r; lra). assert (Iw : w * iw = 1) by (unfold iw; apply Rinv_r; lra).
  clearbody iu iv iw. unfold u, v, w in Iu, Iv, Iw. clear L1 L2 L3. clear u v w.
  split; unfold move_column, dot3; lanes; try reflexivity.
  - transitivity (px * (a * a * iu + d * d * iv + g * g * iw) + py * (a * b * iu + d * e * iv + g * h * iw) + pz * (a * c * iu + d * f * iv + g * i * iw)); [ring|rewrite K1, K4, K5; ring].
  - transitivity (px * (a * b * iu + d * e * iv + g * h * iw) + py * (b * b * iu + e * e * iv + h * h * iw) + pz * (b * c * iu + e * f * iv + h * i * iw)); [ring|rewrite K2, K4, K6; ring].
  - transitivity (px * (a * c * iu + d * f * iv + g * i * iw) + py * (b * c * iu + e * f * iv + h * i * iw) + pz * (c * c * iu + f * f * iv + i * i * iw)); [ring|rewrite K3, K5, K6; ring].
  - transitivity ((px - x) * ((a * a + b * b + c * c) * iu) + (py - y) * iv * (a * d + b * e + c * f) + (pz - z) * iw * (a * g + b * h + c * i) + x); [ring|rewrite Iu, O1, O2; ring].
  - transitivity ((px - x) * iu * (a * d + b * e + c * f) + (py - y) * ((d * d + e * e + f * f) * iv) + (pz - z) * iw * (d * g + e * h + f * i) + y); [ring|rewrite Iv, O1, O3; ring].
  - transitivity ((px - x) * iu * (a * g + b * h + c * i) + (py - y) * iv * (d * g + e * h + f * i) + (pz - z) * ((g * g + h * h + i * i) * iw) + z); [ring|rewrite Iw, O2, O3; ring].
Qed.
Print Assumptions C45_inverse_columns.

(** As the inverse for operator*, it is right without a translation... *)
Theorem C45_inverse_product : forall m : matR, affine m -> orthogonal_rows m -> long_enough m ->
  X (r4 m) = 0 -> Y (r4 m) = 0 -> Z_ (r4 m) = 0 -> mmul m (Inverse m) = Identity /\ mmul (Inverse m) m = Identity.
Proof.
  intros m A O L T1 T2 T3. destruct (open_affine m A) as (a & b & c & d & e & f & g & h & i & x & y & z & ->).
  cbn in T1, T2, T3. subst x y z.
  unfold orthogonal_rows, long_enough, dot3 in *. cbn [r1 r2 r3 X Y Z_] in *. destruct L as (L1 & L2 & L3). destruct O as (O1 & O2 & O3).
  rewrite Inverse_rows by (assumption || reflexivity).
  assert (P0 : 0 < / 1000000) by lra.
  destruct (weighted_columns a b c d e f g h i _ _ _ eq_refl eq_refl eq_refl ltac:(lra) ltac:(lra) ltac:(lra) O1 O2 O3) as ((K1 & K2 & K3) & K4 & K5 & K6).
  set (u := a * a + b * b + c * c) in *. set (v := d * d + e * e + f * f) in *. set (w := g * g + h * h + i * i) in *.
  unfold Rdiv in *. set (iu := / u) in *. set (iv := / v) in *. set (iw := / w) in *.
  assert (Iu : u * iu = 1) by (unfold iu; apply Rinv_r; lra). assert (Iv : v * iv = 1) by (unfold iv; apply Rinv_r; lra). assert (Iw : w * iw = 1) by (unfold iw; apply Rinv_r; lra).
  clearbody iu iv iw. unfold u, v, w in Iu, Iv, Iw. clear L1 L2 L3. clear u v w.
  split; entries; try lra.
  - transitivity (iv * (a * d + b * e + c * f)); [ring|rewrite O1; ring].
  - transitivity (iw * (a * g + b * h + c * i)); [ring|rewrite O2; ring].
  - transitivity (iu * (a * d + b * e + c * f)); [ring|rewrite O1; ring].
  - transitivity (iw * (d * g + e * h + f * i)); [ring|rewrite O3; ring].
  - transitivity (iu * (a * g + b * h + c * i)); [ring|rewrite O2; ring].
  - transitivity (iv * (d * g + e * h + f * i)); [ring|rewrite O3; ring].
Qed.
Print Assumptions C45_inverse_product.

(** ... and for a rotation with a translation exactly when turning the translation by the rotation
    and by its transpose is the same. *)
Theorem C45_inverse_product_iff : forall m : matR, rotation m -> W (r4 m) = 1 ->
  (mmul m (Inverse m) = Identity <->
   forall j, (j < 3)%nat -> dot3 (row m j) (r4 m) = sum3 (fun k => comp (r4 m) k * entry m k j)).
Proof.
  intros m (L & O & N1 & N2 & N3 & D) Ht.
  destruct (open_affine m (conj L Ht)) as (a & b & c & d & e & f & g & h & i & x & y & z & ->).
  unfold orthogonal_rows, dot3, det3 in *. cbn [r1 r2 r3 r4 X Y Z_ W] in *. destruct O as (O1 & O2 & O3).
  rewrite Inverse_rows by (reflexivity || lra). rewrite N1, N2, N3.
  destruct (columns_orthonormal a b c d e f g h i N1 N2 N3 O1 O2 O3 D) as ((K1 & K2 & K3) & K4 & K5 & K6).
  unfold sum3. split.
  - intros E j Hj.
    pose proof (f_equal (fun m => X (r4 m)) E) as E1. pose proof (f_equal (fun m => Y (r4 m)) E) as E2. pose proof (f_equal (fun m => Z_ (r4 m)) E) as E3.
    cbn in E1, E2, E3. clear E. destruct j as [|[|[|j]]]; [| | |lia]; cbn; lra.
  - intros H. pose proof (H 0%nat ltac:(lia)) as H1. pose proof (H 1%nat ltac:(lia)) as H2. pose proof (H 2%nat ltac:(lia)) as H3. clear H.
    cbn in H1, H2, H3. entries; lra.
Qed.
Print Assumptions C45_inverse_product_iff.
(** A quarter turn with a translation: m * -m is not the identity. *)
Theorem C45_inverse_translation_wrong : exists m : matR, rotation m /\ affine m /\ long_enough m /\ mmul m (Inverse m) <> Identity.
Proof.
  exists (M (VR 0 1 0 0) (VR (-1) 0 0 0) (VR 0 0 1 0) (VR 1 0 0 1)).
  assert (Rt : rotation (M (VR 0 1 0 0) (VR (-1) 0 0 0) (VR 0 0 1 0) (VR 1 0 0 1))) by (unfold rotation, linear_rows, orthogonal_rows, dot3, det3; cbn; repeat split; lra).
  repeat split; try exact (proj1 Rt); try apply Rt; try (unfold long_enough, dot3; cbn; lra).
  intros E. pose proof (proj1 (C45_inverse_product_iff _ Rt eq_refl) E 1%nat ltac:(lia)) as H. unfold dot3, sum3 in H. cbn in H. lra.
Qed.
Print Assumptions C45_inverse_translation_wrong.
(** A row shorter than 1/1000 is left undivided, so the product with a shrinking matrix is not the
    identity. *)
Theorem C45_inverse_small_wrong : forall s : R, 0 < s < / 1000 -> mmul (diag s 1 1) (Inverse (diag s 1 1)) <> Identity.
Proof.
  intros s Hs E. apply (f_equal (fun m => X (r1 m))) in E. unfold Inverse, diag in E. cbv zeta in E. cbn in E.
  destruct (Rlt_dec (s * s + 0 * 0 + 0 * 0) (1 / 1000000)) as [H|H].
  - assert (s * s < / 1000 * / 1000) by nra. 
    replace (s * (s * (1 / (1 + 0))) + 0 * (0 * (1 / (1 + 0))) + (0 * (0 * (1 / (1 + 0))) + 0 * 0)) with (s * s) in E by field. lra.
  - apply H. nra.
Qed.
Print Assumptions C45_inverse_small_wrong.
Example C45_inverse_case : affine (diag 2 3 4) /\ orthogonal_rows (diag 2 3 4) /\ long_enough (diag 2 3 4).
Proof. unfold affine, linear_rows, orthogonal_rows, long_enough, dot3, diag; cbn; repeat split; lra. Qed.
