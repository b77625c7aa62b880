(** Lemmas for C45. *)
From Coq Require Import Reals Lra Psatz Nsatz.
From Verif Require Import Base Simd_Model Matrix_Model Matrix_Spec.
Local Open Scope R_scope.

Lemma vec_eq (K : scalar) (a b : vec K) : X a = X b -> Y a = Y b -> Z_ a = Z_ b -> W a = W b -> a = b.
Proof. destruct a, b; cbn; intros; subst; reflexivity. Qed.
Lemma mat_eq (K : scalar) (a b : matrix K) : r1 a = r1 b -> r2 a = r2 b -> r3 a = r3 b -> r4 a = r4 b -> a = b.
Proof. destruct a, b; cbn; intros; subst; reflexivity. Qed.
Ltac open_all :=
  repeat match goal with
  | m : matrix _ |- _ => destruct m
  | v : vec _ |- _ => destruct v
  end; repeat match goal with x : car reals |- _ => change R in x end.
Ltac inR := lazymatch goal with |- @eq _ ?a ?b => change (@eq R a b) end.
Ltac lanes := apply vec_eq; cbn; inR.
Ltac entries := apply mat_eq; lanes.

(** *** A matrix row by row *)
Lemma FromQuat_rows (m : matR) x y z w :
  FromQuat m (VR x y z w) =
  M (VR (1 - 2 * (y * y + z * z)) (2 * (x * y - z * w)) (2 * (x * z + y * w)) 0)
    (VR (2 * (x * y + z * w)) (1 - 2 * (x * x + z * z)) (2 * (y * z - x * w)) 0)
    (VR (2 * (x * z - y * w)) (2 * (y * z + x * w)) (1 - 2 * (x * x + y * y)) 0) (r4 m).
Proof. entries; first [reflexivity | ring]. Qed.

Lemma FromQuat_rows2 (m : matR) (q : vecR) :
  FromQuat m q =
  M (VR (1 - 2 * (Y q * Y q + Z_ q * Z_ q)) (2 * (X q * Y q - Z_ q * W q)) (2 * (X q * Z_ q + Y q * W q)) 0)
    (VR (2 * (X q * Y q + Z_ q * W q)) (1 - 2 * (X q * X q + Z_ q * Z_ q)) (2 * (Y q * Z_ q - X q * W q)) 0)
    (VR (2 * (X q * Z_ q - Y q * W q)) (2 * (Y q * Z_ q + X q * W q)) (1 - 2 * (X q * X q + Y q * Y q)) 0) (r4 m).
Proof. destruct q as [x y z w]. apply FromQuat_rows. Qed.

Lemma half_over a q : 0 < a -> 4 * (a * a) * (1 / 2 / (2 * a)) = q -> q = a.
Proof. intros Ha <-. field. lra. Qed.
Lemma sqrt_4sq t x : t = 4 * (x * x) -> sqrt t = 2 * Rabs x.
Proof. intros ->. replace (4 * (x * x)) with (Rsqr (2 * x)) by (unfold Rsqr; ring). rewrite sqrt_Rsqr_abs, Rabs_mult, (Rabs_right 2) by lra. reflexivity. Qed.

(** the factor 0.5/sqrt(4 x^2) turns 4 x y into y up to the sign of x *)
Lemma scale_back x y : x <> 0 -> 4 * (x * y) * (1 / 2 / (2 * Rabs x)) = y \/ 4 * (x * y) * (1 / 2 / (2 * Rabs x)) = - y.
Proof.
  intros Hx. unfold Rabs. destruct (Rcase_abs x); [right|left]; field; lra.
Qed.
Lemma factor_sign x : x <> 0 -> exists s, (s = 1 \/ s = -1) /\ forall y, 4 * (x * y) * (1 / 2 / (2 * Rabs x)) = s * y.
Proof.
  intros Hx. unfold Rabs. destruct (Rcase_abs x) as [H|H].
  - exists (-1). split; [now right|]. intros y. field. lra.
  - exists 1. split; [now left|]. intros y. field. lra.
Qed.

Lemma ToQuat_FromQuat (m : matR) q : unit_quat q ->
  exists s, (s = 1 \/ s = -1) /\ ToQuat (FromQuat m q) = VR (s * X q) (s * Y q) (s * Z_ q) (s * W q).
Proof.
  intros U. destruct q as [x y z w]. change R in x, y, z, w. unfold unit_quat, qnorm2 in U. cbn [X Y Z_ W] in *. rewrite FromQuat_rows.
  unfold ToQuat. cbn [s_lt s_neg s_int reals r1 r2 r3 X Y Z_ W].
  set (d0 := Rlt_dec _ _). destruct d0 as [H0|H0].
  - set (d1 := Rlt_dec _ _). destruct d1 as [H1|H1].
    + assert (Hx : x <> 0) by nra. destruct (factor_sign x Hx) as (s & Hs & F). exists s. split; [exact Hs|].
      assert (E : sqrt (1 + (1 - 2 * (y * y + z * z)) * 1 + (1 - 2 * (x * x + y * y)) * -1 + (1 - 2 * (x * x + z * z)) * -1) = 2 * Rabs x) by (apply sqrt_4sq; nra).
      lanes; rewrite E; rewrite <- F; f_equal; nra.
    + assert (Hx : y <> 0) by nra. destruct (factor_sign y Hx) as (s & Hs & F). exists (- s). split; [lra|].
      assert (E : sqrt (1 + (1 - 2 * (y * y + z * z)) * -1 + (1 - 2 * (x * x + y * y)) * -1 + (1 - 2 * (x * x + z * z))) = 2 * Rabs y) by (apply sqrt_4sq; nra).
      lanes; rewrite E; rewrite Ropp_mult_distr_l_reverse; rewrite <- F; ring_simplify; nra.
  - set (d1 := Rlt_dec _ _). destruct d1 as [H1|H1].
    + assert (Hx : z <> 0) by nra. destruct (factor_sign z Hx) as (s & Hs & F). exists s. split; [exact Hs|].
      assert (E : sqrt (1 + (1 - 2 * (y * y + z * z)) * -1 + (1 - 2 * (x * x + y * y)) * 1 + (1 - 2 * (x * x + z * z)) * -1) = 2 * Rabs z) by (apply sqrt_4sq; nra).
      lanes; rewrite E; rewrite <- F; f_equal; nra.
    + assert (Hx : w <> 0) by nra. destruct (factor_sign w Hx) as (s & Hs & F). exists s. split; [exact Hs|].
      assert (E : sqrt (1 + (1 - 2 * (y * y + z * z)) * 1 + (1 - 2 * (x * x + y * y)) * 1 + (1 - 2 * (x * x + z * z))) = 2 * Rabs w) by (apply sqrt_4sq; nra).
      lanes; rewrite E; rewrite <- F; f_equal; nra.
Qed.

(** *** Rotations *)
Lemma FromQuat_rotation (m : matR) q : unit_quat q -> rotation (FromQuat m q).
Proof.
  destruct q as [x y z w]. change R in x, y, z, w. unfold unit_quat, qnorm2. cbn [X Y Z_ W]. intros U. rewrite FromQuat_rows.
  unfold rotation, linear_rows, orthogonal_rows, dot3, det3. cbn [r1 r2 r3 r4 X Y Z_ W].
  repeat split; try reflexivity; nsatz.
Qed.

(** the rows of a rotation are each other's cross products, its columns are orthonormal too *)
Lemma rotation_cofactors (a b c d e f g h i : R) :
  a * a + b * b + c * c = 1 -> d * d + e * e + f * f = 1 -> g * g + h * h + i * i = 1 ->
  a * d + b * e + c * f = 0 -> a * g + b * h + c * i = 0 -> d * g + e * h + f * i = 0 ->
  a * (e * i - f * h) - b * (d * i - f * g) + c * (d * h - e * g) = 1 ->
  (a = e * i - f * h /\ b = f * g - d * i /\ c = d * h - e * g) /\
  (d = h * c - i * b /\ e = i * a - g * c /\ f = g * b - h * a) /\
  (g = b * f - c * e /\ h = c * d - a * f /\ i = a * e - b * d).
Proof.
  intros E1 E2 E3 E4 E5 E6 D.
  assert (P : forall u v w p q r, u = 1 -> v = 0 -> w = 0 -> p * u + q * v + r * w = p) by (intros; subst; ring).
  repeat split.
  - transitivity ((e * i - f * h) * (a * a + b * b + c * c) + (c * h - b * i) * (a * d + b * e + c * f) + (b * f - c * e) * (a * g + b * h + c * i)); [|rewrite E1, E4, E5; ring].
    rewrite <- (Rmult_1_l a) at 1. rewrite <- D. ring.
  - transitivity ((f * g - d * i) * (a * a + b * b + c * c) + (a * i - c * g) * (a * d + b * e + c * f) + (c * d - a * f) * (a * g + b * h + c * i)); [|rewrite E1, E4, E5; ring].
    rewrite <- (Rmult_1_l b) at 1. rewrite <- D. ring.
  - transitivity ((d * h - e * g) * (a * a + b * b + c * c) + (b * g - a * h) * (a * d + b * e + c * f) + (a * e - b * d) * (a * g + b * h + c * i)); [|rewrite E1, E4, E5; ring].
    rewrite <- (Rmult_1_l c) at 1. rewrite <- D. ring.
  - transitivity ((e * i - f * h) * (a * d + b * e + c * f) + (c * h - b * i) * (d * d + e * e + f * f) + (b * f - c * e) * (d * g + e * h + f * i)); [|rewrite E2, E4, E6; ring].
    rewrite <- (Rmult_1_l d) at 1. rewrite <- D. ring.
  - transitivity ((f * g - d * i) * (a * d + b * e + c * f) + (a * i - c * g) * (d * d + e * e + f * f) + (c * d - a * f) * (d * g + e * h + f * i)); [|rewrite E2, E4, E6; ring].
    rewrite <- (Rmult_1_l e) at 1. rewrite <- D. ring.
  - transitivity ((d * h - e * g) * (a * d + b * e + c * f) + (b * g - a * h) * (d * d + e * e + f * f) + (a * e - b * d) * (d * g + e * h + f * i)); [|rewrite E2, E4, E6; ring].
    rewrite <- (Rmult_1_l f) at 1. rewrite <- D. ring.
  - transitivity ((e * i - f * h) * (a * g + b * h + c * i) + (c * h - b * i) * (d * g + e * h + f * i) + (b * f - c * e) * (g * g + h * h + i * i)); [|rewrite E3, E5, E6; ring].
    rewrite <- (Rmult_1_l g) at 1. rewrite <- D. ring.
  - transitivity ((f * g - d * i) * (a * g + b * h + c * i) + (a * i - c * g) * (d * g + e * h + f * i) + (c * d - a * f) * (g * g + h * h + i * i)); [|rewrite E3, E5, E6; ring].
    rewrite <- (Rmult_1_l h) at 1. rewrite <- D. ring.
  - transitivity ((d * h - e * g) * (a * g + b * h + c * i) + (b * g - a * h) * (d * g + e * h + f * i) + (a * e - b * d) * (g * g + h * h + i * i)); [|rewrite E3, E5, E6; ring].
    rewrite <- (Rmult_1_l i) at 1. rewrite <- D. ring.
Qed.

Section OneRotation.
  Variables a b c d e f g h i : R.
  Hypotheses (E1 : a * a + b * b + c * c = 1) (E2 : d * d + e * e + f * f = 1) (E3 : g * g + h * h + i * i = 1)
    (E4 : a * d + b * e + c * f = 0) (E5 : a * g + b * h + c * i = 0) (E6 : d * g + e * h + f * i = 0)
    (D : a * (e * i - f * h) - b * (d * i - f * g) + c * (d * h - e * g) = 1).

  (** products of the quaternion's components, from the entries *)
  Lemma quat_products :
    let xx := 1 + a - e - i in let yy := 1 - a + e - i in let zz := 1 - a - e + i in let ww := 1 + a + e + i in
    let xy := b + d in let xz := c + g in let yz := f + h in let xw := h - f in let yw := c - g in let zw := d - b in
    xx * yy = xy * xy /\ xx * zz = xz * xz /\ yy * zz = yz * yz /\ xx * ww = xw * xw /\ yy * ww = yw * yw /\ zz * ww = zw * zw /\
    xx * yz = xy * xz /\ yy * xz = xy * yz /\ zz * xy = xz * yz /\ ww * xy = xw * yw /\ ww * xz = xw * zw /\ ww * yz = yw * zw /\
    xx * yw = xy * xw /\ xx * zw = xz * xw /\ yy * xw = xy * yw /\ yy * zw = yz * yw /\ zz * xw = xz * zw /\ zz * yw = yz * zw.
  Proof using a b c d e f g h i E1 E2 E3 E4 E5 E6 D.
    destruct (rotation_cofactors a b c d e f g h i E1 E2 E3 E4 E5 E6 D) as ((C1 & C2 & C3) & (C4 & C5 & C6) & C7 & C8 & C9).
    cbv zeta. repeat split; nsatz.
  Qed.
End OneRotation.

Lemma scaled_products t : 0 < t -> forall u v, (u * (1 / 2 / sqrt t)) * (v * (1 / 2 / sqrt t)) = u * v / (4 * t).
Proof.
  intros Ht u v. pose proof (sqrt_lt_R0 t Ht). pose proof (sqrt_sqrt t ltac:(lra)) as Q.
  rewrite <- Q at 3. field. lra.
Qed.
Lemma two_is t : 0 < t -> forall u w, u = 2 * t * w -> 2 * (u / (4 * t)) = w.
Proof. intros Ht u w ->. field. lra. Qed.
Lemma one_two_is t : 0 < t -> forall u w, u = 2 * t * (1 - w) -> 1 - 2 * (u / (4 * t)) = w.
Proof. intros Ht u w ->. field. lra. Qed.
Lemma two_rows_is t : 0 < t -> forall u w v, v = u / (4 * t) -> u = 2 * t * w -> 2 * v = w.
Proof. intros Ht u w v -> ->. field. lra. Qed.

Lemma FromQuat_ToQuat (m : matR) : rotation m -> FromQuat m (ToQuat m) = m.
Proof.
  destruct m as [[a b c j] [d e f k] [g h i l] r]. unfold rotation, linear_rows, orthogonal_rows, dot3, det3. cbn [r1 r2 r3 r4 X Y Z_ W].
  change R in a, b, c, d, e, f, g, h, i, j, k, l.
  intros ((-> & -> & ->) & (E4 & E5 & E6) & E1 & E2 & E3 & D).
  assert (Q := quat_products a b c d e f g h i E1 E2 E3 E4 E5 E6 D). cbv zeta in Q.
  destruct Q as (Q1 & Q2 & Q3 & Q4 & Q5 & Q6 & Q7 & Q8 & Q9 & Q10 & Q11 & Q12 & Q13 & Q14 & Q15 & Q16 & Q17 & Q18). clear E1 E2 E3 E4 E5 E6 D.
  unfold ToQuat. cbn [s_lt s_neg s_int reals r1 r2 r3 X Y Z_ W].
  assert (N : forall x y : R, x * -1 * (y * -1) = x * y) by (intros; ring).
  set (d0 := Rlt_dec _ _). destruct d0 as [H0|H0]; set (d1 := Rlt_dec _ _); destruct d1 as [H1|H1];
    rewrite FromQuat_rows2; cbn; rewrite ?N.
  1: replace (1 + a * 1 + i * -1 + e * -1) with (1 + a - e - i) by ring; set (t := 1 + a - e - i) in *.
  2: replace (1 + a * -1 + i * -1 + e) with (1 - a + e - i) by ring; set (t := 1 - a + e - i) in *.
  3: replace (1 + a * -1 + i * 1 + e * -1) with (1 - a - e + i) by ring; set (t := 1 - a - e + i) in *.
  4: replace (1 + a * 1 + i * 1 + e) with (1 + a + e + i) by ring; set (t := 1 + a + e + i) in *.
  all: assert (Ht : 0 < t) by (unfold t; lra); pose proof (scaled_products t Ht) as P; rewrite !P; clear P.
  all: entries; try reflexivity; rewrite <- ?Rdiv_plus_distr, <- ?Rdiv_minus_distr;
    first [apply (one_two_is t Ht) | apply (two_is t Ht)]; subst t; lra.
Qed.

(** *** Decompose *)
Lemma Length_flat (a b c : R) : Length (VR a b c 0) = sqrt (a * a + b * b + c * c).
Proof. unfold Length. cbn. f_equal. ring. Qed.
Lemma det3_dot (m : matR) : Dot (r1 m) (cross3 (r2 m) (r3 m)) = det3 m.
Proof. open_all. unfold det3. cbn. ring. Qed.

(** Compose puts the rotation's rows back, stretched *)
Lemma Compose_rows (m : matR) p q s : Compose m p q s =
  let f := FromQuat m q in M (vmuls (r1 f) (X s)) (vmuls (r2 f) (Y s)) (vmuls (r3 f) (Z_ s)) p.
Proof. reflexivity. Qed.
Lemma FromQuat_other (m m' : matR) q : r1 (FromQuat m q) = r1 (FromQuat m' q) /\ r2 (FromQuat m q) = r2 (FromQuat m' q) /\ r3 (FromQuat m q) = r3 (FromQuat m' q).
Proof. rewrite !FromQuat_rows2. now cbn. Qed.

Lemma det_squared a b c d e f g h i :
  a * d + b * e + c * f = 0 -> a * g + b * h + c * i = 0 -> d * g + e * h + f * i = 0 ->
  (a * (e * i - f * h) - b * (d * i - f * g) + c * (d * h - e * g)) * (a * (e * i - f * h) - b * (d * i - f * g) + c * (d * h - e * g)) =
  (a * a + b * b + c * c) * (d * d + e * e + f * f) * (g * g + h * h + i * i).
Proof.
  intros E1 E2 E3.
  transitivity ((a * a + b * b + c * c) * ((d * d + e * e + f * f) * (g * g + h * h + i * i) - (d * g + e * h + f * i) * (d * g + e * h + f * i))
    - (a * d + b * e + c * f) * ((a * d + b * e + c * f) * (g * g + h * h + i * i) - (d * g + e * h + f * i) * (a * g + b * h + c * i))
    + (a * g + b * h + c * i) * ((a * d + b * e + c * f) * (d * g + e * h + f * i) - (d * d + e * e + f * f) * (a * g + b * h + c * i))).
  - ring.
  - rewrite E1, E2, E3. ring.
Qed.

Lemma Decompose_tmp (m : matR) (a b c : R) :
  linear_rows m -> orthogonal_rows m ->
  a * a = dot3 (r1 m) (r1 m) -> b * b = dot3 (r2 m) (r2 m) -> c * c = dot3 (r3 m) (r3 m) ->
  a <> 0 -> b <> 0 -> c <> 0 -> 0 < det3 m * (a * b * c) ->
  rotation (M (vdivs (r1 m) (a : reals)) (vdivs (r2 m) (b : reals)) (vdivs (r3 m) (c : reals)) (r4 m)).
Proof.
  destruct m as [[x1 y1 z1 w1] [x2 y2 z2 w2] [x3 y3 z3 w3] r].
  change R in x1, y1, z1, w1, x2, y2, z2, w2, x3, y3, z3, w3.
  unfold linear_rows, orthogonal_rows, dot3, rotation. cbn [r1 r2 r3 r4 X Y Z_ W].
  intros (-> & -> & ->) (O1 & O2 & O3) A B C Ha Hb Hc Hd.
  pose proof (det_squared x1 y1 z1 x2 y2 z2 x3 y3 z3 O1 O2 O3) as DS. rewrite <- A, <- B, <- C in DS.
  unfold det3 in Hd. cbn [r1 r2 r3 r4 X Y Z_ W] in Hd.
  set (dt := x1 * _ - _ + _) in *. 
  assert (DE : dt = a * b * c). { assert (Z : (dt - a * b * c) * (dt + a * b * c) = 0) by nra. apply Rmult_integral in Z. destruct Z; [lra|].
    replace dt with (- (a * b * c)) in Hd by lra. exfalso. nra. }
  repeat split; cbn; unfold linear_rows, orthogonal_rows, dot3, det3; cbn [r1 r2 r3 r4 X Y Z_ W vdivs vdiv map2 all4 s_div reals].
  - field; lra.
  - field; lra.
  - field; lra.
  - transitivity ((x1 * x2 + y1 * y2 + z1 * z2) / (a * b)); [field; lra|rewrite O1; field; lra].
  - transitivity ((x1 * x3 + y1 * y3 + z1 * z3) / (a * c)); [field; lra|rewrite O2; field; lra].
  - transitivity ((x2 * x3 + y2 * y3 + z2 * z3) / (b * c)); [field; lra|rewrite O3; field; lra].
  - transitivity ((x1 * x1 + y1 * y1 + z1 * z1) / (a * a)); [field; lra|rewrite <- A; field; lra].
  - transitivity ((x2 * x2 + y2 * y2 + z2 * z2) / (b * b)); [field; lra|rewrite <- B; field; lra].
  - transitivity ((x3 * x3 + y3 * y3 + z3 * z3) / (c * c)); [field; lra|rewrite <- C; field; lra].
  - transitivity (dt / (a * b * c)); [unfold dt; field; lra|rewrite DE; field; lra].
Qed.

Lemma nonneg_sq (a b c : R) : 0 <= a * a + b * b + c * c.
Proof. nra. Qed.
Lemma Compose_Decompose (m m' : matR) s0 : linear_rows m -> orthogonal_rows m ->
  dot3 (r1 m) (r1 m) <> 0 -> dot3 (r2 m) (r2 m) <> 0 -> dot3 (r3 m) (r3 m) <> 0 ->
  let '(p, q, s) := Decompose m s0 in Compose m' p q s = m.
Proof.
  intros L O N1 N2 N3. unfold Decompose. cbv zeta.
  pose proof L as (W1 & W2 & W3).
  assert (Len : forall v : vecR, W v = 0 -> Length v = sqrt (dot3 v v)).
  { intros [x y z w] E. cbn [W] in E. rewrite E. apply Length_flat. }
  rewrite (Len _ W1), (Len _ W2), (Len _ W3).
  assert (P : forall v : vecR, dot3 v v <> 0 -> 0 < sqrt (dot3 v v) /\ sqrt (dot3 v v) * sqrt (dot3 v v) = dot3 v v).
  { intros v Hv. pose proof (nonneg_sq (X v) (Y v) (Z_ v)) as H. fold (dot3 v v) in H. split; [apply sqrt_lt_R0; lra|apply sqrt_sqrt; lra]. }
  destruct (P _ N1) as [P1 S1]. destruct (P _ N2) as [P2 S2]. destruct (P _ N3) as [P3 S3].
  rewrite det3_dot. cbn [s_lt reals s_int].
  assert (DN : det3 m <> 0).
  { destruct O as (O1 & O2 & O3). unfold dot3 in *. pose proof (det_squared _ _ _ _ _ _ _ _ _ O1 O2 O3) as DS.
    change (det3 m * det3 m = dot3 (r1 m) (r1 m) * dot3 (r2 m) (r2 m) * dot3 (r3 m) (r3 m)) in DS. intros E. rewrite E in DS. assert (Z := Rmult_integral _ _ (eq_sym (eq_trans (eq_sym (Rmult_0_l 0)) DS))).
    destruct Z as [Z|Z]; [apply Rmult_integral in Z; destruct Z|]; contradiction. }
  set (a := sqrt (dot3 (r1 m) (r1 m))) in *. set (b := sqrt (dot3 (r2 m) (r2 m))) in *. set (c := sqrt (dot3 (r3 m) (r3 m))) in *.
  assert (Back : forall a' b' c' w, a' * a' = a * a -> b' * b' = b * b -> c' * c' = c * c -> a' <> 0 -> b' <> 0 -> c' <> 0 -> 0 < det3 m * (a' * b' * c') ->
    forall m2, m2 = M (vdivs (r1 m) (a' : reals)) (vdivs (r2 m) (b' : reals)) (vdivs (r3 m) (c' : reals)) (r4 m) ->
    Compose m' (r4 m) (ToQuat m2) (VR a' b' c' w) = m).
  { intros a' b' c' w Ea Eb Ec Na Nb Nc Hd m2 ->.
    pose proof (Decompose_tmp m a' b' c' L O ltac:(lra) ltac:(lra) ltac:(lra) Na Nb Nc Hd) as Rt.
    pose proof (FromQuat_ToQuat _ Rt) as F. set (t := M _ _ _ _) in *.
    rewrite Compose_rows. cbv zeta. destruct (FromQuat_other m' t (ToQuat t)) as (G1 & G2 & G3). rewrite G1, G2, G3, F.
    unfold t. clear - W1 W2 W3 Na Nb Nc. destruct m as [[x1 y1 z1 w1] [x2 y2 z2 w2] [x3 y3 z3 w3] r].
    cbn in W1, W2, W3. subst.
    entries; try reflexivity; field; assumption. }
  set (d := Rlt_dec _ _). destruct d as [Hneg|Hpos].
  - apply (Back (a * -1) (b * -1) (c * -1) (W s0 * -1)); try reflexivity; try lra.
    assert (0 < a * b * c) by (apply Rmult_lt_0_compat; [apply Rmult_lt_0_compat|]; assumption). nra.
  - apply (Back a b c (W s0)); try reflexivity; try lra.
    assert (0 < a * b * c) by (apply Rmult_lt_0_compat; [apply Rmult_lt_0_compat|]; assumption). nra.
Qed.

Lemma ToQuat_rows (m m' : matR) : r1 m = r1 m' -> r2 m = r2 m' -> r3 m = r3 m' -> ToQuat m = ToQuat m'.
Proof. destruct m as [a b c d], m' as [a' b' c' d']. cbn. now intros -> -> ->. Qed.
Lemma dot3_scale (v : vecR) (k : R) : dot3 (vmuls v (k : reals)) (vmuls v (k : reals)) = k * k * dot3 v v.
Proof. destruct v. unfold dot3. cbn. ring. Qed.
Lemma sqrt_square (k : R) : sqrt (k * k * 1) = Rabs k.
Proof. rewrite Rmult_1_r. apply sqrt_Rsqr_abs. Qed.

Lemma Decompose_Compose (m : matR) (p q s s0 : vecR) : unit_quat q ->
  (0 < X s /\ 0 < Y s /\ 0 < Z_ s) \/ (X s < 0 /\ Y s < 0 /\ Z_ s < 0) ->
  exists q', (q' = q \/ q' = opp q) /\
    Decompose (Compose m p q s) s0 = (p, q', VR (X s) (Y s) (Z_ s) (if Rlt_dec (X s) 0 then - W s0 else W s0)).
Proof.
  intros U Sg. pose proof (FromQuat_rotation m q U) as Rt.
  destruct (ToQuat_FromQuat m q U) as (sg & Hsg & TQ).
  exists (VR (sg * X q) (sg * Y q) (sg * Z_ q) (sg * W q)). split.
  { destruct q as [x y z w]. change R in x, y, z, w. cbn [X Y Z_ W]. destruct Hsg as [-> | ->]; [left|right; unfold opp]; lanes; ring. }
  rewrite <- TQ. rewrite Compose_rows. cbv zeta. set (f := FromQuat m q) in *. clearbody f. clear TQ U Hsg q sg.
  destruct Rt as ((W1 & W2 & W3) & O & N1 & N2 & N3 & Dt).
  unfold Decompose. cbv zeta. cbn [r1 r2 r3 r4].
  assert (Len : forall (v : vecR) (k : R), W v = 0 -> dot3 v v = 1 -> Length (vmuls v (k : reals)) = Rabs k).
  { intros [x y z w] k E N. cbn [W] in E. subst w. unfold vmuls, vmul, map2, all4. cbn [X Y Z_ W]. 
    replace (s_mul (s:=reals) 0 k) with 0 by (cbn; ring). rewrite Length_flat. rewrite <- sqrt_square. f_equal. rewrite <- N. unfold dot3. cbn. ring. }
  rewrite (Len _ _ W1 N1), (Len _ _ W2 N2), (Len _ _ W3 N3).
  pose proof (det3_dot (M (vmuls (r1 f) (X s)) (vmuls (r2 f) (Y s)) (vmuls (r3 f) (Z_ s)) p)) as DD. cbn [r1 r2 r3] in DD. rewrite DD. clear DD Len.
  replace (det3 _) with (X s * Y s * Z_ s) by (transitivity (X s * Y s * Z_ s * det3 f); [rewrite Dt; ring | unfold det3; cbn; ring]).
  destruct s as [a b c w]. change R in a, b, c, w. cbn [X Y Z_ W s_lt reals s_int] in *.
  assert (Back : forall m2 : matR, r1 m2 = vdivs (vmuls (r1 f) (a : reals)) (a : reals) -> r2 m2 = vdivs (vmuls (r2 f) (b : reals)) (b : reals) ->
     r3 m2 = vdivs (vmuls (r3 f) (c : reals)) (c : reals) -> ToQuat m2 = ToQuat f).
  { intros m2 Q1 Q2 Q3. assert (K : forall (v : vecR) (k : R), k <> 0 -> vdivs (vmuls v (k : reals)) (k : reals) = v).
    { intros [x y z u] k Hk. lanes; field; assumption. }
    rewrite K in Q1, Q2, Q3 by lra. apply ToQuat_rows; assumption. }
  destruct Sg as [(A & B & C)|(A & B & C)].
  - destruct (Rlt_dec (a * b * c) 0) as [H|H]; [exfalso; assert (0 < a * b * c) by (apply Rmult_lt_0_compat; [apply Rmult_lt_0_compat|]; assumption); lra|].
    destruct (Rlt_dec a 0); [lra|]. rewrite !Rabs_right by lra. cbn [X Y Z_ W]. f_equal. f_equal.
    apply Back; reflexivity.
  - destruct (Rlt_dec (a * b * c) 0) as [H|H]; [|exfalso; assert (0 < (- a) * (- b) * (- c)) by (apply Rmult_lt_0_compat; [apply Rmult_lt_0_compat|]; lra); lra].
    destruct (Rlt_dec a 0); [|lra]. rewrite !Rabs_left by lra.
    assert (E : vmuls (VR (- a) (- b) (- c) (W s0)) (-1 : reals) = VR a b c (- W s0)) by (lanes; ring).
    rewrite E. cbn [X Y Z_ W]. f_equal. f_equal. apply Back; reflexivity.
Qed.

(** *** The inverse *)
Lemma columns_orthonormal (a b c d e f g h i : R) :
  a * a + b * b + c * c = 1 -> d * d + e * e + f * f = 1 -> g * g + h * h + i * i = 1 ->
  a * d + b * e + c * f = 0 -> a * g + b * h + c * i = 0 -> d * g + e * h + f * i = 0 ->
  a * (e * i - f * h) - b * (d * i - f * g) + c * (d * h - e * g) = 1 ->
  (a * a + d * d + g * g = 1 /\ b * b + e * e + h * h = 1 /\ c * c + f * f + i * i = 1) /\
  (a * b + d * e + g * h = 0 /\ a * c + d * f + g * i = 0 /\ b * c + e * f + h * i = 0).
Proof.
  intros E1 E2 E3 E4 E5 E6 D.
  destruct (rotation_cofactors a b c d e f g h i E1 E2 E3 E4 E5 E6 D) as ((C1 & C2 & C3) & (C4 & C5 & C6) & C7 & C8 & C9).
  repeat split.
  - transitivity (a * (e * i - f * h) + d * (h * c - i * b) + g * (b * f - c * e)); [congruence|rewrite <- D; ring].
  - transitivity (b * (f * g - d * i) + e * (i * a - g * c) + h * (c * d - a * f)); [congruence|rewrite <- D; ring].
  - transitivity (c * (d * h - e * g) + f * (g * b - h * a) + i * (a * e - b * d)); [congruence|rewrite <- D; ring].
  - transitivity (a * (f * g - d * i) + d * (i * a - g * c) + g * (c * d - a * f)); [congruence|ring].
  - transitivity (a * (d * h - e * g) + d * (g * b - h * a) + g * (a * e - b * d)); [congruence|ring].
  - transitivity (b * (d * h - e * g) + e * (g * b - h * a) + h * (a * e - b * d)); [congruence|ring].
Qed.

(** orthogonal rows of squared lengths p, q, r: the columns are orthogonal under the weights 1/p, 1/q, 1/r *)
Lemma weighted_columns (a b c d e f g h i p q r : R) :
  a * a + b * b + c * c = p -> d * d + e * e + f * f = q -> g * g + h * h + i * i = r -> 0 < p -> 0 < q -> 0 < r ->
  a * d + b * e + c * f = 0 -> a * g + b * h + c * i = 0 -> d * g + e * h + f * i = 0 ->
  (a * a / p + d * d / q + g * g / r = 1 /\ b * b / p + e * e / q + h * h / r = 1 /\ c * c / p + f * f / q + i * i / r = 1) /\
  (a * b / p + d * e / q + g * h / r = 0 /\ a * c / p + d * f / q + g * i / r = 0 /\ b * c / p + e * f / q + h * i / r = 0).
Proof.
  intros Ep Eq Er Hp Hq Hr O1 O2 O3.
  set (m := M (VR a b c 0) (VR d e f 0) (VR g h i 0) (VR 0 0 0 1) : matR).
  pose proof (det_squared a b c d e f g h i O1 O2 O3) as DS. rewrite Ep, Eq, Er in DS.
  pose proof (sqrt_lt_R0 p Hp) as Pp. pose proof (sqrt_lt_R0 q Hq) as Pq. pose proof (sqrt_lt_R0 r Hr) as Pr.
  pose proof (sqrt_sqrt p ltac:(lra)) as Sp. pose proof (sqrt_sqrt q ltac:(lra)) as Sq. pose proof (sqrt_sqrt r ltac:(lra)) as Sr.
  set (u := sqrt p) in *. set (v := sqrt q) in *. set (w := sqrt r) in *.
  assert (exists w', w' * w' = r /\ w' <> 0 /\ 0 < det3 m * (u * v * w')) as (w' & Sw & Nw & Dw).
  { assert (0 < u * v * w) by (apply Rmult_lt_0_compat; [apply Rmult_lt_0_compat|]; assumption).
    change (det3 m * det3 m = p * q * r) in DS. assert (0 < p * q * r) by (apply Rmult_lt_0_compat; [apply Rmult_lt_0_compat|]; assumption).
    assert (det3 m <> 0) by (intros E; rewrite E in DS; lra).
    destruct (Rlt_dec 0 (det3 m)); [exists w|exists (- w)]; (split; [lra|split; [lra|nra]]). }
  assert (Rt := Decompose_tmp m u v w').
  unfold linear_rows, orthogonal_rows, dot3 in Rt. cbn [r1 r2 r3 m X Y Z_ W] in Rt.
  specialize (Rt ltac:(repeat split; reflexivity) ltac:(repeat split; assumption) ltac:(lra) ltac:(lra) ltac:(lra) ltac:(lra) ltac:(lra) Nw Dw).
  destruct Rt as (_ & (R4 & R5 & R6) & R1 & R2 & R3 & RD).
  unfold dot3, det3 in *. cbn in R1, R2, R3, R4, R5, R6, RD.
  destruct (columns_orthonormal _ _ _ _ _ _ _ _ _ R1 R2 R3 R4 R5 R6 RD) as ((K1 & K2 & K3) & K4 & K5 & K6).
  rewrite <- Sp, <- Sq, <- Sw.
  repeat split; [rewrite <- K1|rewrite <- K2|rewrite <- K3|rewrite <- K4|rewrite <- K5|rewrite <- K6]; field; lra.
Qed.

(** Inverse on rows that are long enough *)
Lemma Inverse_rows a b c d e f g h i (t : vecR) :
  / 1000000 <= a * a + b * b + c * c -> / 1000000 <= d * d + e * e + f * f -> / 1000000 <= g * g + h * h + i * i -> W t = 1 ->
  let p := a * a + b * b + c * c in let q := d * d + e * e + f * f in let r := g * g + h * h + i * i in
  Inverse (M (VR a b c 0) (VR d e f 0) (VR g h i 0) t) =
  M (VR (a / p) (d / q) (g / r) 0) (VR (b / p) (e / q) (h / r) 0) (VR (c / p) (f / q) (i / r) 0)
    (VR (- (a / p * X t + d / q * Y t + g / r * Z_ t)) (- (b / p * X t + e / q * Y t + h / r * Z_ t)) (- (c / p * X t + f / q * Y t + i / r * Z_ t)) 1).
Proof.
  intros Hp Hq Hr Ht p q r. unfold Inverse. cbv zeta. destruct t as [tx ty tz tw]. cbn in Ht. subst tw. cbn.
  fold p q r in Hp, Hq, Hr.
  change (a * a + b * b + c * c) with p. change (d * d + e * e + f * f) with q. change (g * g + h * h + i * i) with r.
  destruct (Rlt_dec p (1 / 1000000)); [lra|]. destruct (Rlt_dec q (1 / 1000000)); [lra|]. destruct (Rlt_dec r (1 / 1000000)); [lra|].
  destruct (Rlt_dec (0 * 0 + 0 * 0 + 0 * 0) (1 / 1000000)); [|lra].
  entries; try reflexivity; field; try lra.
Qed.
