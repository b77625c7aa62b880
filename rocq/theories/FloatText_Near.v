(** Rounding to the nearest number of a format or of a number of digits; too large and too small. *)
From Coq Require Import QArith Qabs Qpower Lqa Lia.
From Verif Require Import Base Reflector_Model FloatText_Model FloatText_Proof FloatText_Proof2 FloatText_Spec.
Local Open Scope Q_scope.

Lemma whole_near (t : Q) (r m : Z) : inject_Z r - (1 # 2) <= t -> t <= inject_Z r + (1 # 2) -> r <> m ->
  Qabs (t - inject_Z r) <= Qabs (t - inject_Z m) /\
  (Qabs (t - inject_Z m) == Qabs (t - inject_Z r) -> t == inject_Z r + (1 # 2) \/ t == inject_Z r - (1 # 2)).
Proof.
  intros A B N. destruct (Z_lt_le_dec m r) as [L|L].
  - assert (G : inject_Z m <= inject_Z r - 1) by (change 1 with (inject_Z 1); rewrite <- inject_sub, <- inj_le; lia).
    rewrite (Qabs_pos (t - inject_Z m)) by lra. split; [apply Qabs_Qle_condition; split; lra|]. intros E.
    destruct (Qlt_le_dec t (inject_Z r)); [rewrite Qabs_neg in E by lra|rewrite Qabs_pos in E by lra]; lra.
  - assert (G : inject_Z r + 1 <= inject_Z m) by (change 1 with (inject_Z 1); rewrite <- inject_Z_plus, <- inj_le; lia).
    rewrite (Qabs_neg (t - inject_Z m)) by lra. split; [apply Qabs_Qle_condition; split; lra|]. intros E.
    destruct (Qlt_le_dec t (inject_Z r)); [rewrite Qabs_neg in E by lra|rewrite Qabs_pos in E by lra]; lra.
Qed.
Lemma Qabs_scale a c : 0 < c -> Qabs (a * c) == Qabs a * c.
Proof. intros H. rewrite Qabs_Qmult, (Qabs_pos c) by lra. reflexivity. Qed.

(** Rounding at exponent k, where the number has at least P digits, is rounding to the nearest number of at
    most P digits. *)
Lemma grid_nearest b k P x m j : (1 < b)%Z -> (1 <= P)%Z -> (0 < snd x)%Z -> pw b (k + P - 1) <= frac x -> (0 <= m < b ^ P)%Z ->
  let r := round_even (mulp b (- k) x) in
  Qabs (frac x - inject_Z r * pw b k) <= Qabs (frac x - inject_Z m * pw b j) /\
  (Qabs (frac x - inject_Z m * pw b j) == Qabs (frac x - inject_Z r * pw b k) -> ~ inject_Z m * pw b j == inject_Z r * pw b k -> Z.even r = true).
Proof.
  intros Hb HP Hx Lo Hm r. destruct (round_spec (mulp b (- k) x) (mulp_pos b _ x ltac:(lia) Hx)) as (A & B & C). fold r in A, B, C.
  rewrite frac_mulp in A, B, C by lia. rewrite pw_opp in A, B, C by lia. pose proof (pw_pos b k ltac:(lia)) as Pk.
  set (t := frac x * / pw b k) in *. assert (T : frac x == t * pw b k) by (unfold t; field; lra).
  assert (D : forall z, Qabs (frac x - inject_Z z * pw b k) == Qabs (t - inject_Z z) * pw b k).
  { intros z. rewrite <- Qabs_scale by exact Pk. apply Qabs_wd. rewrite T. ring. }
  assert (G : forall z, z <> r -> Qabs (frac x - inject_Z r * pw b k) <= Qabs (frac x - inject_Z z * pw b k) /\
    (Qabs (frac x - inject_Z z * pw b k) == Qabs (frac x - inject_Z r * pw b k) -> Z.even r = true)).
  { intros z Hz. destruct (whole_near t r z A B ltac:(congruence)) as [W1 W2]. rewrite !D. split; [apply Qmult_le_compat_r; lra|].
    intros E. apply C. apply W2. apply (Qmult_inj_r _ _ (pw b k)); [lra|exact E]. }
  destruct (Z_lt_le_dec j k) as [L|L].
  - (* fewer places: below the binade *)
    assert (S : inject_Z m * pw b j < pw b (k + P - 1)).
    { assert (inject_Z m < pw b P) by (rewrite pw_nat by lia; rewrite <- inj_lt; lia). pose proof (pw_pos b j ltac:(lia)).
      assert (inject_Z m * pw b j < pw b P * pw b j) by (apply Qmult_lt_compat_r; assumption).
      assert (pw b P * pw b j <= pw b (k + P - 1)) by (rewrite <- pw_add by lia; apply pw_le; lia). lra. }
    assert (Q : pw b (k + P - 1) == inject_Z (b ^ (P - 1)) * pw b k) by (rewrite <- pw_nat by lia; rewrite <- pw_add by lia; replace (P - 1 + k)%Z with (k + P - 1)%Z by lia; reflexivity).
    assert (Qabs (frac x - inject_Z r * pw b k) <= Qabs (frac x - inject_Z (b ^ (P - 1)) * pw b k)).
    { destruct (Z.eq_dec (b ^ (P - 1)) r) as [->|N]; [lra|]. apply G. exact N. }
    rewrite (Qabs_pos (frac x - inject_Z m * pw b j)) by lra. rewrite (Qabs_pos (frac x - inject_Z (b ^ (P - 1)) * pw b k)) in H by lra.
    split; [lra|]. intros; exfalso; lra.
  - assert (E : inject_Z m * pw b j == inject_Z (m * b ^ (j - k)) * pw b k).
    { rewrite inject_Z_mult, <- pw_nat by lia. rewrite <- Qmult_assoc, <- pw_add by lia. replace (j - k + k)%Z with j by lia. reflexivity. }
    set (z := (m * b ^ (j - k))%Z) in *. destruct (Z.eq_dec z r) as [Z|Z].
    + split; [rewrite E, Z; lra|]. intros _ N. exfalso. apply N. rewrite E, Z. reflexivity.
    + destruct (G z Z) as [G1 G2]. split; [rewrite E; exact G1|]. intros H _. apply G2. rewrite <- E. exact H.
Qed.

(** the value of a pattern *)
Lemma qmin_bias f : (qmin f = 1 - bias (ebits f) - (prec f - 1))%Z.
Proof. unfold qmin, bias. lia. Qed.
Lemma magnitude_grid f E M : good f -> fields (prec f) (ebits f) E M ->
  exists m j, magnitude (prec f) (ebits f) E M == inject_Z m * pw 2 j /\ (0 <= m < 2 ^ prec f)%Z /\
    (m = if E =? 0 then M else 2 ^ (prec f - 1) + M)%Z /\ (j = qmin f + (if E =? 0 then 0 else E - 1))%Z.
Proof.
  intros (Hp & Hb & _) (HM & HE). assert (2 ^ prec f = 2 * 2 ^ (prec f - 1))%Z by (replace (prec f) with (1 + (prec f - 1))%Z at 1 by lia; rewrite Z.pow_add_r by lia; reflexivity).
  unfold magnitude. destruct (Z.eqb_spec E 0) as [->|N].
  - exists M, (qmin f). split; [unfold pw; rewrite qmin_bias; reflexivity|]. split; [lia|]. split; [reflexivity|lia].
  - exists (2 ^ (prec f - 1) + M)%Z, (qmin f + (E - 1))%Z. split; [unfold pw; rewrite qmin_bias; replace (1 - bias (ebits f) - (prec f - 1) + (E - 1))%Z with (E - bias (ebits f) - (prec f - 1))%Z by lia; reflexivity|].
    split; [lia|]. split; reflexivity.
Qed.
Lemma fraction_magnitude f E M : good f -> fields (prec f) (ebits f) E M ->
  let w := (E * 2 ^ (prec f - 1) + M)%Z in
  (0 < snd (fraction f w))%Z /\ frac (fraction f w) == magnitude (prec f) (ebits f) E M /\ (fst (fraction f w) = 0 <-> E = 0 /\ M = 0)%Z /\ (0 <= fst (fraction f w))%Z /\
  exp_field f w = E /\ frac_field f w = M.
Proof.
  intros Hf HF w. assert (HF2 := HF). destruct HF as (HM & HE). assert (Hg := Hf). destruct Hf as (Hp & Hb & _).
  assert (EF : exp_field f w = E).
  { unfold exp_field, w. rewrite Z.div_add_l by lia. rewrite Z.div_small by lia. rewrite Z.add_0_r. apply Z.mod_small. lia. }
  assert (FF : frac_field f w = M) by (unfold frac_field, w; rewrite Z.add_comm, Z.mod_add by lia; apply Z.mod_small; lia).
  unfold fraction. rewrite EF, FF. assert (P2 : forall k, (0 < 2 ^ Z.max k 0)%Z) by (intros; apply Z.pow_pos_nonneg; lia).
  unfold magnitude. destruct (Z.eqb_spec E 0) as [Z|N].
  - split; [apply mulp_pos; cbn; lia|]. split; [|split; [|split; [|auto]]].
    + rewrite frac_mulp by (cbn; lia). unfold frac, pw. cbn [fst snd]. rewrite qmin_bias. field.
    + unfold mulp. cbn [fst]. specialize (P2 (qmin f)). split; [intros; split; [exact Z|nia]|intros [_ ->]; reflexivity].
    + unfold mulp. cbn [fst]. specialize (P2 (qmin f)). nia.
  - split; [apply mulp_pos; cbn; lia|]. split; [|split; [|split; [|auto]]].
    + rewrite frac_mulp by (cbn; lia). unfold frac, pw. cbn [fst snd]. rewrite qmin_bias. rewrite (Z.add_comm M).
      replace (1 - bias (ebits f) - (prec f - 1) + E - 1)%Z with (E - bias (ebits f) - (prec f - 1))%Z by lia. field.
    + unfold mulp. cbn [fst]. specialize (P2 (qmin f + E - 1)%Z). split; [intros; nia|intros [? _]; lia].
    + unfold mulp. cbn [fst]. specialize (P2 (qmin f + E - 1)%Z). nia.
Qed.

Section At.
Context (f : fmt) (Hf : good f) (x : Z * Z) (Hx1 : (0 < fst x)%Z) (Hx2 : (0 < snd x)%Z).
Let l := log2q x.
Let e := Z.max (qmin f) (l - (prec f - 1)).
Let q := at_exp x e.
Let p := ((e - qmin f) * 2 ^ (prec f - 1) + q)%Z.
Let P2 : (2 ^ prec f = 2 * 2 ^ (prec f - 1))%Z.
Proof. destruct Hf as (Hp & _). replace (prec f) with (1 + (prec f - 1))%Z at 1 by lia. rewrite Z.pow_add_r by lia. reflexivity. Qed.
Let P1 : (0 < 2 ^ (prec f - 1))%Z.
Proof. destruct Hf as (Hp & _). apply Z.pow_pos_nonneg; lia. Qed.
Let B1 : (2 ^ ebits f = 2 * 2 ^ (ebits f - 1) /\ 2 <= 2 ^ (ebits f - 1))%Z.
Proof.
  destruct Hf as (_ & Hb & _). split; [replace (ebits f) with (1 + (ebits f - 1))%Z at 1 by lia; rewrite Z.pow_add_r by lia; reflexivity|].
  change 2%Z with (2 ^ 1)%Z at 1. apply Z.pow_le_mono_r; lia.
Qed.
Let top := (bias (ebits f) - (prec f - 1))%Z.
Let top_q : (top - qmin f = 2 ^ ebits f - 3)%Z.
Proof. unfold top, qmin, bias. lia. Qed.
Lemma too_large_at : too_large (prec f) (ebits f) == (inject_Z (2 ^ prec f) - (1 # 2)) * pw 2 top.
Proof.
  unfold too_large, pw. destruct Hf as (Hp & _). replace (2 ^ (prec f + 1) - 1)%Z with (2 * 2 ^ prec f - 1)%Z by (rewrite Z.pow_add_r by lia; lia).
  replace (bias (ebits f) - prec f)%Z with (-1 + top)%Z by (unfold top; lia). fold (pw 2 (-1 + top)) (pw 2 top). rewrite pw_add by lia.
  rewrite inject_sub, inject_Z_mult. change (pw 2 (-1)) with (1 # 2). change (inject_Z 2) with 2. change (inject_Z 1) with 1. ring.
Qed.
(** q against a whole number *)
Let half : inject_Z q - (1 # 2) <= frac x * / pw 2 e /\ frac x * / pw 2 e <= inject_Z q + (1 # 2) /\
  (frac x * / pw 2 e == inject_Z q + (1 # 2) \/ frac x * / pw 2 e == inject_Z q - (1 # 2) -> Z.even q = true).
Proof.
  destruct (round_spec (mulp 2 (- e) x) (mulp_pos 2 _ x ltac:(lia) Hx2)) as (A & B & C). fold (at_exp x e) in A, B, C. fold q in A, B, C.
  rewrite frac_mulp, pw_opp in A, B, C by lia. auto.
Qed.
Let unit_e : forall a, frac x * / pw 2 e < a -> frac x < a * pw 2 e.
Proof. intros a H. pose proof (pw_pos 2 e ltac:(lia)). assert (T : frac x == frac x * / pw 2 e * pw 2 e) by (field; lra). rewrite T. apply Qmult_lt_compat_r; assumption. Qed.
Let unit_e' : forall a, a <= frac x * / pw 2 e -> a * pw 2 e <= frac x.
Proof. intros a H. pose proof (pw_pos 2 e ltac:(lia)). assert (T : frac x == frac x * / pw 2 e * pw 2 e) by (field; lra). rewrite T. apply Qmult_le_compat_r; lra. Qed.

Lemma below_top : frac x < too_large (prec f) (ebits f) -> (p < inf_pattern f)%Z.
Proof.
  intros H. destruct (nearest_range f Hf x Hx1 Hx2) as (R1 & R2 & R3 & _ & R5). fold l in R1, R2, R3, R5. fold e in R1, R2, R3, R5. fold q in R2, R3, R5.
  rewrite too_large_at in H. pose proof (pw_pos 2 top ltac:(lia)) as Pt. destruct (log2q_spec x Hx1 Hx2) as [L U]. fold l in L, U.
  assert (l < prec f + top)%Z.
  { apply (pw_lt_inv 2); [lia|]. rewrite pw_add by lia. rewrite (pw_nat 2 (prec f)) by (destruct Hf; lia). lra. }
  assert (e <= top)%Z by (unfold e, top in *; lia). unfold inf_pattern, p.
  destruct (Z.eq_dec e top) as [E|E]; [|nia].
  assert (q < 2 ^ prec f)%Z; [|nia]. destruct half as (A & _ & _).
  assert (inject_Z q - (1 # 2) < inject_Z (2 ^ prec f) - (1 # 2)); [|rewrite inj_lt; lra].
  rewrite <- E in H. apply unit_e' in A. rewrite E in A, H. nra.
Qed.
Lemma above_top : too_large (prec f) (ebits f) <= frac x -> (inf_pattern f <= p)%Z.
Proof.
  intros H. destruct (nearest_range f Hf x Hx1 Hx2) as (R1 & R2 & R3 & R4 & _). fold l in R1, R2, R3, R4. fold e in R1, R2, R3, R4. fold q in R2, R3, R4.
  rewrite too_large_at in H. pose proof (pw_pos 2 top ltac:(lia)) as Pt. destruct (log2q_spec x Hx1 Hx2) as [L U]. fold l in L, U.
  assert (prec f - 1 + top < l + 1)%Z.
  { apply (pw_lt_inv 2); [lia|]. rewrite pw_add by lia. rewrite (pw_nat 2 (prec f - 1)) by (destruct Hf; lia).
    assert (inject_Z (2 ^ (prec f - 1)) + 1 <= inject_Z (2 ^ prec f)) by (change 1 with (inject_Z 1); rewrite <- inject_Z_plus, <- inj_le; lia). nra. }
  assert (top <= e)%Z by (unfold e, top in *; lia). assert (Q1 : (2 ^ (prec f - 1) <= q)%Z).
  { destruct R3 as [R3|R3]; [|exact R3]. exfalso. lia. }
  unfold inf_pattern, p. destruct (Z.eq_dec e top) as [E|E]; [|nia].
  assert (2 ^ prec f <= q)%Z; [|nia]. destruct (Z_lt_le_dec q (2 ^ prec f)) as [G|G]; [exfalso|exact G].
  destruct half as (_ & B & C). assert (Gq : inject_Z q <= inject_Z (2 ^ prec f) - 1) by (change 1 with (inject_Z 1); rewrite <- inject_sub, <- inj_le; lia).
  assert (V : inject_Z (2 ^ prec f) - (1 # 2) <= frac x * / pw 2 e).
  { destruct (Qlt_le_dec (frac x * / pw 2 e) (inject_Z (2 ^ prec f) - (1 # 2))) as [K|K]; [|exact K]. apply unit_e in K. rewrite E in K. lra. }
  assert (Eq : inject_Z q == inject_Z (2 ^ prec f - 1)) by (rewrite inject_sub; change (inject_Z 1) with 1; lra).
  assert (q = (2 ^ prec f - 1)%Z) by (unfold Qeq, inject_Z in Eq; cbn [Qnum Qden] in Eq; lia).
  assert (Z.even q = true) by (apply C; left; lra). rewrite H2 in H3. rewrite P2 in H3. rewrite Z.even_sub, Z.even_mul in H3. discriminate.
Qed.

(** In range: the nearest pattern *)
Lemma near_normal : pw 2 (emin f) <= frac x -> frac x < too_large (prec f) (ebits f) ->
  exists E M, nearest f x = ((E * 2 ^ (prec f - 1) + M)%Z, false) /\ fields (prec f) (ebits f) E M /\ finite (ebits f) E /\ (1 <= E)%Z /\
    (forall E' M', fields (prec f) (ebits f) E' M' ->
      Qabs (frac x - magnitude (prec f) (ebits f) E M) <= Qabs (frac x - magnitude (prec f) (ebits f) E' M') /\
      (Qabs (frac x - magnitude (prec f) (ebits f) E' M') == Qabs (frac x - magnitude (prec f) (ebits f) E M) ->
       ~ magnitude (prec f) (ebits f) E' M' == magnitude (prec f) (ebits f) E M -> Z.even M = true)) /\
    Qabs (frac x - magnitude (prec f) (ebits f) E M) * pw 2 (prec f) <= frac x.
Proof.
  intros Lo Hi. pose proof (below_top Hi) as Hp. destruct (nearest_range f Hf x Hx1 Hx2) as (R1 & R2 & R3 & R4 & _). fold l in R1, R2, R3, R4. fold e in R1, R2, R3, R4. fold q in R2, R3, R4.
  destruct (R4 Lo) as [Ee Qe]. destruct (nearest_finite f Hf x Hx1 Hx2 Hp) as (N1 & N2 & N3 & N4). fold l in N1, N3, N4. fold e in N1, N3, N4. fold q in N1, N3, N4. fold p in N1, N3, N4.
  set (E := (p / 2 ^ (prec f - 1))%Z). set (M := (p mod 2 ^ (prec f - 1))%Z). exists E, M.
  pose proof (Z.mod_pos_bound p (2 ^ (prec f - 1)) P1) as MB. fold M in MB. assert (EM : (p = E * 2 ^ (prec f - 1) + M)%Z) by (unfold E, M; rewrite (Z.div_mod p (2 ^ (prec f - 1))) at 1 by lia; lia).
  assert (E1 : (1 <= E)%Z) by (unfold p, inf_pattern in *; nia). assert (E2 : (E < 2 ^ ebits f - 1)%Z) by (unfold inf_pattern in *; nia).
  assert (F : fields (prec f) (ebits f) E M) by (split; lia).
  destruct (fraction_magnitude f E M Hf F) as (_ & V & _). rewrite <- EM in V.
  split; [rewrite <- EM; rewrite <- N1; rewrite <- (N2 Lo); destruct (nearest f x); reflexivity|]. split; [exact F|]. split; [exact E2|]. split; [exact E1|]. split.
  - intros E' M' F'. destruct (magnitude_grid f E' M' Hf F') as (m & j & Gm & Gr & _). rewrite Gm, <- V, N4.
    destruct (grid_nearest 2 e (prec f) x m j ltac:(lia) ltac:(destruct Hf; lia) Hx2) as [G1 G2]; [|exact Gr|].
    + destruct (log2q_spec x Hx1 Hx2) as [L _]. fold l in L. replace (e + prec f - 1)%Z with l by lia. exact L.
    + fold (at_exp x e) in G1, G2. fold q in G1, G2. split; [exact G1|]. intros Q1 Q2. specialize (G2 Q1 Q2).
      assert (Q : (q = M + (E - (e - qmin f)) * 2 ^ (prec f - 1))%Z) by (unfold p in EM; lia). rewrite Q, Z.even_add, Z.even_mul in G2. rewrite Z.even_pow in G2 by (destruct Hf; lia).
      cbn [Z.even] in G2. rewrite orb_true_r in G2. destruct (Z.even M); [reflexivity|discriminate].
  - rewrite <- V, N4. destruct (at_exp_spec x e Hx2) as [A _]. fold q in A. rewrite Qabs_Qminus in A.
    destruct (log2q_spec x Hx1 Hx2) as [L _]. fold l in L.
    assert (pw 2 (e - 1) * pw 2 (prec f) == pw 2 l) by (rewrite <- pw_add by lia; replace (e - 1 + prec f)%Z with l by lia; reflexivity).
    pose proof (pw_pos 2 (prec f) ltac:(lia)). eapply Qle_trans; [apply Qmult_le_compat_r; [exact A|lra]|]. lra.
Qed.
Lemma near_large : too_large (prec f) (ebits f) <= frac x -> nearest f x = (inf_pattern f, true).
Proof. intros H. apply nearest_over; auto. apply above_top. exact H. Qed.
End At.
