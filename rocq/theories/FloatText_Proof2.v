(** Rounding to a binary format and printing digits. *)
From Coq Require Import QArith Qabs Qpower Lqa.
From Verif Require Import Base Reflector_Model FloatText_Model FloatText_Proof.
Local Open Scope Q_scope.

(** what is needed of a format: enough precision for its digits *)
Definition good (f : fmt) : Prop :=
  (2 <= prec f /\ 2 <= ebits f /\ 1 <= digs f /\ 4 * 10 ^ digs f <= 2 ^ prec f)%Z.
Lemma good_single : good single.
Proof. unfold good. cbn. lia. Qed.
Lemma good_double : good double.
Proof. unfold good. cbn. lia. Qed.
Definition emin (f : fmt) : Z := (qmin f + prec f - 1)%Z.

Lemma inject_sub a b : inject_Z (a - b) == inject_Z a - inject_Z b.
Proof. unfold Z.sub. rewrite inject_Z_plus, inject_Z_opp. reflexivity. Qed.

(** the value of a pattern written as whole number q at exponent e *)
Lemma fraction_enc f e q : good f -> (qmin f <= e)%Z -> (0 <= q <= 2 ^ prec f)%Z -> (e = qmin f \/ 2 ^ (prec f - 1) <= q)%Z ->
  ((e - qmin f) * 2 ^ (prec f - 1) + q < inf_pattern f)%Z ->
  let p := ((e - qmin f) * 2 ^ (prec f - 1) + q)%Z in
  (0 < snd (fraction f p))%Z /\ frac (fraction f p) == inject_Z q * pw 2 e.
Proof.
  intros (Hp & He & _) He' Hq Hc Hinf p. unfold inf_pattern in Hinf.
  assert (P1 : (0 < 2 ^ (prec f - 1))%Z) by (apply Z.pow_pos_nonneg; lia).
  assert (PE : (0 < 2 ^ ebits f)%Z) by (apply Z.pow_pos_nonneg; lia).
  assert (P2 : (2 ^ prec f = 2 * 2 ^ (prec f - 1))%Z) by (replace (prec f) with (1 + (prec f - 1))%Z at 1 by lia; rewrite Z.pow_add_r by lia; reflexivity).
  set (B := (2 ^ (prec f - 1))%Z) in *. unfold fraction, exp_field, frac_field. fold B.
  assert (D : forall a m, (0 <= m < B)%Z -> (0 <= a < 2 ^ ebits f)%Z -> p = (a * B + m)%Z -> ((p / B) mod 2 ^ ebits f = a)%Z /\ (p mod B = m)%Z).
  { intros a m Hm Ha E. assert (p / B = a)%Z by (symmetry; apply Z.div_unique with m; [left; lia|lia]).
    assert (p mod B = m)%Z by (symmetry; apply Z.mod_unique with a; [left; lia|lia]). rewrite H. split; [apply Z.mod_small; lia|exact H0]. }
  assert (F : forall k m, (0 < snd (mulp 2 k (m, 1%Z)))%Z /\ frac (mulp 2 k (m, 1%Z)) == inject_Z m * pw 2 k).
  { intros k m. split; [apply mulp_pos; cbn; lia|]. rewrite frac_mulp by (cbn; lia). unfold frac. cbn [fst snd]. field. }
  destruct (Z_lt_ge_dec q B) as [L|L].
  - assert (e = qmin f) by lia. subst e. destruct (D 0%Z q) as [-> ->]; [lia|lia|unfold p; lia|]. cbn [Z.eqb]. apply F.
  - destruct (Z.eq_dec q (2 ^ prec f)) as [Eq|Nq].
    + destruct (D (e - qmin f + 2)%Z 0%Z) as [-> ->]; [lia|nia|unfold p; rewrite Eq, P2; ring|].
      replace (e - qmin f + 2 =? 0)%Z with false by lia. destruct (F (qmin f + (e - qmin f + 2) - 1)%Z (0 + B)%Z) as [S ->]. split; [exact S|].
      rewrite Eq, P2. replace (qmin f + (e - qmin f + 2) - 1)%Z with (e + 1)%Z by lia. rewrite pw_add, pw_1 by lia. rewrite inject_Z_mult, Z.add_0_l.
      change (inject_Z 2) with 2. ring.
    + destruct (D (e - qmin f + 1)%Z (q - B)%Z) as [-> ->]; [lia|nia|unfold p; ring|].
      replace (e - qmin f + 1 =? 0)%Z with false by lia. destruct (F (qmin f + (e - qmin f + 1) - 1)%Z (q - B + B)%Z) as [S ->]. split; [exact S|].
      replace (qmin f + (e - qmin f + 1) - 1)%Z with e by lia. replace (q - B + B)%Z with q by lia. reflexivity.
Qed.

(** the whole number a fraction rounds to at exponent e *)
Definition at_exp (x : Z * Z) (e : Z) : Z := round_even (mulp 2 (- e) x).
Lemma at_exp_spec x e : (0 < snd x)%Z ->
  Qabs (inject_Z (at_exp x e) * pw 2 e - frac x) <= pw 2 (e - 1) /\
  (Qabs (inject_Z (at_exp x e) * pw 2 e - frac x) == pw 2 (e - 1) -> Z.even (at_exp x e) = true).
Proof.
  intros H. unfold at_exp. destruct (round_spec (mulp 2 (- e) x) (mulp_pos 2 (- e) x ltac:(lia) H)) as (A & B & C).
  rewrite frac_mulp in A, B, C by lia. rewrite pw_opp in A, B, C by lia. pose proof (pw_pos 2 e ltac:(lia)) as P.
  assert (E : pw 2 (e - 1) == (1 # 2) * pw 2 e) by (replace (pw 2 e) with (pw 2 (e - 1 + 1)) by (f_equal; lia); rewrite pw_add, pw_1 by lia; change (inject_Z 2) with 2; field).
  set (r := inject_Z (round_even (mulp 2 (- e) x))) in *. assert (T : frac x * / pw 2 e * pw 2 e == frac x) by (field; lra). set (t := frac x * / pw 2 e) in *.
  split.
  - apply Qabs_Qle_condition. rewrite E. split; nra.
  - intros G. apply C. rewrite E in G. destruct (Qlt_le_dec (r * pw 2 e - frac x) 0) as [N|N].
    + rewrite Qabs_neg in G by lra. left. nra.
    + rewrite Qabs_pos in G by lra. right. nra.
Qed.

Section Nearest.
Context (f : fmt) (Hf : good f) (x : Z * Z) (Hx1 : (0 < fst x)%Z) (Hx2 : (0 < snd x)%Z).
Let l := log2q x.
Let e := Z.max (qmin f) (l - (prec f - 1)).
Let q := at_exp x e.
Lemma nearest_range : (qmin f <= e)%Z /\ (0 <= q <= 2 ^ prec f)%Z /\ (e = qmin f \/ 2 ^ (prec f - 1) <= q)%Z /\
  (pw 2 (emin f) <= frac x -> e = (l - (prec f - 1))%Z /\ (2 ^ (prec f - 1) <= q)%Z) /\
  (frac x < pw 2 (emin f) -> e = qmin f /\ (q <= 2 ^ (prec f - 1))%Z).
Proof.
  destruct Hf as (Hp & He & _). destruct (log2q_spec x Hx1 Hx2) as [L U]. fold l in L, U.
  destruct (at_exp_spec x e Hx2) as [A _]. fold q in A. apply Qabs_Qle_condition in A. destruct A as [A1 A2].
  pose proof (frac_pos x Hx1 Hx2) as Fx. pose proof (pw_pos 2 e ltac:(lia)) as Pe.
  assert (E1 : pw 2 (e - 1) == (1 # 2) * pw 2 e) by (replace (pw 2 e) with (pw 2 (e - 1 + 1)) by (f_equal; lia); rewrite pw_add, pw_1 by lia; change (inject_Z 2) with 2; field).
  rewrite E1 in A1, A2.
  assert (Q0 : (0 <= q)%Z).
  { assert (- (1) < inject_Z q) by nra. change (- (1)) with (inject_Z (-1)) in H. apply inj_lt in H. lia. }
  assert (B1 : inject_Z (2 ^ (prec f - 1)) == pw 2 (prec f - 1)) by (rewrite pw_nat by lia; reflexivity).
  assert (B2 : inject_Z (2 ^ prec f) == pw 2 (prec f)) by (rewrite pw_nat by lia; reflexivity).
  assert (Nor : e = (l - (prec f - 1))%Z -> (2 ^ (prec f - 1) <= q <= 2 ^ prec f)%Z).
  { intros Ee. assert (S1 : pw 2 l == pw 2 (prec f - 1) * pw 2 e) by (rewrite <- pw_add by lia; rewrite Ee; replace (prec f - 1 + (l - (prec f - 1)))%Z with l by lia; reflexivity).
    assert (S2 : pw 2 (l + 1) == pw 2 (prec f) * pw 2 e) by (rewrite <- pw_add by lia; rewrite Ee; replace (prec f + (l - (prec f - 1)))%Z with (l + 1)%Z by lia; reflexivity).
    rewrite S1 in L. rewrite S2 in U. rewrite <- B1 in L. rewrite <- B2 in U. split.
    - assert (inject_Z (2 ^ (prec f - 1)) < inject_Z q + 1) by nra. change 1 with (inject_Z 1) in H. rewrite <- inject_Z_plus, <- inj_lt in H. lia.
    - assert (inject_Z q < inject_Z (2 ^ prec f) + 1) by nra. change 1 with (inject_Z 1) in H. rewrite <- inject_Z_plus, <- inj_lt in H. lia. }
  assert (Sub : e = qmin f -> frac x < pw 2 (emin f) -> (q <= 2 ^ (prec f - 1))%Z).
  { intros Ee Lt. assert (S : pw 2 (emin f) == pw 2 (prec f - 1) * pw 2 e) by (rewrite <- pw_add by lia; rewrite Ee; unfold emin; replace (prec f - 1 + qmin f)%Z with (qmin f + prec f - 1)%Z by lia; reflexivity).
    rewrite S, <- B1 in Lt. assert (inject_Z q < inject_Z (2 ^ (prec f - 1)) + 1) by nra. change 1 with (inject_Z 1) in H. rewrite <- inject_Z_plus, <- inj_lt in H. lia. }
  assert (Mono : (2 ^ (prec f - 1) <= 2 ^ prec f)%Z) by (apply Z.pow_le_mono_r; lia).
  split; [unfold e; lia|]. destruct (Qlt_le_dec (frac x) (pw 2 (emin f))) as [Lt|Ge].
  - assert (l < emin f)%Z by (apply (pw_lt_inv 2); [lia|lra]). assert (Ee : e = qmin f) by (unfold e, emin in *; lia).
    specialize (Sub Ee Lt). split; [lia|]. split; [left; exact Ee|]. split; [intros; exfalso; lra|]. intros _. auto.
  - assert (emin f < l + 1)%Z by (apply (pw_lt_inv 2); [lia|lra]). assert (Ee : e = (l - (prec f - 1))%Z) by (unfold e, emin in *; lia).
    specialize (Nor Ee). split; [lia|]. split; [right; lia|]. split; [intros _; split; [exact Ee|lia]|]. intros; exfalso; lra.
Qed.
Let p := ((e - qmin f) * 2 ^ (prec f - 1) + q)%Z.
Lemma nearest_over : (inf_pattern f <= p)%Z -> nearest f x = (inf_pattern f, true).
Proof. intros H. unfold nearest. fold l. fold e. change (round_even (mulp 2 (- e) x)) with q. fold p. replace (inf_pattern f <=? p)%Z with true by lia. reflexivity. Qed.
Lemma nearest_finite : (p < inf_pattern f)%Z ->
  fst (nearest f x) = p /\ (pw 2 (emin f) <= frac x -> snd (nearest f x) = false) /\
  (0 < snd (fraction f p))%Z /\ frac (fraction f p) == inject_Z q * pw 2 e.
Proof.
  intros H. destruct nearest_range as (R1 & R2 & R3 & R4 & R5). split; [|split].
  - unfold nearest. fold l. fold e. change (round_even (mulp 2 (- e) x)) with q. fold p. replace (inf_pattern f <=? p)%Z with false by lia. reflexivity.
  - intros G. destruct (R4 G) as [Ee _]. unfold nearest. fold l. fold e. change (round_even (mulp 2 (- e) x)) with q. fold p. replace (inf_pattern f <=? p)%Z with false by lia.
    cbn [snd]. assert (emin f < l + 1)%Z.
    { apply (pw_lt_inv 2); [lia|]. destruct (log2q_spec x Hx1 Hx2) as [_ U]. fold l in U. lra. }
    unfold emin in *. replace (l <? qmin f + prec f - 1)%Z with false by lia. reflexivity.
  - apply (fraction_enc f e q Hf R1 R2 R3 H).
Qed.
End Nearest.

(** ** Digits *)
Lemma inj_pow10 k : (0 <= k)%Z -> inject_Z (10 ^ k) == pw 10 k.
Proof. intros H. rewrite pw_nat by exact H. reflexivity. Qed.

(** what scientific delivers *)
Lemma sci_spec P x : (1 <= P)%Z -> (0 < fst x)%Z -> (0 < snd x)%Z ->
  let n := fst (scientific P x) in let X := snd (scientific P x) in let k := (X - P + 1)%Z in
  (10 ^ (P - 1) <= n < 10 ^ P)%Z /\ Qabs (frac x - inject_Z n * pw 10 k) <= (1 # 2) * pw 10 k /\
  (X = log10q x /\ n = round_even (mulp 10 (P - 1 - X) x) \/ X = (log10q x + 1)%Z /\ n = (10 ^ (P - 1))%Z /\ frac x < inject_Z n * pw 10 k /\
     Qabs (frac x - inject_Z n * pw 10 k) <= (1 # 20) * pw 10 k).
Proof.
  intros HP Hx1 Hx2. destruct (log10q_spec x Hx1 Hx2) as [L U]. unfold scientific. set (X := log10q x) in *.
  set (n := round_even (mulp 10 (P - 1 - X) x)).
  destruct (round_spec (mulp 10 (P - 1 - X) x) (mulp_pos 10 _ x ltac:(lia) Hx2)) as (A & B & _). fold n in A, B.
  rewrite frac_mulp in A, B by lia. set (k := (X - P + 1)%Z). pose proof (pw_pos 10 k ltac:(lia)) as Pk.
  assert (K : pw 10 (P - 1 - X) == / pw 10 k) by (unfold k; rewrite <- pw_opp by lia; replace (- (X - P + 1))%Z with (P - 1 - X)%Z by lia; reflexivity).
  rewrite K in A, B. assert (T : frac x * / pw 10 k * pw 10 k == frac x) by (field; lra). set (t := frac x * / pw 10 k) in *.
  assert (SL : pw 10 X == pw 10 (P - 1) * pw 10 k) by (rewrite <- pw_add by lia; unfold k; replace (P - 1 + (X - P + 1))%Z with X by lia; reflexivity).
  assert (SU : pw 10 (X + 1) == pw 10 P * pw 10 k) by (rewrite <- pw_add by lia; unfold k; replace (P + (X - P + 1))%Z with (X + 1)%Z by lia; reflexivity).
  rewrite SL, <- inj_pow10 in L by lia. rewrite SU, <- inj_pow10 in U by lia.
  assert (N1 : (10 ^ (P - 1) <= n)%Z).
  { assert (inject_Z (10 ^ (P - 1)) < inject_Z n + 1) by nra. change 1 with (inject_Z 1) in H. rewrite <- inject_Z_plus, <- inj_lt in H. lia. }
  assert (N2 : (n <= 10 ^ P)%Z).
  { assert (inject_Z n < inject_Z (10 ^ P) + 1) by nra. change 1 with (inject_Z 1) in H. rewrite <- inject_Z_plus, <- inj_lt in H. lia. }
  assert (P10 : (10 ^ P = 10 * 10 ^ (P - 1))%Z) by (replace P with (1 + (P - 1))%Z at 1 by lia; rewrite Z.pow_add_r by lia; reflexivity).
  assert (P0 : (0 < 10 ^ (P - 1))%Z) by (apply Z.pow_pos_nonneg; lia).
  destruct (Z.eqb_spec n (10 ^ P)) as [E|E]; cbn [fst snd].
  - split; [lia|]. set (k2 := (X + 1 - P + 1)%Z). assert (K2 : pw 10 k2 == 10 * pw 10 k) by (unfold k2; replace (X + 1 - P + 1)%Z with (1 + k)%Z by (unfold k; lia); rewrite pw_add, pw_1 by lia; reflexivity).
    assert (V : inject_Z (10 ^ (P - 1)) * pw 10 k2 == inject_Z (10 ^ P) * pw 10 k) by (rewrite K2, P10, inject_Z_mult; change (inject_Z 10) with 10; ring).
    rewrite V. rewrite E in A, B.
    assert (G : Qabs (frac x - inject_Z (10 ^ P) * pw 10 k) <= (1 # 20) * pw 10 k2).
    { apply Qabs_Qle_condition. rewrite K2. split; nra. }
    split; [|right; split; [reflexivity|split; [reflexivity|split; [exact U|exact G]]]].
    eapply Qle_trans; [exact G|]. pose proof (pw_pos 10 k2 ltac:(lia)). lra.
  - split; [lia|]. split; [|left; split; reflexivity]. fold k. apply Qabs_Qle_condition. split; nra.
Qed.

(** a fraction close to a number of P digits prints as these digits *)
Lemma sci_close P n k y : (1 <= P)%Z -> (10 ^ (P - 1) <= n < 10 ^ P)%Z -> (0 < fst y)%Z -> (0 < snd y)%Z ->
  Qabs (frac y - inject_Z n * pw 10 k) * (4 * inject_Z (10 ^ P)) <= inject_Z n * pw 10 k ->
  scientific P y = (n, (k + P - 1)%Z).
Proof.
  intros HP Hn Hy1 Hy2 H.
  assert (P10 : (10 ^ P = 10 * 10 ^ (P - 1))%Z) by (replace P with (1 + (P - 1))%Z at 1 by lia; rewrite Z.pow_add_r by lia; reflexivity).
  assert (P0 : (0 < 10 ^ (P - 1))%Z) by (apply Z.pow_pos_nonneg; lia).
  pose proof (pw_pos 10 k ltac:(lia)) as Pk. set (d := Qabs (frac y - inject_Z n * pw 10 k)) in *.
  assert (D : frac y - inject_Z n * pw 10 k <= d /\ - d <= frac y - inject_Z n * pw 10 k).
  { split; [apply Qle_Qabs|]. assert (G := Qabs_nonneg (frac y - inject_Z n * pw 10 k)). destruct (proj1 (Qabs_Qle_condition (frac y - inject_Z n * pw 10 k) d) ltac:(unfold d; lra)). lra. }
  destruct D as [D1 D2]. destruct (log10q_spec y Hy1 Hy2) as [L U]. set (X := log10q y) in *.
  set (W := inject_Z (10 ^ P)) in *. assert (W0 : 0 < W) by (apply inj_pos; lia).
  assert (Hn1 : inject_Z n <= W - 1).
  { unfold W. change 1 with (inject_Z 1). rewrite <- inject_sub, <- inj_le. lia. }
  assert (Hn2 : W <= 10 * inject_Z n).
  { unfold W. change 10 with (inject_Z 10). rewrite <- inject_Z_mult, <- inj_le. lia. }
  assert (W10 : 10 <= W) by (unfold W; change 10 with (inject_Z 10); rewrite <- inj_le; lia).
  assert (d0 : 0 <= d) by (unfold d; apply Qabs_nonneg).
  assert (Hd : d <= (1 # 4) * pw 10 k).
  { assert (d * (4 * W) <= W * pw 10 k) by (assert (inject_Z n * pw 10 k <= W * pw 10 k) by (apply Qmult_le_compat_r; lra); lra).
    apply (Qmult_le_l _ _ (4 * W)); [lra|]. lra. }
  assert (Up : frac y < pw 10 (k + P)).
  { rewrite pw_add by lia. rewrite <- (inj_pow10 P) by lia. fold W. assert (inject_Z n * pw 10 k <= (W - 1) * pw 10 k) by (apply Qmult_le_compat_r; lra). lra. }
  destruct (Qlt_le_dec (frac y) (pw 10 (k + P - 1))) as [Lo|Hi].
  - (* just below a power of ten *)
    assert (S1 : pw 10 (k + P - 1) == inject_Z (10 ^ (P - 1)) * pw 10 k) by (rewrite inj_pow10, <- pw_add by lia; replace (P - 1 + k)%Z with (k + P - 1)%Z by lia; reflexivity).
    assert (En : n = (10 ^ (P - 1))%Z).
    { assert (inject_Z n < inject_Z (10 ^ (P - 1)) + 1).
      { rewrite S1 in Lo. apply (Qmult_lt_l _ _ (pw 10 k)); [lra|]. lra. }
      change 1 with (inject_Z 1) in H0. rewrite <- inject_Z_plus, <- inj_lt in H0. lia. }
    assert (Wn : W == 10 * inject_Z n) by (unfold W; rewrite En, P10, inject_Z_mult; reflexivity).
    assert (Hd2 : d <= (1 # 40) * pw 10 k).
    { apply (Qmult_le_l _ _ (4 * W)); [lra|]. rewrite Wn in H |- *. lra. }
    assert (EX : X = (k + P - 2)%Z).
    { apply (log_unique 10 (frac y)); try lia; try assumption.
      - assert (S2 : pw 10 (k + P - 1) == 10 * pw 10 (k + P - 2)) by (replace (k + P - 1)%Z with (1 + (k + P - 2))%Z by lia; rewrite pw_add, pw_1 by lia; reflexivity).
        rewrite <- En in S1. rewrite S1 in S2. pose proof (pw_pos 10 (k + P - 2) ltac:(lia)).
        assert (1 <= inject_Z n) by (change 1 with (inject_Z 1); rewrite <- inj_le; lia). 
        assert (pw 10 k <= inject_Z n * pw 10 k) by (assert (1 * pw 10 k <= inject_Z n * pw 10 k) by (apply Qmult_le_compat_r; lra); lra). lra.
      - replace (k + P - 2 + 1)%Z with (k + P - 1)%Z by lia. exact Lo. }
    unfold scientific. fold X. rewrite EX.
    assert (Er : round_even (mulp 10 (P - 1 - (k + P - 2)) y) = (10 ^ P)%Z).
    { apply round_unique; [apply mulp_pos; lia| |].
      - rewrite frac_mulp by lia. replace (P - 1 - (k + P - 2))%Z with (1 + - k)%Z by lia. rewrite pw_add, pw_1, pw_opp by lia. change (inject_Z 10) with 10. fold W.
        assert (T : frac y * (10 * / pw 10 k) * pw 10 k == 10 * frac y) by (field; lra). apply (Qmult_lt_r _ _ (pw 10 k)); [lra|]. rewrite T, Wn. lra.
      - rewrite frac_mulp by lia. replace (P - 1 - (k + P - 2))%Z with (1 + - k)%Z by lia. rewrite pw_add, pw_1, pw_opp by lia. change (inject_Z 10) with 10. fold W.
        assert (T : frac y * (10 * / pw 10 k) * pw 10 k == 10 * frac y) by (field; lra). apply (Qmult_lt_r _ _ (pw 10 k)); [lra|]. rewrite T, Wn. lra. }
    rewrite Er, Z.eqb_refl. f_equal; [congruence|lia].
  - assert (EX : X = (k + P - 1)%Z).
    { apply (log_unique 10 (frac y)); try lia; try assumption. replace (k + P - 1 + 1)%Z with (k + P)%Z by lia. exact Up. }
    unfold scientific. fold X. rewrite EX.
    assert (Er : round_even (mulp 10 (P - 1 - (k + P - 1)) y) = n).
    { apply round_unique; [apply mulp_pos; lia| |];
        (rewrite frac_mulp by lia; replace (P - 1 - (k + P - 1))%Z with (- k)%Z by lia; rewrite pw_opp by lia;
         assert (T : frac y * / pw 10 k * pw 10 k == frac y) by (field; lra); apply (Qmult_lt_r _ _ (pw 10 k)); [lra|]; rewrite T; lra). }
    rewrite Er. replace (n =? 10 ^ P)%Z with false by lia. reflexivity.
Qed.
