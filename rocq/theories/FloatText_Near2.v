(** Below the normal numbers; digits; the whole of SetFloat and GetFloat. *)
From Coq Require Import QArith Qabs Qpower Lqa Lia.
From Verif Require Import Base Reflector_Model FloatText_Model FloatText_Proof FloatText_Proof2 FloatText_Spec FloatText_Text FloatText_Near.
Local Open Scope Q_scope.

Section Small.
Context (f : fmt) (Hf : good f) (x : Z * Z) (Hx1 : (0 < fst x)%Z) (Hx2 : (0 < snd x)%Z) (Sm : frac x < pw 2 (emin f)).
Let l := log2q x.
Let q := at_exp x (qmin f).
Let P2 : (2 ^ prec f = 2 * 2 ^ (prec f - 1))%Z.
Proof. destruct Hf as (Hp & _). replace (prec f) with (1 + (prec f - 1))%Z at 1 by lia. rewrite Z.pow_add_r by lia. reflexivity. Qed.
Let P1 : (0 < 2 ^ (prec f - 1))%Z.
Proof. destruct Hf as (Hp & _). apply Z.pow_pos_nonneg; lia. Qed.
Let limit : (1 - pw 2 (- (prec f + 1))) * pw 2 (emin f) == (inject_Z (2 ^ prec f) - (1 # 2)) * pw 2 (qmin f - 1).
Proof.
  destruct Hf as (Hp & _). unfold emin. replace (qmin f + prec f - 1)%Z with (prec f + (qmin f - 1))%Z by lia. rewrite (pw_add 2 (prec f)) by lia.
  rewrite (pw_opp 2) by lia. rewrite (pw_add 2 (prec f) 1), pw_1 by lia. rewrite (pw_nat 2 (prec f)) by lia.
  assert (0 < inject_Z (2 ^ prec f)) by (apply inj_pos; lia). change (inject_Z 2) with 2. field. lra.
Qed.
Let inf_big : (2 ^ (prec f - 1) < inf_pattern f)%Z.
Proof. unfold inf_pattern. destruct Hf as (_ & Hb & _). assert (2 ^ 2 <= 2 ^ ebits f)%Z by (apply Z.pow_le_mono_r; lia). change (2 ^ 2)%Z with 4%Z in *. nia. Qed.

Lemma near_small : (0 <= fst (nearest f x) <= min_pattern f)%Z /\
  (frac x < (1 - pw 2 (- (prec f + 1))) * pw 2 (emin f) -> (snd (nearest f x) || (fst (nearest f x) <? min_pattern f)%Z)%bool = true) /\
  ((1 - pw 2 (- (prec f + 1))) * pw 2 (emin f) <= frac x -> nearest f x = (min_pattern f, false)).
Proof.
  destruct (nearest_range f Hf x Hx1 Hx2) as (R1 & R2 & R3 & _ & R5). fold l in R1, R2, R3, R5. destruct (R5 Sm) as [Ee Qe].
  rewrite Ee in R1, R2, R3, Qe. fold q in R2, R3, Qe. destruct (log2q_spec x Hx1 Hx2) as [L U]. fold l in L, U.
  assert (Ll : (l < emin f)%Z) by (apply (pw_lt_inv 2); [lia|lra]).
  assert (N : nearest f x = (q, ((l <? emin f)%Z && negb ((l =? emin f - 1)%Z && (at_exp x (l - (prec f - 1)) =? 2 ^ prec f)%Z)) &&
    negb (q * snd (mulp 2 (- qmin f) x) =? fst (mulp 2 (- qmin f) x))%Z)%bool).
  { unfold nearest. fold l. rewrite Ee. change (round_even (mulp 2 (- qmin f) x)) with q. rewrite Z.sub_diag. replace (0 * 2 ^ (prec f - 1) + q)%Z with q by lia.
    replace (inf_pattern f <=? q)%Z with false by lia. reflexivity. }
  unfold min_pattern. rewrite N. cbn [fst snd]. split; [lia|]. pose proof (pw_pos 2 (qmin f) ltac:(lia)) as Pq. pose proof (pw_pos 2 (qmin f - 1) ltac:(lia)) as Pq1.
  assert (PQ : pw 2 (qmin f) == 2 * pw 2 (qmin f - 1)) by (replace (qmin f) with (1 + (qmin f - 1))%Z at 1 by lia; rewrite pw_add, pw_1 by lia; reflexivity).
  rewrite limit. split.
  - intros Lt. apply orb_true_iff. replace (l <? emin f)%Z with true by lia. cbn [andb].
    assert (T : ((l =? emin f - 1)%Z && (at_exp x (l - (prec f - 1)) =? 2 ^ prec f)%Z)%bool = false).
    { destruct (Z.eqb_spec l (emin f - 1)) as [El|El]; [|reflexivity]. cbn [andb]. apply Z.eqb_neq. intros G.
      replace (l - (prec f - 1))%Z with (qmin f - 1)%Z in G by (unfold emin in *; lia).
      destruct (at_exp_spec x (qmin f - 1) Hx2) as [A _]. rewrite G in A. apply Qabs_Qle_condition in A.
      assert (pw 2 (qmin f - 1 - 1) == (1 # 2) * pw 2 (qmin f - 1)) by (replace (qmin f - 1 - 1)%Z with (-1 + (qmin f - 1))%Z by lia; rewrite pw_add by lia; reflexivity). lra. }
    rewrite T. cbn [negb andb]. destruct (Z.eqb_spec (q * snd (mulp 2 (- qmin f) x)) (fst (mulp 2 (- qmin f) x))) as [Ex|]; [|left; reflexivity]. right.
    apply Z.ltb_lt. assert (F : frac (mulp 2 (- qmin f) x) == inject_Z q).
    { unfold frac. rewrite <- Ex, inject_Z_mult. pose proof (inj_pos _ (mulp_pos 2 (- qmin f) x ltac:(lia) Hx2)). field. lra. }
    rewrite frac_mulp, pw_opp in F by lia. assert (G : frac x == inject_Z q * pw 2 (qmin f)) by (rewrite <- F; field; lra).
    rewrite G in Sm. unfold emin in Sm. replace (qmin f + prec f - 1)%Z with (prec f - 1 + qmin f)%Z in Sm by lia. rewrite pw_add in Sm by lia.
    rewrite (pw_nat 2 (prec f - 1)) in Sm by (destruct Hf; lia). rewrite inj_lt. apply (Qmult_lt_r _ _ (pw 2 (qmin f))); assumption.
  - intros Ge. assert (S1 : pw 2 (emin f - 1) <= (inject_Z (2 ^ prec f) - (1 # 2)) * pw 2 (qmin f - 1)).
    { unfold emin. replace (qmin f + prec f - 1 - 1)%Z with (prec f - 1 + (qmin f - 1))%Z by lia. rewrite pw_add by lia. rewrite (pw_nat 2 (prec f - 1)) by (destruct Hf; lia).
      apply Qmult_le_compat_r; [|lra]. assert (inject_Z (2 ^ (prec f - 1)) + 1 <= inject_Z (2 ^ prec f)) by (change 1 with (inject_Z 1); rewrite <- inject_Z_plus, <- inj_le; lia). lra. }
    assert (emin f - 1 < l + 1)%Z by (apply (pw_lt_inv 2); [lia|lra]). assert (El : l = (emin f - 1)%Z) by lia.
    replace (l - (prec f - 1))%Z with (qmin f - 1)%Z by (unfold emin in *; lia).
    assert (Full : at_exp x (qmin f - 1) = (2 ^ prec f)%Z).
    { destruct (round_spec (mulp 2 (- (qmin f - 1)) x) (mulp_pos 2 _ x ltac:(lia) Hx2)) as (A & B & C). fold (at_exp x (qmin f - 1)) in A, B, C.
      set (r := at_exp x (qmin f - 1)) in *. rewrite frac_mulp, pw_opp in A, B, C by lia.
      set (t := frac x * / pw 2 (qmin f - 1)) in *. assert (T : frac x == t * pw 2 (qmin f - 1)) by (unfold t; field; lra).
      assert (T1 : inject_Z (2 ^ prec f) - (1 # 2) <= t) by (apply (Qmult_le_r _ _ (pw 2 (qmin f - 1))); lra).
      assert (T2 : t < inject_Z (2 ^ prec f)).
      { apply (Qmult_lt_r _ _ (pw 2 (qmin f - 1))); [lra|]. rewrite <- T, <- pw_nat by (destruct Hf; lia). rewrite <- pw_add by lia.
        unfold emin in Sm. replace (prec f + (qmin f - 1))%Z with (qmin f + prec f - 1)%Z by lia. exact Sm. }
      assert (r < 2 ^ prec f + 1)%Z by (rewrite inj_lt, inject_Z_plus; change (inject_Z 1) with 1; lra).
      assert (2 ^ prec f - 1 < r + 1)%Z by (rewrite inj_lt, inject_sub, inject_Z_plus; change (inject_Z 1) with 1; lra).
      destruct (Z.eq_dec r (2 ^ prec f - 1)) as [Er|]; [exfalso|lia]. assert (Hr : inject_Z r == inject_Z (2 ^ prec f) - 1) by (rewrite Er, inject_sub; reflexivity).
      assert (Z.even r = true) by (apply C; left; lra). rewrite Er, P2 in H2. rewrite Z.even_sub, Z.even_mul in H2. discriminate. }
    rewrite Full, El, !Z.eqb_refl. cbn [andb negb]. rewrite andb_false_r. cbn [andb]. f_equal.
    destruct (at_exp_spec x (qmin f) Hx2) as [A _]. fold q in A. apply Qabs_Qle_condition in A.
    assert (H0 : pw 2 (qmin f - 1) == (1 # 2) * pw 2 (qmin f)) by lra.
    assert (2 ^ (prec f - 1) - 1 < q)%Z; [|lia]. rewrite inj_lt, inject_sub. change (inject_Z 1) with 1.
    assert (Q : inject_Z (2 ^ prec f) == 2 * inject_Z (2 ^ (prec f - 1))) by (rewrite P2, inject_Z_mult; reflexivity). rewrite Q in Ge.
    apply (Qmult_lt_r _ _ (pw 2 (qmin f))); [exact Pq|]. rewrite PQ in A |- *. lra.
Qed.
End Small.

(** what atof says, to choose between the limits *)
Lemma atof_small x : (0 < fst x)%Z -> (0 < snd x)%Z -> frac x < pw 2 (-126) ->
  (fst (nearest double x) <= one_pattern double)%Z /\ ((0 < fst (nearest double x))%Z <-> pw 2 (-1075) < frac x).
Proof.
  intros H1 H2 Sm. destruct (nearest_range double good_double x H1 H2) as (R1 & R2 & R3 & R4 & _). destruct (log2q_spec x H1 H2) as [L U].
  assert (B : frac x < too_large (prec double) (ebits double)).
  { eapply Qlt_le_trans; [exact Sm|]. unfold too_large. assert (1 <= inject_Z (2 ^ (prec double + 1) - 1)) by discriminate.
    assert (pw 2 (-126) <= pw 2 (bias (ebits double) - prec double)) by (apply pw_le; [lia|discriminate]). fold (pw 2 (bias (ebits double) - prec double)). pose proof (pw_pos 2 (-126) ltac:(lia)). nra. }
  pose proof (below_top double good_double x H1 H2 B) as Hp. destruct (nearest_finite double good_double x H1 H2 Hp) as (N & _ & _ & _). rewrite N. clear N Hp B.
  set (l := log2q x) in *. assert (l < -126)%Z by (apply (pw_lt_inv 2); [lia|lra]). change (qmin double) with (-1074)%Z in *. change (prec double) with 53%Z in *.
  set (e := Z.max (-1074) (l - (53 - 1))) in *. set (q := at_exp x e) in *. change (one_pattern double) with (1023 * 2 ^ 52)%Z. change (53 - 1)%Z with 52%Z in *.
  assert (P52 : (2 ^ 53 = 2 * 2 ^ 52 /\ 0 < 2 ^ 52)%Z) by (split; reflexivity). set (W := (2 ^ 52)%Z) in *. rewrite (proj1 P52) in R2. split; [unfold e in *; nia|].
  destruct (Z.eq_dec e (-1074)) as [Ee|Ee].
  - rewrite Ee. replace ((-1074 - -1074) * W + q)%Z with q by lia. unfold q in *. rewrite Ee in *. clear q. set (q := at_exp x (-1074)) in *.
    destruct (at_exp_spec x (-1074) H2) as [A C]. fold q in A, C. change (-1074 - 1)%Z with (-1075)%Z in A, C. apply Qabs_Qle_condition in A. pose proof (pw_pos 2 (-1075) ltac:(lia)) as Pq.
    assert (PQ : pw 2 (-1074) == 2 * pw 2 (-1075)) by (change (-1074)%Z with (1 + -1075)%Z; rewrite pw_add, pw_1 by lia; reflexivity). rewrite PQ in A, C. split.
    + intros Q. assert (1 <= inject_Z q) by (change 1 with (inject_Z 1); rewrite <- inj_le; lia). destruct (Qlt_le_dec (pw 2 (-1075)) (frac x)) as [G|G]; [exact G|exfalso].
      set (z := inject_Z q * (2 * pw 2 (-1075))) in *. assert (Z1 : 2 * pw 2 (-1075) <= z) by (unfold z; assert (1 * (2 * pw 2 (-1075)) <= inject_Z q * (2 * pw 2 (-1075))) by (apply Qmult_le_compat_r; lra); lra).
      assert (Qe : inject_Z q == 1).
      { apply Qle_antisym; [|exact H0]. apply (Qmult_le_r _ _ (2 * pw 2 (-1075))); [lra|]. fold z. lra. }
      assert (q = 1)%Z by (unfold Qeq, inject_Z in Qe; cbn [Qnum Qden] in Qe; lia). assert (Ev : Z.even q = true); [|rewrite H3 in Ev; discriminate].
      apply C. rewrite Qabs_pos by lra. lra.
    + intros G. destruct (Z_lt_le_dec 0 q) as [Y|Y]; [exact Y|exfalso]. assert (inject_Z q <= 0) by (change 0 with (inject_Z 0); rewrite <- inj_le; lia).
      assert (inject_Z q * (2 * pw 2 (-1075)) <= 0) by (assert (inject_Z q * (2 * pw 2 (-1075)) <= 0 * (2 * pw 2 (-1075))) by (apply Qmult_le_compat_r; lra); lra). lra.
  - split; [intros _|intros _; nia]. eapply Qlt_le_trans; [|exact L]. apply pw_lt; [lia|]. unfold e in *. lia.
Qed.
Lemma atof_large x : (0 < fst x)%Z -> (0 < snd x)%Z -> pw 2 127 <= frac x -> (one_pattern double < fst (nearest double x))%Z.
Proof.
  intros H1 H2 Lg. destruct (Qlt_le_dec (frac x) (too_large (prec double) (ebits double))) as [B|B]; [|rewrite (near_large double good_double x H1 H2 B); reflexivity].
  destruct (nearest_range double good_double x H1 H2) as (R1 & R2 & R3 & R4 & _). destruct (log2q_spec x H1 H2) as [L U].
  pose proof (below_top double good_double x H1 H2 B) as Hp. destruct (nearest_finite double good_double x H1 H2 Hp) as (N & _ & _ & _). rewrite N. clear N Hp B.
  set (l := log2q x) in *. assert (127 < l + 1)%Z by (apply (pw_lt_inv 2); [lia|lra]). change (qmin double) with (-1074)%Z in *. change (prec double) with 53%Z in *.
  set (e := Z.max (-1074) (l - (53 - 1))) in *. set (q := at_exp x e) in *. change (one_pattern double) with (1023 * 2 ^ 52)%Z. change (53 - 1)%Z with 52%Z in *.
  assert (0 < 2 ^ 52)%Z by reflexivity. set (W := (2 ^ 52)%Z) in *. unfold e in *. nia.
Qed.

(** ** SetFloat *)
Section Set_.
Context (f : fmt) (Hf : f = single \/ f = double) (text : list Z) (neg : bool) (x : Z * Z) (old : Z).
Context (Hs : strtod text = Number neg x) (Hx2 : (0 < snd x)%Z).
Let Hg : good f.
Proof. destruct Hf as [->| ->]; [apply good_single|apply good_double]. Qed.
Let min1 : (0 < min_pattern f)%Z.
Proof. destruct Hf as [->| ->]; reflexivity. Qed.

Lemma set_zero : fst x = 0%Z -> SetFloat f text old = (ENone, sign_bit f neg).
Proof. intros H. unfold SetFloat. rewrite Hs, H. reflexivity. Qed.
Context (Hx1 : (0 < fst x)%Z).
Lemma set_normal p : nearest f x = (p, false) -> (min_pattern f <= p)%Z -> SetFloat f text old = (ENone, (sign_bit f neg + p)%Z).
Proof. intros H L. unfold SetFloat. rewrite Hs, H. replace (fst x =? 0)%Z with false by lia. replace (p <? min_pattern f)%Z with false by lia. reflexivity. Qed.
Lemma set_large : too_large (prec f) (ebits f) <= frac x -> SetFloat f text old = (EOutOfRange, (sign_bit f neg + max_pattern f)%Z).
Proof.
  intros H. unfold SetFloat. rewrite Hs, (near_large f Hg x Hx1 Hx2 H). replace (fst x =? 0)%Z with false by lia. cbn [orb].
  pose proof (atof_large x Hx1 Hx2) as G. assert (pw 2 127 <= frac x).
  { eapply Qle_trans; [|exact H]. rewrite (too_large_at f Hg x). destruct Hf as [->| ->].
    - change (bias (ebits single) - (prec single - 1))%Z with 104%Z. change (pw 2 127) with (pw 2 (23 + 104)). rewrite pw_add by lia. apply Qmult_le_compat_r; [discriminate|]. pose proof (pw_pos 2 104 ltac:(lia)). lra.
    - change (bias (ebits double) - (prec double - 1))%Z with 971%Z. assert (pw 2 127 <= pw 2 971) by (apply pw_le; lia). pose proof (pw_pos 2 971 ltac:(lia)).
      assert (1 * pw 2 971 <= (inject_Z (2 ^ prec double) - (1 # 2)) * pw 2 971) by (apply Qmult_le_compat_r; [discriminate|lra]). lra. }
  specialize (G H0). assert (0 < one_pattern double)%Z by reflexivity. replace (0 <? fst (nearest double x))%Z with true by lia. replace (one_pattern double <? fst (nearest double x))%Z with true by lia.
  destruct neg; reflexivity.
Qed.
Lemma set_small : frac x < pw 2 (emin f) ->
  SetFloat f text old = (if Qlt_le_dec (frac x) ((1 - pw 2 (- (prec f + 1))) * pw 2 (emin f)) then EOutOfRange else ENone,
    (sign_bit f (if Qlt_le_dec (pw 2 (-1075)) (frac x) then neg else true) + min_pattern f)%Z).
Proof.
  intros H. unfold SetFloat. rewrite Hs. replace (fst x =? 0)%Z with false by lia. destruct (near_small f Hg x Hx1 Hx2 H) as (A & B & C).
  assert (Em : pw 2 (emin f) <= pw 2 (-126)) by (apply pw_le; [lia|]; destruct Hf as [->| ->]; discriminate).
  destruct (atof_small x Hx1 Hx2 ltac:(lra)) as [S1 S2]. destruct (nearest f x) as [p er]. cbn [fst snd] in *.
  destruct (Qlt_le_dec (frac x) _) as [Lt|Ge].
  - rewrite (B Lt). f_equal. replace (one_pattern double <? fst (nearest double x))%Z with false by lia.
    rewrite andb_false_r. destruct (Qlt_le_dec (pw 2 (-1075)) (frac x)) as [G|G].
    + replace (0 <? fst (nearest double x))%Z with true by (symmetry; apply Z.ltb_lt; apply S2; exact G). destruct neg; reflexivity.
    + replace (0 <? fst (nearest double x))%Z with false; [destruct neg; reflexivity|]. symmetry. apply Z.ltb_ge. destruct (Z_lt_le_dec 0 (fst (nearest double x))) as [Y|Y]; [apply S2 in Y; lra|exact Y].
  - assert (C' := C Ge). injection C' as -> ->. rewrite Z.ltb_irrefl. cbn [orb]. f_equal. f_equal. f_equal.
    destruct (Qlt_le_dec (pw 2 (-1075)) (frac x)) as [G|G]; [reflexivity|exfalso].
    assert (K : pw 2 (-1075) < pw 2 (emin f - 1)) by (apply pw_lt; [lia|]; destruct Hf as [->| ->]; reflexivity).
    assert (K2 : pw 2 (emin f) == 2 * pw 2 (emin f - 1)) by (replace (emin f) with (1 + (emin f - 1))%Z at 1 by lia; rewrite pw_add, pw_1 by lia; reflexivity).
    assert (K3 : pw 2 (- (prec f + 1)) <= 1 # 2) by (change (1 # 2) with (pw 2 (-1)); apply pw_le; [lia|]; destruct Hf as [->| ->]; discriminate).
    pose proof (pw_pos 2 (emin f - 1) ltac:(lia)). nra.
Qed.
End Set_.

(** ** Digits *)
Lemma sci_nearest P x m j : (1 <= P)%Z -> (0 < fst x)%Z -> (0 < snd x)%Z -> (0 <= m < 10 ^ P)%Z ->
  let n := fst (scientific P x) in let k := (snd (scientific P x) - P + 1)%Z in
  Qabs (frac x - inject_Z n * pw 10 k) <= Qabs (frac x - inject_Z m * pw 10 j).
Proof.
  intros HP H1 H2 Hm. destruct (log10q_spec x H1 H2) as [L U].
  destruct (grid_nearest 10 (log10q x - P + 1) P x m j ltac:(lia) HP H2) as [G _]; [replace (log10q x - P + 1 + P - 1)%Z with (log10q x) by lia; exact L|exact Hm|].
  replace (- (log10q x - P + 1))%Z with (P - 1 - log10q x)%Z in G by lia. unfold scientific. destruct (Z.eqb_spec (round_even (mulp 10 (P - 1 - log10q x) x)) (10 ^ P)) as [E|E]; cbn [fst snd]; [|exact G].
  rewrite E in G. assert (V : inject_Z (10 ^ (P - 1)) * pw 10 (log10q x + 1 - P + 1) == inject_Z (10 ^ P) * pw 10 (log10q x - P + 1)).
  { rewrite !inj_pow10 by lia. rewrite <- !pw_add by lia. replace (P - 1 + (log10q x + 1 - P + 1))%Z with (P + (log10q x - P + 1))%Z by lia. reflexivity. }
  rewrite V. exact G.
Qed.
(** a number between the digits and the value they stand for has the same digits *)
Lemma sci_between P x y : (1 <= P)%Z -> (0 < fst x)%Z -> (0 < snd x)%Z -> (0 < fst y)%Z -> (0 < snd y)%Z ->
  let n := fst (scientific P x) in let k := (snd (scientific P x) - P + 1)%Z in
  inject_Z n * pw 10 k <= frac y -> frac y <= frac x -> scientific P y = scientific P x.
Proof.
  intros HP H1 H2 G1 G2 n k A B. destruct (sci_spec P x HP H1 H2) as (N & _ & C). fold n in N, C. fold k in C.
  destruct C as [[CX Cn]|(_ & _ & C & _)]; [|exfalso; lra]. unfold k in *. rewrite CX in *. set (X := log10q x) in *.
  destruct (log10q_spec x H1 H2) as [L U]. fold X in L, U. destruct (log10q_spec y G1 G2) as [L' U'].
  assert (LY : pw 10 X <= frac y).
  { eapply Qle_trans; [|exact A]. assert (S : pw 10 X == inject_Z (10 ^ (P - 1)) * pw 10 (X - P + 1)) by (rewrite inj_pow10 by lia; rewrite <- pw_add by lia; replace (P - 1 + (X - P + 1))%Z with X by lia; reflexivity).
    rewrite S. apply Qmult_le_compat_r; [rewrite <- inj_le; lia|]. pose proof (pw_pos 10 (X - P + 1) ltac:(lia)). lra. }
  assert (EX : log10q y = X) by (apply (log_unique 10 (frac y)); [lia|exact L'|exact U'|exact LY|lra]).
  assert (R : round_even (mulp 10 (P - 1 - X) y) = n).
  { apply Z.le_antisymm.
    - rewrite Cn. apply round_mono; try (apply mulp_pos; [lia|assumption]). rewrite !frac_mulp by lia. apply Qmult_le_compat_r; [exact B|]. pose proof (pw_pos 10 (P - 1 - X) ltac:(lia)). lra.
    - assert (RN : round_even (n, 1%Z) = n) by (apply round_unique; cbn; [lia| |]; unfold frac; cbn [fst snd]; assert (inject_Z n / inject_Z 1 == inject_Z n) by field; lra).
      rewrite <- RN at 1. apply round_mono; [reflexivity|apply mulp_pos; [lia|assumption]|]. rewrite frac_mulp by lia. unfold frac at 1. cbn [fst snd].
      assert (E : inject_Z n / inject_Z 1 == inject_Z n * pw 10 (X - P + 1) * pw 10 (P - 1 - X)) by (rewrite <- Qmult_assoc, <- pw_add by lia; replace (X - P + 1 + (P - 1 - X))%Z with 0%Z by lia; rewrite pw_0; field).
      rewrite E. apply Qmult_le_compat_r; [exact A|]. pose proof (pw_pos 10 (P - 1 - X) ltac:(lia)). lra. }
  unfold scientific at 1. rewrite EX, R. replace (n =? 10 ^ P)%Z with false by lia. rewrite <- CX. unfold n. destruct (scientific P x); reflexivity.
Qed.
