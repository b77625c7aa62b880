(** What is printed, and reading it back. *)
From Coq Require Import QArith Qabs Qpower Lqa Lia.
From Verif Require Import Base Reflector_Model FloatText_Model FloatText_Proof FloatText_Proof2 FloatText_Spec FloatText_Text FloatText_Near FloatText_Near2.
Local Open Scope Q_scope.

Section Print.
Context (f : fmt) (Hf : f = single \/ f = double).
Local Notation p := (prec f).
Local Notation b := (ebits f).
Let Hg : good f.
Proof. destruct Hf as [->| ->]; [apply good_single|apply good_double]. Qed.
Let W1 : (0 < 2 ^ (p - 1))%Z.
Proof. apply Z.pow_pos_nonneg; destruct Hg; lia. Qed.

Lemma pattern_split neg E M : pattern p b neg E M = (sign_bit f neg + (E * 2 ^ (p - 1) + M))%Z.
Proof. unfold pattern, sign_bit. lia. Qed.
Lemma pattern_fields neg E M : fields p b E M ->
  exp_field f (pattern p b neg E M) = E /\ frac_field f (pattern p b neg E M) = M /\ sign_of f (pattern p b neg E M) = neg /\
  fraction f (pattern p b neg E M) = fraction f (E * 2 ^ (p - 1) + M) /\ (0 <= pattern p b neg E M < 2 ^ (p + b))%Z.
Proof.
  intros F. assert (F2 := F). destruct F as (HM & HE). destruct (fraction_magnitude f E M Hg F2) as (_ & _ & _ & _ & X1 & X2). 
  assert (Hb : (0 <= p - 1 /\ 0 <= b)%Z) by (destruct Hg; lia).
  assert (B : (2 ^ (p - 1 + b) = 2 ^ b * 2 ^ (p - 1))%Z) by (rewrite Z.pow_add_r by lia; lia).
  assert (B2 : (2 ^ (p + b) = 2 * 2 ^ (p - 1 + b))%Z) by (replace (p + b)%Z with (1 + (p - 1 + b))%Z by lia; rewrite Z.pow_add_r by lia; reflexivity).
  assert (W : (0 <= E * 2 ^ (p - 1) + M < 2 ^ (p - 1 + b))%Z) by nia.
  assert (EF : exp_field f (pattern p b neg E M) = E).
  { unfold exp_field.  unfold pattern. destruct neg; [|exact X1]. rewrite B. replace (2 ^ b * 2 ^ (p - 1) + E * 2 ^ (p - 1) + M)%Z with ((2 ^ b + E) * 2 ^ (p - 1) + M)%Z by lia.
    rewrite Z.div_add_l by lia. rewrite (Z.div_small M) by lia. rewrite Z.add_0_r. replace (2 ^ b + E)%Z with (E + 1 * 2 ^ b)%Z by lia. rewrite Z.mod_add by lia. apply Z.mod_small. exact HE. }
  assert (FF : frac_field f (pattern p b neg E M) = M).
  { unfold frac_field.  unfold pattern. destruct neg; [|exact X2]. rewrite B. replace (2 ^ b * 2 ^ (p - 1) + E * 2 ^ (p - 1) + M)%Z with (M + (2 ^ b + E) * 2 ^ (p - 1))%Z by lia.
    rewrite Z.mod_add by lia. apply Z.mod_small. exact HM. }
  split; [exact EF|]. split; [exact FF|]. split; [|split; [|unfold pattern; destruct neg; lia]].
  - unfold sign_of.  rewrite Z.testbit_spec' with (a := pattern p b neg E M) (n := (p - 1 + b)%Z) || idtac.
    destruct neg; unfold pattern.
    + assert (T := Z.testbit_spec' (2 ^ (p - 1 + b) + E * 2 ^ (p - 1) + M) (p - 1 + b) ltac:(lia)). replace (2 ^ (p - 1 + b) + E * 2 ^ (p - 1) + M)%Z with (1 * 2 ^ (p - 1 + b) + (E * 2 ^ (p - 1) + M))%Z in * by lia.
      rewrite Z.div_add_l in T by lia. rewrite (Z.div_small (E * 2 ^ (p - 1) + M)) in T by lia. destruct (Z.testbit _ _); [reflexivity|discriminate].
    + assert (T := Z.testbit_spec' (0 + E * 2 ^ (p - 1) + M) (p - 1 + b) ltac:(lia)). rewrite Z.add_0_l in *. rewrite Z.div_small in T by lia. destruct (Z.testbit _ _); [discriminate|reflexivity].
  - unfold fraction. rewrite EF, FF, X1, X2. reflexivity.
Qed.

(** the largest number *)
Let top := (bias b - (p - 1))%Z.
Lemma magnitude_max E M : fields p b E M -> finite b E -> magnitude p b E M <= inject_Z (2 ^ p - 1) * pw 2 top.
Proof.
  intros F Fi. assert (F2 := F). destruct F as [HM HE]. destruct (magnitude_grid f E M Hg F2) as (m & j & -> & Hm & _ & Hj). unfold finite in Fi.
  assert (j <= top)%Z.
  { rewrite Hj, qmin_bias.  unfold top, bias in *. assert (2 ^ b = 2 * 2 ^ (b - 1))%Z by (destruct Hf as [->| ->]; reflexivity).
    assert (128 <= 2 ^ (b - 1))%Z by (destruct Hf as [->| ->]; discriminate). destruct (E =? 0)%Z; lia. }
  pose proof (pw_pos 2 j ltac:(lia)). pose proof (pw_le 2 j top ltac:(lia) H). assert (inject_Z m <= inject_Z (2 ^ p - 1)) by (rewrite <- inj_le; lia).
  assert (0 <= inject_Z m) by (change 0 with (inject_Z 0); rewrite <- inj_le; lia).
  eapply Qle_trans; [apply Qmult_le_compat_r; [exact H2|lra]|]. rewrite (Qmult_comm _ (pw 2 j)), (Qmult_comm _ (pw 2 top)). apply Qmult_le_compat_r; [exact H1|]. lra.
Qed.
Lemma magnitude_min E M : fields p b E M -> ~ (E = 0 /\ M = 0)%Z -> pw 2 (qmin f) <= magnitude p b E M.
Proof.
  intros F N. assert (F2 := F). destruct F as [HM HE]. destruct (magnitude_grid f E M Hg F2) as (m & j & -> & Hm & Em & Hj). 
  assert (1 <= m)%Z by (destruct (Z.eqb_spec E 0); lia). assert (qmin f <= j)%Z by (destruct (Z.eqb_spec E 0); lia).
  pose proof (pw_le 2 _ _ ltac:(lia) H0). assert (1 <= inject_Z m) by (change 1 with (inject_Z 1); rewrite <- inj_le; lia). pose proof (pw_pos 2 j ltac:(lia)).
  assert (1 * pw 2 j <= inject_Z m * pw 2 j) by (apply Qmult_le_compat_r; lra). lra.
Qed.
Lemma magnitude_normal E M : fields p b E M -> (1 <= E)%Z -> pw 2 (emin f) <= magnitude p b E M.
Proof.
  intros F N. assert (F2 := F). destruct F as [HM HE]. destruct (magnitude_grid f E M Hg F2) as (m & j & -> & Hm & Em & Hj). 
  destruct (Z.eqb_spec E 0); [lia|]. assert (emin f <= p - 1 + j)%Z by (unfold emin; lia).
  eapply Qle_trans; [apply pw_le; [lia|exact H]|]. rewrite pw_add by lia. apply Qmult_le_compat_r; [|pose proof (pw_pos 2 j ltac:(lia)); lra].
  rewrite pw_nat by (destruct Hg; lia). rewrite <- inj_le. lia.
Qed.

(** the digits of the largest number are rounded down *)
Let C : Z := if (p =? 24)%Z then 340282 else 1797693134862.
Let J : Z := if (p =? 24)%Z then 33 else 296.
Let numeric : inject_Z C * pw 10 J < too_large p b /\ inject_Z (2 ^ p - 1) * pw 2 top < (inject_Z C + (1 # 2)) * pw 10 J /\
  (10 ^ (digs f - 1) <= C < 10 ^ digs f)%Z.
Proof.
  unfold too_large. change (inject_Z 2 ^ (bias b - p)) with (pw 2 (bias b - p)).
  assert (G : inject_Z (2 ^ p - 1) * pw 2 top < inject_Z (2 * C + 1) * pw 10 J * (1 # 2) -> inject_Z (2 ^ p - 1) * pw 2 top < (inject_Z C + (1 # 2)) * pw 10 J).
  { intros H. eapply Qlt_le_trans; [exact H|]. rewrite inject_Z_plus, inject_Z_mult. change (inject_Z 2) with 2. change (inject_Z 1) with 1. assert (forall z w, (2 * z + 1) * w * (1 # 2) == (z + (1 # 2)) * w) by (intros; field). rewrite H0. lra. }
  split; [|split; [apply G; clear G|]].
  - rewrite !pw_nat by (unfold J; destruct Hf as [->| ->]; discriminate). rewrite <- !inject_Z_mult, <- inj_lt. unfold C, J. destruct Hf as [->| ->]; vm_compute; reflexivity.
  - apply (Qmult_lt_r _ _ 2); [lra|]. rewrite <- (Qmult_assoc _ (1 # 2) 2). assert ((1 # 2) * 2 == 1) by reflexivity. rewrite H, Qmult_1_r.
    change 2 with (inject_Z 2). rewrite !pw_nat by (unfold J, top; destruct Hf as [->| ->]; discriminate). rewrite <- !inject_Z_mult, <- inj_lt. unfold C, J, top. destruct Hf as [->| ->]; vm_compute; reflexivity.
  - unfold C. destruct Hf as [->| ->]; split; vm_compute; congruence || reflexivity.
Qed.
Lemma print_in_range x : (0 < fst x)%Z -> (0 < snd x)%Z -> frac x <= inject_Z (2 ^ p - 1) * pw 2 top ->
  inject_Z (fst (scientific (digs f) x)) * pw 10 (snd (scientific (digs f) x) - digs f + 1) < too_large p b.
Proof.
  intros H1 H2 H. destruct numeric as (N1 & N2 & N3). assert (HP : (1 <= digs f)%Z) by (destruct Hg as (_ & _ & ? & _); lia).
  pose proof (pw_pos 10 J ltac:(lia)) as PJ. destruct (Qlt_le_dec (frac x) (inject_Z C * pw 10 J)) as [L|L].
  - pose proof (sci_nearest (digs f) x C J HP H1 H2 ltac:(assert (0 < 10 ^ (digs f - 1))%Z by (apply Z.pow_pos_nonneg; lia); lia)) as S. cbv zeta in S.
    set (d := inject_Z (fst (scientific (digs f) x)) * pw 10 (snd (scientific (digs f) x) - digs f + 1)) in *. rewrite (Qabs_neg (frac x - inject_Z C * pw 10 J)) in S by lra.
    apply Qabs_Qle_condition in S. lra.
  - assert (EX : log10q x = (J + digs f - 1)%Z).
    { destruct (log10q_spec x H1 H2) as [A B]. apply (log_unique 10 (frac x)); [lia|exact A|exact B| |].
      - eapply Qle_trans; [|exact L]. replace (J + digs f - 1)%Z with (digs f - 1 + J)%Z by lia. rewrite pw_add by lia. apply Qmult_le_compat_r; [|lra]. rewrite pw_nat by lia. rewrite <- inj_le. lia.
      - eapply Qle_lt_trans; [exact H|]. eapply Qlt_le_trans; [exact N2|]. replace (J + digs f - 1 + 1)%Z with (digs f + J)%Z by lia. rewrite pw_add by lia. apply Qmult_le_compat_r; [|lra]. rewrite pw_nat by lia.
        assert (inject_Z C + 1 <= inject_Z (10 ^ digs f)) by (change 1 with (inject_Z 1); rewrite <- inject_Z_plus, <- inj_le; lia). lra. }
    unfold scientific. rewrite EX. replace (digs f - 1 - (J + digs f - 1))%Z with (- J)%Z by lia.
    assert (R : round_even (mulp 10 (- J) x) = C).
    { apply round_unique; [apply mulp_pos; [lia|exact H2]| |]; rewrite frac_mulp, pw_opp by lia.
      - assert (inject_Z C <= frac x * / pw 10 J); [|lra]. apply (Qmult_le_r _ _ (pw 10 J)); [exact PJ|]. rewrite <- Qmult_assoc, (Qmult_comm (/ pw 10 J)), Qmult_inv_r by lra. lra.
      - apply (Qmult_lt_r _ _ (pw 10 J)); [exact PJ|]. rewrite <- Qmult_assoc, (Qmult_comm (/ pw 10 J)), Qmult_inv_r by lra. lra. }
    rewrite R. replace (C =? 10 ^ digs f)%Z with false by lia. cbn [fst snd]. replace (J + digs f - 1 - digs f + 1)%Z with J by lia. exact N1.
Qed.

(** the text is never cut off *)
Lemma strip_length P n : (length (strip_zeros (places P n)) <= P)%nat.
Proof. unfold strip_zeros. rewrite rev_length. destruct (drop_zeros_spec (rev (places P n))) as (k & E & _). apply (f_equal (@length Z)) in E. rewrite rev_length, places_length, app_length in E. lia. Qed.
Lemma point_length s : (length (point s) <= 1 + length s)%nat.
Proof. destruct s; cbn; lia. Qed.
Lemma percent_g_length P n X : (1 <= P <= 13)%Z -> (length (percent_g P n X) <= 20)%nat.
Proof.
  intros HP. unfold percent_g. pose proof (strip_length (Z.to_nat P) n) as S. set (D := strip_zeros (places (Z.to_nat P) n)) in *.
  assert (Z.to_nat P <= 13)%nat by lia. destruct ((-4 <=? X) && (X <? P))%Z eqn:E.
  - destruct (Z.leb_spec 0 X).
    + rewrite !app_length, repeat_length. pose proof (point_length (skipn (Z.to_nat X + 1) D)). rewrite skipn_length in *. rewrite firstn_length. lia.
    + rewrite !app_length, repeat_length. cbn [length]. lia.
  - rewrite !app_length. pose proof (point_length (skipn 1 D)). rewrite skipn_length in *. rewrite firstn_length. cbn [length]. destruct (Z.abs X <? 100)%Z; rewrite places_length; lia.
Qed.

Lemma get_number neg E M : fields p b E M -> finite b E -> ~ (E = 0 /\ M = 0)%Z ->
  let x := fraction f (E * 2 ^ (p - 1) + M) in let n := fst (scientific (digs f) x) in let k := (snd (scientific (digs f) x) - digs f + 1)%Z in
  exists d, GetFloat f (pattern p b neg E M) = text_of d /\ proper d /\ w_sign d = (if neg then Minus else Nothing) /\
    size_of d == inject_Z n * pw 10 k /\ (10 ^ (digs f - 1) <= n < 10 ^ digs f)%Z /\ whole 0 (w_int d ++ w_frac d) <> 0%Z /\ (length (text_of d) <= 21)%nat /\ styled (digs f) d.
Proof.
  intros F Fi NZ x n k. destruct (pattern_fields neg E M F) as (E1 & E2 & E3 & E4 & _). destruct (fraction_magnitude f E M Hg F) as (X2 & XV & X0 & X1 & _). fold x in X2, XV, X0, X1, E4.
  assert (Hx1 : (0 < fst x)%Z) by lia. assert (HP : (1 <= digs f <= 13)%Z) by (destruct Hf as [->| ->]; cbn; lia).
  destruct (sci_spec (digs f) x ltac:(lia) Hx1 X2) as (N & _ & S). fold n in N, S. fold k in S.
  assert (HX : (-999 <= snd (scientific (digs f) x) <= 999)%Z).
  { destruct (log10q_spec x Hx1 X2) as [L U].
    assert (Lo : pw 10 (-998) <= frac x).
    { rewrite XV. eapply Qle_trans; [|apply magnitude_min; assumption]. assert (Q : pw 10 (-998) <= pw 2 (-1074)).
      { rewrite (pw_opp 10 998), (pw_opp 2 1074) by lia. assert (pw 2 1074 <= pw 10 998).
        - rewrite !pw_nat by lia. rewrite <- inj_le. transitivity (10 ^ 400)%Z; [vm_compute; congruence|]. apply Z.pow_le_mono_r; lia.
        - pose proof (pw_pos 2 1074 ltac:(lia)). pose proof (pw_pos 10 998 ltac:(lia)). apply Qle_shift_inv_l; [lra|]. rewrite Qmult_comm. apply Qle_shift_div_r; [lra|]. lra. }
      eapply Qle_trans; [exact Q|]. apply pw_le; [lia|]. destruct Hf as [->| ->]; discriminate. }
    assert (Hi : frac x < pw 10 998).
    { rewrite XV. eapply Qle_lt_trans; [apply magnitude_max; assumption|]. eapply Qlt_le_trans; [apply numeric|]. destruct numeric as (_ & _ & NC).
      assert (inject_Z C + (1 # 2) <= pw 10 (digs f)) by (rewrite pw_nat by lia; assert (inject_Z C + 1 <= inject_Z (10 ^ digs f)) by (change 1 with (inject_Z 1); rewrite <- inject_Z_plus, <- inj_le; lia); lra).
      eapply Qle_trans; [apply Qmult_le_compat_r; [exact H|]; pose proof (pw_pos 10 J ltac:(lia)); lra|]. rewrite <- pw_add by lia. apply pw_le; [lia|]. unfold J. destruct Hf as [->| ->]; cbn; lia. }
    assert (-998 < log10q x + 1)%Z by (apply (pw_lt_inv 10); [lia|lra]). assert (log10q x < 998)%Z by (apply (pw_lt_inv 10); [lia|lra]).
    destruct S as [[S _]|[S _]]; lia. }
  destruct (percent_g_written (digs f) n (snd (scientific (digs f) x)) ltac:(lia) N HX) as (d & Ed & Pd & Sd & Vd & Wd & Yd). fold k in Vd.
  pose proof (percent_g_length (digs f) n (snd (scientific (digs f) x)) HP) as Len. rewrite Ed in Len.
  assert (Gt : GetFloat f (pattern p b neg E M) = (if neg then [45%Z] else []) ++ text_of d).
  { unfold GetFloat. rewrite E1, E3, E4.  replace (E =? 2 ^ b - 1)%Z with false by (unfold finite in Fi; lia). replace (fst x =? 0)%Z with false by lia.
    rewrite (surjective_pairing (scientific (digs f) x)). cbv beta iota. fold n. rewrite Ed. apply firstn_all2. rewrite app_length. destruct neg; cbn [length]; lia. }
  exists (Written (if neg then Minus else Nothing) (w_int d) (w_point d) (w_frac d) (w_exp d)).
  assert (T : text_of (Written (if neg then Minus else Nothing) (w_int d) (w_point d) (w_frac d) (w_exp d)) = (if neg then [45%Z] else []) ++ text_of d).
  { unfold text_of. rewrite Sd. destruct neg; reflexivity. }
  rewrite T. split; [exact Gt|]. split; [exact Pd|]. split; [reflexivity|]. split; [exact Vd|]. split; [exact N|]. split; [exact Wd|]. split; [rewrite app_length; destruct neg; cbn [length]; lia|exact Yd].
Qed.
(** the text depends on the digits only *)
Lemma get_same neg E M E' M' : fields p b E M -> finite b E -> ~ (E = 0 /\ M = 0)%Z -> fields p b E' M' -> finite b E' -> ~ (E' = 0 /\ M' = 0)%Z ->
  scientific (digs f) (fraction f (E * 2 ^ (p - 1) + M)) = scientific (digs f) (fraction f (E' * 2 ^ (p - 1) + M')) ->
  GetFloat f (pattern p b neg E M) = GetFloat f (pattern p b neg E' M').
Proof.
  intros F Fi NZ F' Fi' NZ' S. destruct (pattern_fields neg E M F) as (E1 & _ & E3 & E4 & _). destruct (pattern_fields neg E' M' F') as (E1' & _ & E3' & E4' & _).
  destruct (fraction_magnitude f E M Hg F) as (_ & _ & X0 & _). destruct (fraction_magnitude f E' M' Hg F') as (_ & _ & X0' & _). 
  unfold GetFloat. rewrite E1, E3, E4, E1', E3', E4'.  unfold finite in *. replace (E =? 2 ^ b - 1)%Z with false by lia. replace (E' =? 2 ^ b - 1)%Z with false by lia.
  destruct (Z.eqb_spec (fst (fraction f (E * 2 ^ (p - 1) + M))) 0) as [Z|_]; [apply X0 in Z; contradiction|].
  destruct (Z.eqb_spec (fst (fraction f (E' * 2 ^ (p - 1) + M'))) 0) as [Z|_]; [apply X0' in Z; contradiction|]. rewrite S. reflexivity.
Qed.

Lemma no_zero E M : (1 <= E)%Z -> ~ (E = 0 /\ M = 0)%Z.
Proof. lia. Qed.
Lemma stable neg E M old : fields p b E M -> finite b E -> (1 <= E)%Z ->
  exists err E' M', SetFloat f (GetFloat f (pattern p b neg E M)) old = (err, pattern p b neg E' M') /\ fields p b E' M' /\ finite b E' /\ (1 <= E')%Z /\
    GetFloat f (pattern p b neg E' M') = GetFloat f (pattern p b neg E M) /\
    (err = ENone \/ err = EOutOfRange /\ E' = 1%Z /\ M' = 0%Z /\ exists d, GetFloat f (pattern p b neg E M) = text_of d /\ proper d /\ size_of d < smallest_normal b).
Proof.
  intros F Fi H1. destruct (get_number neg E M F Fi (no_zero E M H1)) as (d & Gd & Pd & Sd & Vd & Nd & Wd & _). cbv zeta in Vd, Nd.
  destruct (fraction_magnitude f E M Hg F) as (X2 & XV & X0 & X1 & _). set (x := fraction f (E * 2 ^ (p - 1) + M)) in *.
  assert (Hx1 : (0 < fst x)%Z) by (pose proof (no_zero E M H1); lia). assert (HP : (1 <= digs f)%Z) by (destruct Hg as (_ & _ & ? & _); lia).
  set (n := fst (scientific (digs f) x)) in *. set (k := (snd (scientific (digs f) x) - digs f + 1)%Z) in *.
  destruct (strtod_written d [] [] Pd ltac:(constructor) I) as (y & Sy & Y2 & YV & Y1 & Y0). cbn [app] in Sy. rewrite app_nil_r in Sy.
  assert (Hy1 : (0 < fst y)%Z) by lia. assert (Ng : negated (w_sign d) = neg) by (rewrite Sd; destruct neg; reflexivity). rewrite Ng in Sy. rewrite <- Gd in Sy.
  assert (SN : smallest_normal b == pw 2 (emin f)) by (unfold smallest_normal, pw, emin; rewrite qmin_bias; replace (1 - bias b - (p - 1) + p - 1)%Z with (1 - bias b)%Z by lia; reflexivity).
  assert (YV2 : frac y == inject_Z n * pw 10 k) by (rewrite YV; exact Vd).
  assert (Hi : frac y < too_large p b) by (rewrite YV2; apply print_in_range; [assumption|assumption|]; rewrite XV; apply magnitude_max; assumption).
  destruct (Qlt_le_dec (frac y) (pw 2 (emin f))) as [Sm|Lg].
  - (* below the normal numbers *)
    pose proof (set_small f Hf (GetFloat f (pattern p b neg E M)) neg y old Sy Y2 Hy1 Sm) as St.
    assert (Pos : pw 2 (-1075) < frac y).
    { rewrite YV2. destruct (sci_spec (digs f) x HP Hx1 X2) as (_ & S2 & _). fold n k in S2. apply Qabs_Qle_condition in S2. destruct S2 as [_ S2]. rewrite XV in S2.
      pose proof (magnitude_normal E M F H1) as Mn. pose proof (pw_pos 10 k ltac:(lia)) as Pk.
      assert (1 <= inject_Z n) by (change 1 with (inject_Z 1); rewrite <- inj_le; assert (0 < 10 ^ (digs f - 1))%Z by (apply Z.pow_pos_nonneg; lia); lia).
      assert (1 * pw 10 k <= inject_Z n * pw 10 k) by (apply Qmult_le_compat_r; lra).
      assert (pw 2 (emin f) <= 2 * (inject_Z n * pw 10 k)) by lra.
      assert (pw 2 (-1075) < pw 2 (emin f - 1)) by (apply pw_lt; [lia|]; destruct Hf as [->| ->]; reflexivity).
      assert (pw 2 (emin f) == 2 * pw 2 (emin f - 1)) by (replace (emin f) with (1 + (emin f - 1))%Z at 1 by lia; rewrite pw_add, pw_1 by lia; reflexivity). lra. }
    destruct (Qlt_le_dec (pw 2 (-1075)) (frac y)) as [_|]; [|exfalso; lra].
    assert (F1 : fields p b 1 0) by (unfold fields; destruct Hf as [->| ->]; cbn; lia). assert (Fi1 : finite b 1) by (unfold finite; destruct Hf as [->| ->]; reflexivity).
    assert (Mp : (sign_bit f neg + min_pattern f)%Z = pattern p b neg 1 0) by (rewrite pattern_split; unfold min_pattern; lia). rewrite Mp in St.
    destruct (fraction_magnitude f 1 0 Hg F1) as (Z2 & ZV & Z0 & Z1 & _). 
    assert (MN : magnitude p b 1 0 == pw 2 (emin f)).
    { destruct (magnitude_grid f 1 0 Hg F1) as (m & j & -> & _ & -> & ->).  cbn [Z.eqb]. rewrite Z.add_0_r. rewrite <- pw_nat by (destruct Hg; lia). rewrite <- pw_add by lia. unfold emin.  replace (p - 1 + (qmin f + (1 - 1)))%Z with (qmin f + p - 1)%Z by lia. reflexivity. }
    eexists. exists 1%Z, 0%Z. split; [exact St|]. split; [exact F1|]. split; [exact Fi1|]. split; [lia|]. split.
    + apply get_same; try assumption; try lia. apply sci_between; try assumption; try lia; fold x; fold n; fold k.
      * rewrite <- YV2, ZV, MN. lra.
      * rewrite ZV, MN, XV. apply magnitude_normal; assumption.
    + destruct (Qlt_le_dec (frac y) _); [right|left; reflexivity]. split; [reflexivity|]. split; [reflexivity|]. split; [reflexivity|]. exists d. split; [exact Gd|]. split; [exact Pd|]. rewrite <- YV, SN. exact Sm.
  - destruct (near_normal f Hg y Hy1 Y2 Lg Hi) as (E' & M' & N1 & F' & Fi' & H1' & _ & Near). 
    exists ENone, E', M'. split; [|split; [exact F'|split; [exact Fi'|split; [exact H1'|split; [|left; reflexivity]]]]].
    + rewrite (set_normal f (GetFloat f (pattern p b neg E M)) neg y old Sy Hy1 _ N1); [rewrite pattern_split; reflexivity|]. unfold min_pattern.  destruct F'. nia.
    + symmetry. apply get_same; try assumption; try lia. symmetry. destruct (fraction_magnitude f E' M' Hg F') as (Z2 & ZV & Z0 & Z1 & _). 
      fold x. transitivity (n, (k + digs f - 1)%Z); [|unfold n, k; destruct (scientific (digs f) x); cbn [fst snd]; f_equal; lia].
      apply sci_close; [exact HP|exact Nd|lia|exact Z2|]. rewrite ZV, <- YV2, Qabs_Qminus.
      assert (4 * inject_Z (10 ^ digs f) <= pw 2 p).
      { rewrite pw_nat by (destruct Hg; lia). change 4 with (inject_Z 4). rewrite <- inject_Z_mult, <- inj_le. destruct Hg as (_ & _ & _ & G). exact G. }
      pose proof (Qabs_nonneg (frac y - magnitude p b E' M')). eapply Qle_trans; [|exact Near]. rewrite (Qmult_comm _ (4 * _)), (Qmult_comm _ (pw 2 p)). apply Qmult_le_compat_r; assumption.
Qed.
End Print.
