(** Lemmas for C46. *)
From Coq Require Import Floats.SpecFloat.
From Verif Require Import Base Float_Model Float_Proof HalfFloat_Model Vector_Model Vector_Spec.

Lemma lanes2_spec f : forall a b r, length a = length b -> lanes2 f a b = Some r ->
  length r = length a /\ forall i, (i < length a)%nat -> f (nth i a 0) (nth i b 0) = Some (nth i r 0).
Proof.
  induction a as [|x a IH]; intros [|y b] r L E; try discriminate; cbn in E.
  - injection E as <-. split; [reflexivity|]. cbn. lia.
  - destruct (f x y) as [z|] eqn:Ef; [|discriminate]. destruct (lanes2 f a b) as [r'|] eqn:Er; [|discriminate].
    injection E as <-. cbn in L. destruct (IH b r' ltac:(lia) Er) as [L' H]. cbn. split; [lia|].
    intros [|i] Hi; [exact Ef|apply H; lia].
Qed.
Lemma lanes2_total f : forall a b, length a = length b ->
  (forall i, (i < length a)%nat -> f (nth i a 0) (nth i b 0) <> None) -> exists r, lanes2 f a b = Some r.
Proof.
  induction a as [|x a IH]; intros [|y b] L H; try discriminate; cbn; eauto.
  destruct (f x y) as [z|] eqn:Ef; [|exfalso; apply (H 0%nat); [cbn; lia|exact Ef]].
  cbn in L. destruct (IH b ltac:(lia)) as [r ->]; eauto. intros i Hi. apply (H (S i)). cbn. lia.
Qed.

Lemma arith_means signed z v : arith signed v = Some z -> (if signed then z = v else z = v mod 2 ^ 32) /\ lane_ok signed z.
Proof.
  unfold arith, lane_ok. destruct signed.
  - destruct ((_ <=? _) && _) eqn:E; [|discriminate]. intros [= <-]. split; [reflexivity|].
    apply andb_prop in E as [E1 E2]. unfold is_sword. change (32 - 1) with 31. lia.
  - intros [= <-]. split; [reflexivity|]. apply wrap_range. lia.
Qed.
Lemma land_sword a b : is_sword 32 a -> is_sword 32 b -> is_sword 32 (Z.land a b).
Proof.
  unfold is_sword. change (32 - 1) with 31. intros Ha Hb.
  assert (B : forall x, - 2 ^ 31 <= x < 2 ^ 31 <-> Z.shiftr x 31 = 0 \/ Z.shiftr x 31 = -1).
  { intros x. rewrite Z.shiftr_div_pow2 by lia. change (2 ^ 31) with 2147483648. lia. }
  apply B. apply B in Ha. apply B in Hb. rewrite Z.shiftr_land. destruct Ha as [-> | ->], Hb as [-> | ->]; auto.
Qed.
Lemma lor_sword a b : is_sword 32 a -> is_sword 32 b -> is_sword 32 (Z.lor a b).
Proof.
  unfold is_sword. change (32 - 1) with 31. intros Ha Hb.
  assert (B : forall x, - 2 ^ 31 <= x < 2 ^ 31 <-> Z.shiftr x 31 = 0 \/ Z.shiftr x 31 = -1).
  { intros x. rewrite Z.shiftr_div_pow2 by lia. change (2 ^ 31) with 2147483648. lia. }
  apply B. apply B in Ha. apply B in Hb. rewrite Z.shiftr_lor. destruct Ha as [-> | ->], Hb as [-> | ->]; auto.
Qed.

Lemma shiftr_lane signed x y : lane_ok signed x -> 0 <= y -> lane_ok signed (Z.shiftr x y).
Proof.
  intros Hx Hy. assert (P := pow2_pos y Hy). rewrite Z.shiftr_div_pow2 by lia. unfold lane_ok, is_sword, is_word in *. change (32 - 1) with 31 in *.
  destruct signed; (split; [apply Z.div_le_lower_bound; nia|apply Z.div_lt_upper_bound; nia]).
Qed.

Lemma lane_op_means signed o x y z : lane_ok signed x -> lane_ok signed y -> lane_op signed o x y = Some z ->
  means signed o x y z /\ lane_ok signed z.
Proof.
  intros Hx Hy. unfold lane_op, means. cbv zeta. destruct o.
  - apply arith_means.
  - apply arith_means.
  - apply arith_means.
  - destruct (Z.eqb_spec y 0) as [|Hn]; [discriminate|]. intros E. apply arith_means in E as [E L]. split; [|exact L].
    assert (EQ : z = Z.quot x y).
    { destruct signed; [exact E|]. rewrite E. unfold lane_ok, is_word in Hx, Hy. apply Z.mod_small.
      rewrite Z.quot_div_nonneg by lia. split; [apply Z.div_pos; lia|]. apply Z.div_lt_upper_bound; nia. }
    clear E. subst z. split; [exact Hn|]. pose proof (Z.quot_rem' x y) as Q. replace (x - y * Z.quot x y) with (Z.rem x y) by lia.
    split; [apply Z.rem_bound_abs; lia|]. pose proof (Z.rem_sign_mul x y Hn). lia.
  - intros [= <-]. split; [intros; apply Z.land_spec|]. unfold lane_ok in *. destruct signed; [now apply land_sword|]. apply land_bounds; [lia|exact Hx].
  - intros [= <-]. split; [intros; apply Z.lor_spec|]. unfold lane_ok in *. destruct signed; [now apply lor_sword|]. apply lor_bounds; [lia|exact Hx|exact Hy].
  - destruct ((_ <=? _) && _) eqn:E; [|discriminate]. intros [= <-]. split; [apply Z.shiftr_div_pow2; lia|apply shiftr_lane; [exact Hx|lia]].
  - destruct ((_ <=? _) && _) eqn:E; [|discriminate]. destruct signed.
    + destruct (0 <=? x); [|discriminate]. intros H. apply arith_means in H as [H L]. split; [|exact L]. rewrite H. apply Z.shiftl_mul_pow2. lia.
    + intros [= <-]. split; [|apply wrap_range; lia]. unfold wrap. now rewrite Z.shiftl_mul_pow2 by lia.
Qed.

Lemma land_lor_same x y : Z.land x y = Z.lor x y -> x = y.
Proof.
  intros E. apply Z.bits_inj'. intros n Hn. apply (f_equal (fun z => Z.testbit z n)) in E.
  rewrite Z.land_spec, Z.lor_spec in E. destruct (Z.testbit x n), (Z.testbit y n); auto; discriminate.
Qed.

Lemma equal_spec a b : length a = length b -> (equal a b = true <-> a = b).
Proof.
  revert b; induction a as [|x a IH]; intros [|y b] L; try discriminate; cbn; [tauto|].
  rewrite andb_true_iff, Z.eqb_eq, IH by (cbn in L; lia). split; [intros [-> ->]; reflexivity|intros E; now injection E].
Qed.

Lemma lor_neg l : forall acc, fold_left Z.lor l acc < 0 <-> acc < 0 \/ Exists (fun x => x < 0) l.
Proof.
  induction l as [|x l IH]; intros acc; cbn [fold_left].
  - split; [now left|]. intros [H|H]; [exact H|inversion H].
  - rewrite IH. rewrite Z.lor_neg. rewrite Exists_cons. tauto.
Qed.

(** *** SSE integers *)
Lemma nth_zipw f a b i : length a = 4%nat -> length b = 4%nat -> (i < 4)%nat -> at_ (zipw f a b) i = f (at_ a i) (at_ b i).
Proof.
  intros La Lb Hi. destruct a as [|a0 [|a1 [|a2 [|a3 [|]]]]]; try discriminate. destruct b as [|b0 [|b1 [|b2 [|b3 [|]]]]]; try discriminate.
  destruct i as [|[|[|[|]]]]; [reflexivity..|lia].
Qed.
Lemma zipw_length f a b : length a = 4%nat -> length b = 4%nat -> length (zipw f a b) = 4%nat.
Proof. intros La Lb. unfold zipw. rewrite map_length, combine_length. lia. Qed.
Lemma at_word a i : words a -> (i < 4)%nat -> is_word 32 (at_ a i).
Proof. intros [L H] Hi. rewrite Forall_forall in H. apply H. apply nth_In. lia. Qed.
Lemma words_of a : length a = 4%nat -> (forall i, (i < 4)%nat -> is_word 32 (at_ a i)) -> words a.
Proof.
  intros L H. split; [exact L|]. apply Forall_forall. intros x Hx. apply (In_nth a x 0) in Hx as (i & Hi & <-). apply H. lia.
Qed.
Lemma ilane_word o x y : is_word 32 x -> is_word 32 y -> is_word 32 (ilane o x y).
Proof.
  intros Hx Hy. destruct o; cbn; try (apply wrap_range; lia).
  - now apply land_bounds. - now apply lor_bounds. - now apply lxor_bounds.
Qed.
Lemma vec4_ext a b : length a = 4%nat -> length b = 4%nat -> (forall i, (i < 4)%nat -> at_ a i = at_ b i) -> a = b.
Proof. intros La Lb H. apply (nth_ext a b 0 0); [lia|]. intros n Hn. apply H. lia. Qed.
Lemma wrap_sgn_eq x : is_word 32 x -> (sgn 32 x) mod 2 ^ 32 = x.
Proof. intros H. change ((sgn 32 x) mod 2 ^ 32) with (wrap 32 (sgn 32 x)). rewrite sgn_wrap by lia. now apply wrap_small. Qed.
Lemma lxor_all x : is_word 32 x -> Z.lxor x (2 ^ 32 - 1) = 2 ^ 32 - 1 - x.
Proof.
  intros Hx. assert (E : Z.land x (Z.lxor x (2 ^ 32 - 1)) = 0).
  { apply Z.bits_inj'. intros n Hn. rewrite Z.land_spec, Z.lxor_spec, Z.bits_0. destruct (Z.ltb_spec n 32).
    - change (2 ^ 32 - 1) with (Z.ones 32). rewrite Z.ones_spec_low by lia. destruct (Z.testbit x n); reflexivity.
    - rewrite (testbit_above 32 x n) by (unfold is_word in Hx; lia). reflexivity. }
  assert (O : Z.lor x (Z.lxor x (2 ^ 32 - 1)) = 2 ^ 32 - 1).
  { apply Z.bits_inj'. intros n Hn. rewrite Z.lor_spec, Z.lxor_spec. destruct (Z.ltb_spec n 32).
    - change (2 ^ 32 - 1) with (Z.ones 32). rewrite Z.ones_spec_low by lia. destruct (Z.testbit x n); reflexivity.
    - rewrite (testbit_above 32 x n) by (unfold is_word in Hx; lia). destruct (Z.testbit (2 ^ 32 - 1) n); reflexivity. }
  rewrite lor_add in O by exact E. lia.
Qed.

(** *** Conversions *)
Lemma rne_nearest m k : 0 <= m -> 0 < k ->
  2 * Z.abs (m - rne m k * 2 ^ k) <= 2 ^ k /\ (2 * Z.abs (m - rne m k * 2 ^ k) = 2 ^ k -> Z.even (rne m k) = true).
Proof.
  intros Hm Hk. assert (P := pow2_pos k ltac:(lia)). unfold rne. destruct (Z.leb_spec k 0); [lia|]. cbv zeta.
  pose proof (Z.div_mod m (2 ^ k) ltac:(lia)) as D. pose proof (Z.mod_pos_bound m (2 ^ k) P) as B.
  set (q := m / 2 ^ k) in *. set (r := m mod 2 ^ k) in *. clearbody q r.
  destruct (Z.ltb_spec (2 * r) (2 ^ k)) as [L|L].
  - replace (m - q * 2 ^ k) with r by lia. rewrite Z.abs_eq by lia. lia.
  - destruct (Z.ltb_spec (2 ^ k) (2 * r)) as [G|G].
    + replace (m - (q + 1) * 2 ^ k) with (r - 2 ^ k) by lia. lia.
    + destruct (Z.even q) eqn:Ev.
      * replace (m - q * 2 ^ k) with r by lia. split; [lia|]. intros _. exact Ev.
      * replace (m - (q + 1) * 2 ^ k) with (r - 2 ^ k) by lia. split; [lia|]. intros _. rewrite Z.add_1_r, Z.even_succ. rewrite <- Z.negb_even, Ev. reflexivity.
Qed.

(** the pattern of a small integer *)
Lemma pattern_val s X k q : 0 <= k -> k < 254 -> 2 ^ 23 <= q < 2 ^ 24 -> X = q * 2 ^ k ->
  finite (sign_bit s + enc X) /\ val (sign_bit s + enc X) = if s then - X else X.
Proof.
  intros Hk Hk2 Hq ->. rewrite enc_exact by lia.
  set (w := sign_bit s + (k * 2 ^ 23 + q)).
  assert (Sm : sign_bit s = if s then 2 ^ 31 else 0) by reflexivity.
  change (2 ^ 23) with 8388608 in *. change (2 ^ 24) with 16777216 in *.
  assert (Wd : w / 8388608 = (if s then 256 else 0) + (k + 1)). { unfold w. destruct s; cbn [sign_bit]; [change (2 ^ 31) with 2147483648|]; lia. }
  assert (Wm : w mod 8388608 = q - 8388608). { unfold w. destruct s; cbn [sign_bit]; [change (2 ^ 31) with 2147483648|]; lia. }
  assert (We : (w / 8388608) mod 2 ^ 8 = k + 1). { rewrite Wd. change (2 ^ 8) with 256. destruct s; lia. }
  assert (Wr : 0 <= w < 2 ^ 32). { unfold w. destruct s; cbn [sign_bit]; [change (2 ^ 31) with 2147483648|]; lia. }
  assert (Ws : Z.testbit w 31 = s).
  { rewrite Z.testbit_odd, Z.shiftr_div_pow2 by lia. change (2 ^ 31) with 2147483648.
    replace (w / 2147483648) with (if s then 1 else 0); [destruct s; reflexivity|]. unfold w. destruct s; cbn [sign_bit]; [change (2 ^ 31) with 2147483648|]; lia. }
  split.
  - split; [exact Wr|]. change (2 ^ 23) with 8388608. rewrite We. lia.
  - unfold val, mag. change (2 ^ 23) with 8388608. rewrite We, Wm, Ws. replace (k + 1 =? 0) with false by lia.
    replace (k + 1 - 1) with k by lia. replace (q - 8388608 + 8388608) with q by lia. reflexivity.
Qed.
Lemma of_int_val z : Z.abs z < 2 ^ 24 -> finite (to_bits (of_int z)) /\ val (to_bits (of_int z)) = z * 2 ^ 149.
Proof.
  intros Hz. destruct (Z.eq_dec z 0) as [->|Hn].
  { change (to_bits (of_int 0)) with 0. split; [split; [lia|vm_compute; congruence]|reflexivity]. }
  assert (E : to_bits (of_int z) = sign_bit (z * 2 ^ 149 <? 0) + enc (Z.abs (z * 2 ^ 149))).
  { apply normalize_enc; [exact Hn|lia|reflexivity|]. rewrite Z.abs_mul. change (Z.abs (2 ^ 149)) with (2 ^ 149).
    apply Z.lt_trans with (2 ^ 24 * 2 ^ 149); [apply Z.mul_lt_mono_pos_r; [reflexivity|exact Hz]|reflexivity]. }
  rewrite E. set (l := Z.log2 (Z.abs z)). assert (L := Z.log2_spec (Z.abs z) ltac:(lia)). fold l in L.
  assert (L0 : 0 <= l) by apply Z.log2_nonneg. assert (L1 : l < 24) by (apply Z.log2_lt_pow2; lia).
  assert (P : 0 < 2 ^ (23 - l)) by (apply pow2_pos; lia).
  assert (Q1 : 2 ^ 23 = 2 ^ l * 2 ^ (23 - l)) by (rewrite <- Z.pow_add_r by lia; f_equal; lia).
  assert (Q2 : 2 ^ 24 = 2 ^ (Z.succ l) * 2 ^ (23 - l)) by (rewrite <- Z.pow_add_r by lia; f_equal; lia).
  destruct (pattern_val (z * 2 ^ 149 <? 0) (Z.abs (z * 2 ^ 149)) (126 + l) (Z.abs z * 2 ^ (23 - l)) ltac:(lia) ltac:(lia)) as [F V].
  - rewrite Q1, Q2. split; [apply Z.mul_le_mono_nonneg_r; lia|apply Z.mul_lt_mono_pos_r; lia].
  - rewrite Z.abs_mul, <- Z.mul_assoc, <- Z.pow_add_r by lia. f_equal. change (Z.abs (2 ^ 149)) with (2 ^ 149). f_equal. lia.
  - split; [exact F|]. rewrite V. set (p := z * 2 ^ 149). clearbody p. destruct (Z.ltb_spec p 0); lia.
Qed.

Lemma cvt_general w : finite w -> exists r,
  cvt w = (if (- 2 ^ 31 <=? r) && (r <? 2 ^ 31) then wrap 32 r else 2 ^ 31) /\
  2 * Z.abs (val w - r * 2 ^ 149) <= 2 ^ 149 /\ (2 * Z.abs (val w - r * 2 ^ 149) = 2 ^ 149 -> Z.even r = true).
Proof.
  intros F.
  unfold cvt. destruct (of_bits_finite w F) as [[M0 E]|(m & e & E & He & Mg)]; rewrite E.
  { exists 0. split; [reflexivity|]. assert (V0 : val w = 0) by now apply val_zero.
    rewrite V0. cbn. split; [discriminate|]. intros H. discriminate. }
  set (P149 := 2 ^ 149) in *. assert (HP : 0 < P149) by reflexivity.
  assert (Vm : val w = if Z.testbit w 31 then - mag w else mag w) by reflexivity.
  set (a := rne (Z.pos m) (- e)) in *.
  assert (Near : 2 * Z.abs (mag w - a * P149) <= P149 /\ (2 * Z.abs (mag w - a * P149) = P149 -> Z.even a = true)).
  { destruct (Z.leb_spec 0 e) as [Ge|Lt].
    - assert (Ea : a = Zpos m * 2 ^ e). { unfold a, rne. destruct (Z.leb_spec (- e) 0); [|lia]. now rewrite Z.opp_involutive. }
      assert (Em : mag w = a * P149). { rewrite Mg, Ea. unfold P149. rewrite <- Z.mul_assoc, <- Z.pow_add_r by lia. reflexivity. }
      rewrite Em, Z.sub_diag. cbn [Z.abs]. lia.
    - destruct (rne_nearest (Zpos m) (- e) ltac:(lia) ltac:(lia)) as [N1 N2]. fold a in N1, N2.
      assert (Sc : P149 = 2 ^ (- e) * 2 ^ (e + 149)) by (unfold P149; rewrite <- Z.pow_add_r by lia; f_equal; lia).
      assert (P2 := pow2_pos (e + 149) ltac:(lia)).
      rewrite Mg, Sc. replace (Zpos m * 2 ^ (e + 149) - a * (2 ^ (- e) * 2 ^ (e + 149))) with ((Zpos m - a * 2 ^ (- e)) * 2 ^ (e + 149)) by ring.
      rewrite Z.abs_mul, (Z.abs_eq (2 ^ (e + 149))) by lia. rewrite Z.mul_assoc. split.
      + apply Z.mul_le_mono_nonneg_r; lia.
      + intros H. apply N2. apply Z.mul_cancel_r in H; lia. }
  set (v := if Z.testbit w 31 then - a else a).
  assert (NV : 2 * Z.abs (val w - v * P149) <= P149 /\ (2 * Z.abs (val w - v * P149) = P149 -> Z.even v = true)).
  { rewrite Vm. unfold v. destruct (Z.testbit w 31); [|exact Near].
    replace (- mag w - - a * P149) with (- (mag w - a * P149)) by ring. rewrite Z.abs_opp, Z.even_opp. exact Near. }
  exists v. split; [reflexivity|exact NV].
Qed.
Lemma cvt_nearest w : finite w -> - 2 ^ 31 * 2 ^ 149 <= val w -> val w <= (2 ^ 31 - 1) * 2 ^ 149 ->
  let r := sgn 32 (cvt w) in
  2 * Z.abs (val w - r * 2 ^ 149) <= 2 ^ 149 /\ (2 * Z.abs (val w - r * 2 ^ 149) = 2 ^ 149 -> Z.even r = true) /\ is_word 32 (cvt w).
Proof.
  intros F Lo Hi. cbv zeta. destruct (cvt_general w F) as (v & E & NV).
  set (P149 := 2 ^ 149) in *. assert (HP : 0 < P149) by reflexivity.
  assert (Rg : - 2 ^ 31 <= v < 2 ^ 31).
  { clear - Lo Hi NV HP. destruct NV as [NV _]. set (x := val w) in *. clearbody x P149. change (2 ^ 31) with 2147483648 in *. split.
    - apply Z.nlt_ge. intros H. assert (v + 1 <= -2147483648) by lia. assert ((v + 1) * P149 <= -2147483648 * P149) by (apply Z.mul_le_mono_nonneg_r; lia). lia.
    - apply Z.nle_gt. intros H. assert (2147483648 * P149 <= v * P149) by (apply Z.mul_le_mono_nonneg_r; lia). lia. }
  replace ((- 2 ^ 31 <=? v) && (v <? 2 ^ 31)) with true in E by (symmetry; apply andb_true_intro; split; lia).
  rewrite E, wrap_sgn, (sgn_small 32 v) by (lia || assumption). destruct NV. repeat split; try assumption; apply wrap_range; lia.
Qed.
Lemma of_bits_special w : 0 <= w < 2 ^ 32 -> ~ finite w -> cvt w = 2 ^ 31.
Proof.
  intros Hw F. unfold cvt, of_bits. destruct (Z.eqb_spec ((w / 2 ^ 23) mod 2 ^ 8) 255) as [E|E].
  - destruct (w mod 2 ^ 23 =? 0); reflexivity.
  - exfalso. apply F. split; assumption.
Qed.
Lemma cvt_out w : 0 <= w < 2 ^ 32 -> (~ finite w \/ 2 ^ 31 * 2 ^ 149 <= val w \/ val w < - (2 ^ 31 + 1) * 2 ^ 149) -> cvt w = 2 ^ 31.
Proof.
  intros Hw H. assert (D : finite w \/ ~ finite w) by (unfold finite; destruct (Z.eq_dec ((w / 2 ^ 23) mod 2 ^ 8) 255); [right|left]; tauto).
  destruct D as [F|F]; [|apply of_bits_special; assumption]. destruct H as [H|H]; [contradiction|].
  destruct (cvt_general w F) as (v & -> & NV & Ev).
  set (P149 := 2 ^ 149) in *. assert (HP : 0 < P149) by reflexivity. set (x := val w) in *. clearbody x P149. change (2 ^ 31) with 2147483648 in *.
  destruct (Z.leb_spec (- (2147483648)) v); cbn [andb]; [|reflexivity]. destruct (Z.ltb_spec v 2147483648); [|reflexivity]. exfalso.
  destruct H as [H|H].
  - assert (v * P149 <= 2147483647 * P149) by (apply Z.mul_le_mono_nonneg_r; lia). lia.
  - assert (-2147483648 * P149 <= v * P149) by (apply Z.mul_le_mono_nonneg_r; lia). lia.
Qed.
