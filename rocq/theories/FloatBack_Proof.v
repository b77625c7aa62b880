(** Floating point values that are restored from their own text. *)
From Coq Require Import QArith Qabs Qpower Lqa Lia.
From Verif Require Import Base Supercore_Model Reflector_Model Reflector_Spec Reflector_Proof Reflector_Props.
From Verif Require Import FloatText_Model FloatText_Proof FloatText_Proof2 FloatText_Spec FloatText_Text FloatText_Near FloatText_Near2 FloatText_Print FloatText_Props.
Local Open Scope Z_scope.

Lemma nearest_eq f x y : 0 < fst x -> 0 < snd x -> 0 < fst y -> 0 < snd y -> (frac x == frac y)%Q -> fst (nearest f x) = fst (nearest f y).
Proof.
  intros X1 X2 Y1 Y2 E. assert (L : log2q x = log2q y).
  { destruct (log2q_spec x X1 X2) as [A B]. destruct (log2q_spec y Y1 Y2) as [C D]. rewrite E in A, B. apply (log_unique 2 (frac y)); try assumption; lia. }
  unfold nearest. rewrite L. set (k := - Z.max (qmin f) (log2q y - (prec f - 1))).
  assert (R : round_even (mulp 2 k x) = round_even (mulp 2 k y)).
  { apply round_eq; try (apply mulp_pos; lia). rewrite !frac_mulp by lia. rewrite E. reflexivity. }
  rewrite R. destruct (_ <=? _); reflexivity.
Qed.

Section Back.
Context (f : fmt) (Hf : f = single \/ f = double).
Local Notation p := (prec f).
Local Notation b := (ebits f).
Lemma f_good : good f.
Proof. destruct Hf as [->| ->]; [apply good_single|apply good_double]. Qed.

(** what is read for two texts of the same number *)
Lemma same_number s s' neg x y old old' E M : strtod s = Number neg x -> strtod s' = Number neg y ->
  0 < fst x -> 0 < snd x -> 0 < fst y -> 0 < snd y -> (frac x == frac y)%Q -> (pw 2 (emin f) <= frac x)%Q -> (frac x < too_large p b)%Q ->
  SetFloat f s old = (ENone, pattern p b neg E M) -> SetFloat f s' old' = (ENone, pattern p b neg E M).
Proof.
  intros Sx Sy X1 X2 Y1 Y2 Ev Lo Hi S. destruct (near_normal f f_good x X1 X2 Lo Hi) as (E1 & M1 & N1 & F1 & _ & H1 & _).
  destruct (near_normal f f_good y Y1 Y2) as (E2 & M2 & N2 & F2 & _ & H2 & _); [rewrite <- Ev; exact Lo|rewrite <- Ev; exact Hi|].
  pose proof (nearest_eq f x y X1 X2 Y1 Y2 Ev) as Q. rewrite N1, N2 in Q. cbn [fst] in Q.
  rewrite (set_normal f s neg x old Sx X1 _ N1) in S; [|unfold min_pattern; destruct F1; nia].
  rewrite (set_normal f s' neg y old' Sy Y1 _ N2); [|unfold min_pattern; destruct F2; nia]. rewrite <- Q. exact S.
Qed.

(** a value printed from a decimal number that has few digits shows that number *)
Lemma shows neg E M n k v : fields p b E M -> finite b E -> 1 <= E -> 0 < n < 10 ^ digs f -> (v == inject_Z n * inject_Z 10 ^ k)%Q ->
  (Qabs (v - magnitude p b E M) * pw 2 p <= v)%Q ->
  exists d, GetFloat f (pattern p b neg E M) = text_of d /\ proper d /\ w_sign d = (if neg then Minus else Nothing) /\ (size_of d == v)%Q.
Proof.
  intros F Fi E1 Hn Ev Near. pose proof f_good as Hg. assert (HP : 1 <= digs f) by (destruct Hg as (_ & _ & ? & _); lia).
  change (inject_Z 10 ^ k)%Q with (pw 10 k) in Ev.
  assert (Nz : exists n' k', 10 ^ (digs f - 1) <= n' < 10 ^ digs f /\ (v == inject_Z n' * pw 10 k')%Q).
  { destruct (digits_spec n (proj1 Hn)) as (A & B1 & B2). set (u := digits_less_one n) in *. assert (u < digs f) by (apply (Z.pow_lt_mono_r_iff 10); lia).
    exists (n * 10 ^ (digs f - 1 - u)), (k - (digs f - 1 - u)). assert (0 < 10 ^ (digs f - 1 - u)) by (apply Z.pow_pos_nonneg; lia).
    assert (Q1 : 10 ^ (digs f - 1) = 10 ^ u * 10 ^ (digs f - 1 - u)) by (rewrite <- Z.pow_add_r by lia; f_equal; lia).
    assert (Q2 : 10 ^ digs f = 10 ^ (u + 1) * 10 ^ (digs f - 1 - u)) by (rewrite <- Z.pow_add_r by lia; f_equal; lia).
    split; [rewrite Q1, Q2; split; [apply Z.mul_le_mono_nonneg_r; lia|apply Z.mul_lt_mono_pos_r; lia]|].
    rewrite Ev, inject_Z_mult, <- pw_nat, <- Qmult_assoc, <- pw_add by lia. replace (digs f - 1 - u + (k - (digs f - 1 - u))) with k by lia. reflexivity. }
  destruct Nz as (n' & k' & Hn' & Vn).
  destruct (get_number f Hf neg E M F Fi ltac:(lia)) as (d & Gd & Pd & Sd & Vd & Nd & _). cbv zeta in Vd.
  destruct (fraction_magnitude f E M Hg F) as (Z2 & ZV & Z0 & Z1 & _).
  assert (Sc : scientific (digs f) (fraction f (E * 2 ^ (p - 1) + M)) = (n', k' + digs f - 1)).
  { apply sci_close; try assumption; [lia|]. rewrite ZV, <- Vn, Qabs_Qminus.
    assert (4 * inject_Z (10 ^ digs f) <= pw 2 p)%Q.
    { rewrite pw_nat by (destruct Hg; lia). change 4%Q with (inject_Z 4). rewrite <- inject_Z_mult, <- inj_le. destruct Hg as (_ & _ & _ & G). exact G. }
    pose proof (Qabs_nonneg (v - magnitude p b E M)). eapply Qle_trans; [|exact Near]. rewrite (Qmult_comm _ (4 * _)), (Qmult_comm _ (pw 2 p)). apply Qmult_le_compat_r; assumption. }
  exists d. split; [exact Gd|]. split; [exact Pd|]. split; [exact Sd|]. rewrite Sc in Vd. cbn [fst snd] in Vd. rewrite Vd, Vn. replace (k' + digs f - 1 - digs f + 1) with k' by lia. reflexivity.
Qed.

(** what is set for a decimal number of few digits is read back from its own text *)
Lemma decimal_back s d old E M n k : proper d -> strtod s = strtod (text_of d) ->
  (smallest_normal b <= size_of d)%Q -> (size_of d < too_large p b)%Q -> (size_of d == inject_Z n * inject_Z 10 ^ k)%Q -> n < 10 ^ digs f ->
  SetFloat f s old = (ENone, pattern p b (negated (w_sign d)) E M) -> fields p b E M ->
  forall old', SetFloat f (GetFloat f (pattern p b (negated (w_sign d)) E M)) old' = (ENone, pattern p b (negated (w_sign d)) E M) /\
    exists d', GetFloat f (pattern p b (negated (w_sign d)) E M) = text_of d' /\ proper d'.
Proof.
  intros Hd Hs Lo Hi Ev Hn S F old'. pose proof f_good as Hg. destruct (strtod_written d [] [] Hd ltac:(constructor) I) as (x & Sx & X2 & XV & X0 & _). cbn [app] in Sx. rewrite app_nil_r in Sx. rewrite <- Hs in Sx.
  rewrite normal_exp in Lo. rewrite <- XV in Lo, Hi. pose proof (pw_pos 2 (emin f) ltac:(lia)) as Pe.
  assert (X1 : 0 < fst x). { destruct (Z.eq_dec (fst x) 0) as [Z|]; [|lia]. unfold frac in Lo. rewrite Z in Lo. change (inject_Z 0) with 0%Q in Lo. unfold Qdiv in Lo. rewrite Qmult_0_l in Lo. lra. }
  destruct (near_normal f Hg x X1 X2 Lo Hi) as (E1 & M1 & N1 & F1 & Fi1 & H1 & _ & Near).
  pose proof S as S'. rewrite (set_normal f s _ x old Sx X1 _ N1) in S'; [|unfold min_pattern; destruct F1; nia]. injection S' as S'. rewrite pattern_split in S'.
  assert (EM : E1 = E /\ M1 = M) by (destruct F as [[? ?] _], F1 as [[? ?] _]; assert (E1 * 2 ^ (p - 1) + M1 = E * 2 ^ (p - 1) + M) by lia; assert (E1 = E) by nia; split; [assumption|nia]). destruct EM as [-> ->].
  assert (Hm0 : 0 < n).
  { rewrite inj_lt. change (inject_Z 0) with 0%Q. pose proof (pw_pos 10 k ltac:(lia)) as Pk. apply (Qmult_lt_r _ _ (pw 10 k)); [exact Pk|]. change (inject_Z 10 ^ k)%Q with (pw 10 k) in Ev. rewrite <- Ev, <- XV. lra. }
  destruct (shows (negated (w_sign d)) E M n k (size_of d) F Fi1 H1 ltac:(lia) Ev) as (d' & G' & P' & Sg & V'); [rewrite <- XV; exact Near|].
  split; [|exists d'; split; assumption]. rewrite G'. destruct (strtod_written d' [] [] P' ltac:(constructor) I) as (y & Sy & Y2 & YV & Y0 & _). cbn [app] in Sy. rewrite app_nil_r in Sy.
  assert (Ng : negated (w_sign d') = negated (w_sign d)) by (rewrite Sg; destruct (negated (w_sign d)); reflexivity). rewrite Ng in Sy.
  assert (FE : (frac x == frac y)%Q) by (rewrite XV, YV, V'; reflexivity).
  assert (Y1 : 0 < fst y). { destruct (Z.eq_dec (fst y) 0) as [Z|]; [|lia]. pose proof (frac_pos x X1 X2) as Fx. rewrite FE in Fx. unfold frac in Fx. rewrite Z in Fx. change (inject_Z 0) with 0%Q in Fx. unfold Qdiv in Fx. rewrite Qmult_0_l in Fx. lra. }
  exact (same_number s (text_of d') _ x y old old' E M Sx Sy X1 X2 Y1 Y2 FE Lo Hi S).
Qed.
End Back.

(** a number with digits only has no character that is special in lists or in XML *)
Lemma text_plain d : proper d -> plain_element (text_of d) /\ Forall (fun c => 32 <= c <= 126 /\ c <> 60 /\ c <> 38) (text_of d).
Proof.
  intros Hd. assert (A : Forall (fun c => 48 <= c <= 57 \/ c = 43 \/ c = 45 \/ c = 46 \/ c = 101 \/ c = 69) (text_of d)).
  { destruct Hd as (Hi & Hf & _ & _ & He). assert (Dg : forall ds, all_digits ds -> Forall (fun c => 48 <= c <= 57 \/ c = 43 \/ c = 45 \/ c = 46 \/ c = 101 \/ c = 69) (chars ds)).
    { intros ds H. unfold chars. apply Forall_map. eapply Forall_impl; [|exact H]. intros z Hz. cbv beta in *. lia. }
    assert (Sg : forall s, Forall (fun c => 48 <= c <= 57 \/ c = 43 \/ c = 45 \/ c = 46 \/ c = 101 \/ c = 69) (sign_chars s)) by (intros s; destruct s; repeat constructor; lia).
    unfold text_of. apply Forall_app. split; [apply Sg|]. apply Forall_app. split; [apply Dg; exact Hi|]. apply Forall_app. split.
    - destruct (w_point d); [constructor; [lia|]; apply Dg; exact Hf|constructor].
    - destruct (w_exp d) as [[[mark s] ds]|]; [|constructor]. destruct He as (Hm & Hds & _). constructor; [lia|]. apply Forall_app. split; [apply Sg|apply Dg; exact Hds]. }
  split; [split|].
  - eapply Forall_impl; [|exact A]. intros c Hc. unfold special. cbn [In]. cbv beta in Hc; intuition lia.
  - destruct (text_starts d [] Hd) as (c & r & T & H). rewrite app_nil_r in T. exists c, r. split; [exact T|]. lia.
  - eapply Forall_impl; [|exact A]. cbv beta. intros c Hc. lia.
Qed.
