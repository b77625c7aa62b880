(** Reading what is written. *)
From Coq Require Import QArith Qabs Qpower Lqa.
From Verif Require Import Base Reflector_Model FloatText_Model FloatText_Spec FloatText_Proof FloatText_Proof2.
Local Open Scope Z_scope.

Lemma digit_yes d : 0 <= d <= 9 -> digit_of 10 (48 + d) = Some d.
Proof. intros H. unfold digit_of. replace ((48 <=? 48 + d) && (48 + d <=? 57)) with true by lia. replace (48 + d - 48) with d by lia. replace (d <? 10) with true by lia. reflexivity. Qed.
Lemma digit_no c : ~ (48 <= c <= 57) -> digit_of 10 c = None.
Proof.
  intros H. unfold digit_of. replace ((48 <=? c) && (c <=? 57)) with false by lia.
  destruct ((97 <=? c) && (c <=? 102)) eqn:A; [replace (c - 87 <? 10) with false by lia; reflexivity|].
  destruct ((65 <=? c) && (c <=? 70)) eqn:B; [replace (c - 55 <? 10) with false by lia; reflexivity|reflexivity].
Qed.
Definition no_digit (s : list Z) : Prop := match s with [] => True | c :: _ => ~ (48 <= c <= 57) end.
Lemma span_chars ds r : all_digits ds -> no_digit r -> span 10 (chars ds ++ r) = (ds, r).
Proof.
  intros F H. induction F as [|d ds Hd F IH]; cbn [chars map app span].
  - destruct r as [|c r]; [reflexivity|]. cbn [span]. rewrite digit_no by exact H. reflexivity.
  - rewrite digit_yes by exact Hd. change (map (fun d0 => 48 + d0) ds ++ r) with (chars ds ++ r). rewrite IH. reflexivity.
Qed.
Lemma number_whole ds : forall a, fold_left (fun a d => a * 10 + d) ds a = whole a ds.
Proof. induction ds as [|d ds IH]; intros a; cbn [fold_left whole]; [reflexivity|]. rewrite IH. f_equal. ring. Qed.
Lemma whole_app a ds es : whole a (ds ++ es) = whole (whole a ds) es.
Proof. revert a. induction ds as [|d ds IH]; intros a; cbn [app whole]; [reflexivity|apply IH]. Qed.
Lemma whole_nonneg ds : all_digits ds -> forall a, 0 <= a -> 0 <= whole a ds.
Proof. intros F. induction F as [|d ds Hd F IH]; intros a Ha; cbn [whole]; [exact Ha|]. apply IH. lia. Qed.
Lemma whole_zeros a k : whole a (repeat 0 k) = a * 10 ^ Z.of_nat k.
Proof.
  revert a. induction k as [|k IH]; intros a; cbn [repeat whole]; [rewrite Z.pow_0_r; ring|].
  rewrite IH. rewrite Nat2Z.inj_succ, Z.pow_succ_r by lia. ring.
Qed.

Definition start_ok (s : list Z) : Prop := match s with [] => True | c :: _ => ~ (48 <= c <= 57) /\ ~ In c [46; 101; 69; 120; 88] end.
Definition exp_chars (d : written) : list Z := match w_exp d with None => [] | Some (mark, s, ds) => mark :: sign_chars s ++ chars ds end.

Lemma exponent_read d tail : proper d -> ends_number tail -> exponent 101 (exp_chars d ++ tail) = exponent_of d.
Proof.
  intros (_ & _ & _ & _ & He) Ht. unfold exp_chars, exponent_of. destruct (w_exp d) as [[[mark s] ds]|].
  - destruct He as (Hm & Hd & Hne). cbn [app exponent]. replace ((mark =? 101) || (mark =? 101 - 32)) with true by lia.
    rewrite <- app_assoc.
    assert (S : take_sign (sign_chars s ++ chars ds ++ tail) = (negated s, chars ds ++ tail)).
    { destruct s; cbn [sign_chars app take_sign negated]; try reflexivity. destruct ds as [|x ds]; [congruence|]. cbn [chars map app take_sign].
      pose proof (Forall_inv Hd) as Hx. cbv beta in Hx. replace (48 + x =? 45) with false by lia. replace (48 + x =? 43) with false by lia. reflexivity. }
    rewrite S. rewrite span_chars; [|exact Hd|].
    + cbn [fst]. destruct ds as [|x ds]; [congruence|]. unfold number. rewrite number_whole. reflexivity.
    + destruct tail as [|c t]; [exact I|]. cbn in *. apply Ht.
  - destruct tail as [|c t]; [reflexivity|]. cbn [app exponent]. cbn in Ht. destruct Ht as [_ Ht].
    replace ((c =? 101) || (c =? 101 - 32)) with false by (symmetry; apply orb_false_iff; split; apply Z.eqb_neq; intros ->; apply Ht; cbn; auto). reflexivity.
Qed.
Lemma mantissa_read d tail : proper d -> ends_number tail ->
  exists i f, mantissa 10 (chars (w_int d) ++ (if w_point d then 46 :: chars (w_frac d) else []) ++ exp_chars d ++ tail) = Some (i, f, exp_chars d ++ tail) /\
    i = w_int d /\ f = w_frac d.
Proof.
  intros (Hi & Hf & Hne & Hp & He) Ht.
  assert (ND : no_digit (exp_chars d ++ tail)).
  { unfold exp_chars. destruct (w_exp d) as [[[mark s] ds]|]; cbn [app no_digit]; [lia|]. destruct tail; [exact I|apply Ht]. }
  exists (w_int d), (w_frac d). split; [|auto]. unfold mantissa. destruct (w_point d).
  - cbn [app]. rewrite span_chars; [|exact Hi|cbn; lia]. rewrite span_chars; [|exact Hf|exact ND].
    destruct (w_int d ++ w_frac d) as [|x r] eqn:E; [congruence|reflexivity].
  - assert (F0 : w_frac d = []) by (destruct (w_frac d); [reflexivity|]; exfalso; assert (false = true) by (apply Hp; discriminate); discriminate).
    rewrite F0 in *. cbn [app]. rewrite span_chars; [|exact Hi|exact ND]. rewrite app_nil_r in Hne.
    destruct (exp_chars d ++ tail) as [|c r] eqn:E.
    + destruct (w_int d); [congruence|reflexivity].
    + assert (c <> 46).
      { unfold exp_chars in E. destruct (w_exp d) as [[[mark s] ds]|]; cbn [app] in E; [injection E as <- _; lia|]. rewrite E in Ht. intros ->. apply Ht. cbn. auto. }
      destruct (w_int d) as [|y r0]; [congruence|]. destruct c as [|q|q]; try reflexivity. do 6 (destruct q as [q|q|]; try reflexivity). congruence.
Qed.

Lemma chars_nonzero ds : all_digits ds -> Forall (fun c => c <> 0) (chars ds).
Proof. intros F. induction F as [|d ds Hd F IH]; constructor; [lia|exact IH]. Qed.
Lemma text_nonzero d : proper d -> Forall (fun c => c <> 0) (text_of d).
Proof.
  intros (Hi & Hf & _ & _ & He). unfold text_of. rewrite !Forall_app. split; [|split; [|split]].
  - destruct (w_sign d); repeat constructor; lia.
  - apply chars_nonzero, Hi.
  - destruct (w_point d); [constructor; [lia|apply chars_nonzero, Hf]|constructor].
  - destruct (w_exp d) as [[[mark s] ds]|]; [|constructor]. destruct He as (Hm & Hd & _). constructor; [lia|]. apply Forall_app. split; [destruct s; repeat constructor; lia|apply chars_nonzero, Hd].
Qed.
Lemma until_nul_app s t : Forall (fun c => c <> 0) s -> until_nul (s ++ t) = s ++ until_nul t.
Proof. intros F. induction F as [|c s Hc F IH]; cbn [app until_nul]; [reflexivity|]. replace (c =? 0) with false by lia. now rewrite IH. Qed.
Lemma until_nul_ends t : ends_number t -> ends_number (until_nul t).
Proof. destruct t as [|c t]; [auto|]. cbn. destruct (c =? 0); [intros _; exact I|auto]. Qed.

Definition spaces (s : list Z) : Prop := Forall (fun c => c_isspace c = true) s.
Lemma skip_spaces s t : spaces s -> skip_space (s ++ t) = skip_space t.
Proof. intros F. induction F as [|c s Hc F IH]; cbn [app skip_space]; [reflexivity|]. rewrite Hc. exact IH. Qed.
Lemma skip_none c t : c_isspace c = false -> skip_space (c :: t) = c :: t.
Proof. intros H. cbn [skip_space]. rewrite H. reflexivity. Qed.

(** the first character of the digits or point *)
Lemma body_head d tail : proper d -> exists c r, chars (w_int d) ++ (if w_point d then 46 :: chars (w_frac d) else []) ++ exp_chars d ++ tail = c :: r /\
  (c = 46 \/ 48 <= c <= 57).
Proof.
  intros (Hi & Hf & Hne & Hp & _). destruct (w_int d) as [|x i].
  - cbn [app] in Hne. rewrite (Hp Hne). eexists _, _. split; [reflexivity|]. auto.
  - eexists _, _. split; [reflexivity|]. pose proof (Forall_inv Hi). cbv beta in *. lia.
Qed.
Lemma not_hex d tail : proper d -> ends_number tail ->
  starts [48; 120] (chars (w_int d) ++ (if w_point d then 46 :: chars (w_frac d) else []) ++ exp_chars d ++ tail) = false.
Proof.
  intros (Hi & Hf & Hne & Hp & He) Ht. assert (X : forall c, c <> 120 -> c <> 88 -> (fold_case c =? 120) = false).
  { intros c H1 H2. unfold fold_case. destruct ((65 <=? c) && (c <=? 90)) eqn:E; lia. }
  destruct (w_int d) as [|x [|y i]]; cbn [chars map app].
  - cbn [app] in Hne. rewrite (Hp Hne). reflexivity.
  - cbn [starts]. destruct (fold_case (48 + x) =? 48); cbn [andb]; [|reflexivity].
    destruct (w_point d); [reflexivity|]. cbn [app]. unfold exp_chars. destruct (w_exp d) as [[[mark s] ds]|]; cbn [app].
    + cbn [starts]. rewrite X by lia. reflexivity.
    + destruct tail as [|c t]; [reflexivity|]. cbn [starts]. rewrite X; [reflexivity| |]; intros ->; apply Ht; cbn; auto 6.
  - cbn [starts]. inversion Hi as [|? ? _ Hi2]; subst. pose proof (Forall_inv Hi2) as Hy. cbv beta in Hy. rewrite (X (48 + y)) by lia. rewrite andb_false_r. reflexivity.
Qed.

Lemma strtod_written d pre tail : proper d -> spaces pre -> ends_number tail ->
  exists x, strtod (pre ++ text_of d ++ tail) = Number (negated (w_sign d)) x /\ 0 < snd x /\
    (frac x == size_of d)%Q /\ 0 <= fst x /\ (fst x = 0 <-> whole 0 (w_int d ++ w_frac d) = 0).
Proof.
  intros Hd Hs Ht. unfold strtod. rewrite until_nul_app by (eapply Forall_impl; [|exact Hs]; intros c Hc; unfold c_isspace in Hc; cbv beta; lia).
  rewrite until_nul_app by (apply text_nonzero; exact Hd). set (tl := until_nul tail). assert (Htl : ends_number tl) by (apply until_nul_ends; exact Ht).
  rewrite skip_spaces by exact Hs. unfold text_of. fold (exp_chars d). rewrite <- !app_assoc.
  destruct (body_head d tl Hd) as (c & r & Eb & Hc). set (body := chars (w_int d) ++ _) in *.
  assert (Sk : skip_space (sign_chars (w_sign d) ++ body) = sign_chars (w_sign d) ++ body).
  { destruct (w_sign d); cbn [sign_chars app]; [rewrite Eb; apply skip_none; unfold c_isspace; lia|reflexivity|reflexivity]. }
  rewrite Sk. assert (Ts : take_sign (sign_chars (w_sign d) ++ body) = (negated (w_sign d), body)).
  { destruct (w_sign d); cbn [sign_chars app negated]; try reflexivity. rewrite Eb. cbn [take_sign]. replace (c =? 45) with false by lia. replace (c =? 43) with false by lia. reflexivity. }
  rewrite Ts. assert (FC : fold_case c = c) by (unfold fold_case; replace ((65 <=? c) && (c <=? 90)) with false by lia; reflexivity).
  assert (N1 : starts [105; 110; 102] body = false) by (rewrite Eb; cbn [starts]; rewrite FC; replace (c =? 105) with false by lia; reflexivity).
  assert (N2 : starts [110; 97; 110] body = false) by (rewrite Eb; cbn [starts]; rewrite FC; replace (c =? 110) with false by lia; reflexivity).
  assert (N3 : starts [48; 120] body = false) by (apply not_hex; assumption).
  rewrite N1, N2, N3. unfold decimal. unfold body. destruct (mantissa_read d tl Hd Htl) as (i & f & -> & -> & ->).
  eexists. split; [reflexivity|]. rewrite exponent_read by assumption.
  split; [apply mulp_pos; cbn; lia|]. unfold number. rewrite number_whole. split; [|split].
  - rewrite frac_mulp by (cbn; lia). unfold frac, size_of, pw. cbn [fst snd]. field.
  - cbn [mulp fst]. apply Z.mul_nonneg_nonneg; [|apply Z.pow_nonneg; lia]. apply whole_nonneg; [|lia]. apply Forall_app. split; apply Hd.
  - cbn [mulp fst]. assert (0 < 10 ^ Z.max (exponent_of d - Z.of_nat (length (w_frac d))) 0) by (apply Z.pow_pos_nonneg; lia). split; intros G; [nia|rewrite G; lia].
Qed.

(** ** Printed numbers *)
Lemma places_length k : forall n, length (places k n) = k.
Proof. induction k as [|k IH]; intros n; cbn [places]; [reflexivity|]. rewrite app_length, IH. cbn. lia. Qed.
Lemma places_digits k : forall n, 0 <= n -> exists ds, places k n = chars ds /\ all_digits ds /\ whole 0 ds = n mod 10 ^ Z.of_nat k.
Proof.
  induction k as [|k IH]; intros n Hn; cbn [places].
  - exists []. split; [reflexivity|]. split; [constructor|]. cbn [whole]. change (10 ^ Z.of_nat 0) with 1. rewrite Z.mod_1_r. reflexivity.
  - destruct (IH (n / 10) ltac:(apply Z.div_pos; lia)) as (ds & E & F & W). exists (ds ++ [n mod 10]).
    pose proof (Z.mod_pos_bound n 10 ltac:(lia)). split; [rewrite E; unfold chars; rewrite map_app; reflexivity|].
    split; [apply Forall_app; split; [exact F|repeat constructor; lia]|]. rewrite whole_app, W. cbn [whole].
    replace (Z.of_nat (S k)) with (1 + Z.of_nat k) by lia. rewrite Z.pow_add_r by lia. change (10 ^ 1) with 10.
    assert (0 < 10 ^ Z.of_nat k) by (apply Z.pow_pos_nonneg; lia). rewrite Z.rem_mul_r by lia. ring.
Qed.
Lemma cons_eq {A} (a b : A) l k : a :: l = b :: k -> a = b /\ l = k.
Proof. intros H. injection H. auto. Qed.
Lemma places_small k n ds : 0 <= n < 10 ^ Z.of_nat k -> places k n = chars ds -> all_digits ds -> whole 0 ds = n.
Proof.
  intros Hn E F. destruct (places_digits k n ltac:(lia)) as (es & E2 & _ & W). assert (ds = es).
  { rewrite E in E2. clear -E2. revert es E2. induction ds as [|d ds IH]; intros [|e es] H; try discriminate; [reflexivity|]. cbn [chars map] in H.
    apply cons_eq in H. destruct H as [H1 H2]. f_equal; [lia|]. apply IH. exact H2. }
  subst. rewrite W. apply Z.mod_small. exact Hn.
Qed.
Lemma drop_zeros_spec s : exists k, s = repeat 48 k ++ drop_zeros s /\ match drop_zeros s with [] => True | c :: _ => c <> 48 end.
Proof.
  induction s as [|c s (k & E & H)]; [exists 0%nat; split; [reflexivity|exact I]|]. cbn [drop_zeros]. destruct (Z.eqb_spec c 48) as [->|N].
  - exists (S k). split; [cbn [repeat app]; congruence|exact H].
  - exists 0%nat. split; [reflexivity|exact N].
Qed.
Lemma rev_repeat {A} (a : A) k : rev (repeat a k) = repeat a k.
Proof. induction k as [|k IH]; [reflexivity|]. cbn [repeat rev]. rewrite IH. clear. induction k as [|k IH]; [reflexivity|]. cbn [repeat app]. now rewrite IH. Qed.
(** the digits without trailing zeros *)
Lemma stripped P n : 0 < n < 10 ^ Z.of_nat P -> exists ds z, strip_zeros (places P n) = chars ds /\ all_digits ds /\
  (length ds + z = P)%nat /\ whole 0 ds * 10 ^ Z.of_nat z = n /\ ds <> [] /\ last ds 1 <> 0.
Proof.
  intros Hn. unfold strip_zeros. destruct (drop_zeros_spec (rev (places P n))) as (z & E & Hz).
  set (D := rev (drop_zeros (rev (places P n)))) in *.
  assert (E2 : places P n = D ++ repeat 48 z).
  { apply (f_equal (@rev Z)) in E. rewrite rev_involutive, rev_app_distr, rev_repeat in E. exact E. }
  destruct (places_digits P n ltac:(lia)) as (es & Ees & F & W). rewrite Z.mod_small in W by lia.
  assert (G : exists ds, D = chars ds /\ es = ds ++ repeat 0 z).
  { rewrite E2 in Ees. clear -Ees. revert es Ees. induction D as [|c D IH]; intros es H.
    - exists []. split; [reflexivity|]. cbn [app] in *. revert es H. induction z as [|z IH]; intros [|e es] H; try discriminate; [reflexivity|]. cbn [repeat chars map] in *.
      apply cons_eq in H. destruct H as [H1 H2]. f_equal; [lia|]. apply IH. exact H2.
    - destruct es as [|e es]; [discriminate|]. cbn [app chars map] in H. destruct (IH es) as (ds & E1 & E2); [unfold chars; congruence|].
      exists (e :: ds). split; [cbn [chars map]; unfold chars in E1; congruence|cbn [app]; congruence]. }
  destruct G as (ds & ED & Ees2). exists ds, z. split; [exact ED|]. rewrite Ees2 in F. apply Forall_app in F. split; [apply F|].
  assert (L : length (places P n) = (length D + z)%nat) by (rewrite E2, app_length, repeat_length; reflexivity). rewrite places_length in L.
  split; [rewrite ED in L; unfold chars in L; rewrite map_length in L; lia|]. rewrite Ees2, whole_app, whole_zeros in W. split; [exact W|].
  split; [intros ->; cbn [whole] in W; lia|]. assert (RD : rev D = drop_zeros (rev (places P n))) by (unfold D; apply rev_involutive). rewrite <- RD, ED in Hz. clear -Hz.
  destruct ds as [|x ds _] using rev_ind; [cbn; discriminate|]. rewrite last_last. unfold chars in Hz. rewrite map_app, rev_app_distr in Hz. cbn [map rev app] in Hz. lia.
Qed.
Lemma whole_lt ds : all_digits ds -> forall a, 0 <= a -> whole a ds < (a + 1) * 10 ^ Z.of_nat (length ds).
Proof.
  intros F. induction F as [|d ds Hd F IH]; intros a Ha; cbn [whole length]; [rewrite Z.pow_0_r; lia|]. specialize (IH (10 * a + d) ltac:(lia)).
  rewrite Nat2Z.inj_succ, Z.pow_succ_r by lia. assert (0 < 10 ^ Z.of_nat (length ds)) by (apply Z.pow_pos_nonneg; lia). nia.
Qed.
Lemma last_app {A} (l m : list A) a : m <> [] -> last (l ++ m) a = last m a.
Proof. intros H. induction l as [|x l IH]; [reflexivity|]. cbn [app last]. rewrite IH. destruct (l ++ m) eqn:E; [|reflexivity]. apply app_eq_nil in E. destruct E; contradiction. Qed.
Lemma percent_g_written P n X : 1 <= P -> 10 ^ (P - 1) <= n < 10 ^ P -> -999 <= X <= 999 ->
  exists d, percent_g P n X = text_of d /\ proper d /\ w_sign d = Nothing /\ (size_of d == inject_Z n * pw 10 (X - P + 1))%Q /\ whole 0 (w_int d ++ w_frac d) <> 0 /\ styled P d.
Proof.
  intros HP Hn HX. assert (0 < 10 ^ (P - 1)) by (apply Z.pow_pos_nonneg; lia).
  destruct (stripped (Z.to_nat P) n) as (ds & z & ED & F & Lz & W & Hne & Hlast); [rewrite Z2Nat.id by lia; lia|].
  assert (Pz : 0 < 10 ^ Z.of_nat z) by (apply Z.pow_pos_nonneg; lia).
  assert (Wp : 0 < whole 0 ds) by (pose proof (whole_nonneg ds F 0 ltac:(lia)); nia).
  assert (V : forall N k, N * 10 ^ Z.of_nat z = n -> k = X - P + 1 + Z.of_nat z -> (inject_Z N * inject_Z 10 ^ k == inject_Z n * pw 10 (X - P + 1))%Q).
  { intros N k HN ->. change (inject_Z 10 ^ (X - P + 1 + Z.of_nat z))%Q with (pw 10 (X - P + 1 + Z.of_nat z)). rewrite pw_add by lia. rewrite (pw_nat 10 (Z.of_nat z)) by lia. rewrite <- HN, inject_Z_mult. ring. }
  assert (FN : forall i, all_digits (firstn i ds)) by (intros i; rewrite <- (firstn_skipn i ds) in F; apply Forall_app in F; apply F).
  assert (SN : forall i, all_digits (skipn i ds)) by (intros i; rewrite <- (firstn_skipn i ds) in F; apply Forall_app in F; apply F).
  assert (CF : forall i, firstn i (chars ds) = chars (firstn i ds)) by (intros; apply firstn_map).
  assert (CS : forall i, skipn i (chars ds) = chars (skipn i ds)) by (intros; apply skipn_map).
  assert (PT : forall s, point (chars s) = if match s with [] => false | _ => true end then 46 :: chars s else []) by (intros [|x s]; reflexivity).
  assert (CR : forall k, repeat 48 k = chars (repeat 0 k)) by (intros k; induction k as [|k IH]; [reflexivity|cbn [repeat chars map]; rewrite IH; reflexivity]).
  assert (Hhd : hd 0 ds <> 0).
  { destruct ds as [|x ds]; [congruence|]. cbn [hd]. intros ->. cbn [whole] in W. change (10 * 0 + 0) with 0 in W. inversion F as [|? ? _ F']; subst. pose proof (whole_lt ds F' 0 ltac:(lia)) as WL.
    cbn [length] in Lz. assert (10 ^ (P - 1) = 10 ^ Z.of_nat (length ds) * 10 ^ Z.of_nat z) by (rewrite <- Z.pow_add_r by lia; f_equal; lia). nia. }
  assert (Hlast2 : forall i, last (skipn i ds) 1 <> 0).
  { intros i. destruct (skipn i ds) as [|x r] eqn:Er; [cbn; discriminate|]. rewrite <- (firstn_skipn i ds), Er in Hlast. rewrite last_app in Hlast by discriminate. exact Hlast. }
  assert (Pt : forall i, (match skipn i ds with [] => false | _ => true end) = true <-> skipn i ds <> []) by (intros i; destruct (skipn i ds); split; congruence).
  assert (Range : forall v, (v == inject_Z n * pw 10 (X - P + 1))%Q -> ((inject_Z 10 ^ (-4) <= v)%Q /\ (v < inject_Z 10 ^ P)%Q <-> -4 <= X < P)).
  { intros v Hv. change (inject_Z 10 ^ (-4))%Q with (pw 10 (-4)). change (inject_Z 10 ^ P)%Q with (pw 10 P). pose proof (pw_pos 10 (X - P + 1) ltac:(lia)) as Pk.
    assert (L : (pw 10 X <= v)%Q) by (rewrite Hv; replace X with (P - 1 + (X - P + 1)) at 1 by lia; rewrite pw_add, (pw_nat 10 (P - 1)) by lia; apply Qmult_le_compat_r; [rewrite <- inj_le; lia|apply Qlt_le_weak; exact Pk]).
    assert (U : (v < pw 10 (X + 1))%Q) by (rewrite Hv; replace (X + 1) with (P + (X - P + 1)) by lia; rewrite (pw_add 10 P), (pw_nat 10 P) by lia; apply Qmult_lt_compat_r; [exact Pk|rewrite <- inj_lt; lia]).
    split; [intros [A B]|intros [A B]].
    - assert (-4 < X + 1) by (apply (pw_lt_inv 10); [lia|eapply Qle_lt_trans; [exact A|exact U]]). assert (X < P) by (apply (pw_lt_inv 10); [lia|eapply Qle_lt_trans; [exact L|exact B]]). lia.
    - split; [eapply Qle_trans; [|exact L]; apply pw_le; lia|eapply Qlt_le_trans; [exact U|]; apply pw_le; lia]. }
  unfold percent_g. rewrite ED. destruct ((-4 <=? X) && (X <? P)) eqn:Style.
  - destruct (Z.leb_spec 0 X) as [H0|H0].
    + set (i := (Z.to_nat X + 1)%nat). exists (Written Nothing (firstn i ds ++ repeat 0 (i - length ds)) (match skipn i ds with [] => false | _ => true end) (skipn i ds) None).
      split; [|split; [|split; [reflexivity|]]].
      * unfold text_of. cbn [w_sign w_int w_point w_frac w_exp sign_chars app]. rewrite CF, CS, PT, CR. unfold chars. rewrite map_app, app_nil_r, <- app_assoc.
        unfold chars. rewrite map_length. reflexivity.
      * unfold proper. cbn [w_int w_frac w_point w_exp]. split; [apply Forall_app; split; [apply FN|apply Forall_forall; intros c Hc; apply repeat_spec in Hc; lia]|].
        split; [apply SN|]. split; [|split; [destruct (skipn i ds); congruence|exact I]]. destruct ds; [congruence|]. unfold i. rewrite Nat.add_1_r. cbn. discriminate.
      * assert (Wh : whole 0 ((firstn i ds ++ repeat 0 (i - length ds)) ++ skipn i ds) = whole 0 ds * 10 ^ Z.of_nat (i - length ds)).
        { destruct (le_lt_dec (length ds) i) as [Le|Gt].
          - rewrite firstn_all2, skipn_all2, app_nil_r by lia. rewrite whole_app, whole_zeros. reflexivity.
          - replace (i - length ds)%nat with 0%nat by lia. cbn [repeat]. rewrite app_nil_r, firstn_skipn. change (Z.of_nat 0) with 0. rewrite Z.pow_0_r. ring. }
        match goal with |- (?v == _)%Q /\ _ => assert (SZ : (v == inject_Z n * pw 10 (X - P + 1))%Q) end;
        [|split; [exact SZ|split; [cbn [w_int w_frac]; rewrite Wh; assert (0 < 10 ^ Z.of_nat (i - length ds)) by (apply Z.pow_pos_nonneg; lia); nia|]];
          unfold styled; cbn [w_int w_frac w_point w_exp]; split; [apply Hlast2|]; split; [apply Pt|]; split; [apply Range; [exact SZ|lia]|]; left; destruct ds; [congruence|]; unfold i; rewrite Nat.add_1_r; exact Hhd].
        unfold size_of, exponent_of. cbn [w_int w_frac w_exp]. rewrite Wh.
        destruct (le_lt_dec (length ds) i) as [Le|Gt].
        -- rewrite skipn_all2 by lia. cbn [length]. change (0 - Z.of_nat 0) with 0. change (inject_Z 10 ^ 0)%Q with 1%Q. rewrite Qmult_1_r.
           assert (E : (inject_Z (whole 0 ds * 10 ^ Z.of_nat (i - length ds)) == inject_Z (whole 0 ds) * inject_Z 10 ^ (Z.of_nat (i - length ds)))%Q).
           { rewrite inject_Z_mult. change (inject_Z 10 ^ Z.of_nat (i - length ds))%Q with (pw 10 (Z.of_nat (i - length ds))). rewrite pw_nat by lia. reflexivity. }
           rewrite E. apply V; [exact W|]. unfold i in *. lia.
        -- replace (i - length ds)%nat with 0%nat by lia. change (Z.of_nat 0) with 0. rewrite Z.pow_0_r, Z.mul_1_r. apply V; [exact W|]. rewrite skipn_length. unfold i in *. lia.
    + exists (Written Nothing [0] true (repeat 0 (Z.to_nat (- X - 1)) ++ ds) None). split; [|split; [|split; [reflexivity|]]].
      * unfold text_of. cbn [w_sign w_int w_point w_frac w_exp sign_chars app chars map]. rewrite CR. unfold chars. rewrite map_app, app_nil_r. reflexivity.
      * unfold proper. cbn [w_int w_frac w_point w_exp]. split; [repeat constructor; lia|]. split; [apply Forall_app; split; [apply Forall_forall; intros c Hc; apply repeat_spec in Hc; lia|exact F]|].
        split; [discriminate|]. split; auto.
      * assert (Wh : whole 0 ([0] ++ repeat 0 (Z.to_nat (- X - 1)) ++ ds) = whole 0 ds) by (cbn [app whole]; rewrite whole_app, whole_zeros; reflexivity).
        cbn [w_int w_frac] in *. match goal with |- (?v == _)%Q /\ _ => assert (SZ : (v == inject_Z n * pw 10 (X - P + 1))%Q) end.
        { unfold size_of, exponent_of. cbn [w_int w_frac w_exp]. rewrite Wh. apply V; [exact W|]. rewrite app_length, repeat_length. lia. }
        split; [exact SZ|]. split; [rewrite Wh; lia|]. unfold styled. cbn [w_int w_frac w_point w_exp]. split; [rewrite last_app by exact Hne; exact Hlast|].
        split; [split; [intros _ G; apply app_eq_nil in G; destruct G; contradiction|reflexivity]|]. split; [apply Range; [exact SZ|lia]|]. right. reflexivity.
  - assert (Hx : exists es, (if Z.abs X <? 100 then places 2 (Z.abs X) else places 3 (Z.abs X)) = chars es /\ all_digits es /\ whole 0 es = Z.abs X /\ es <> [] /\ (length es = 2%nat \/ (2 < length es)%nat /\ hd 0 es <> 0)).
    { destruct (Z.ltb_spec (Z.abs X) 100) as [L|L].
      - destruct (places_digits 2 (Z.abs X) ltac:(lia)) as (es & E & Fe & We). exists es. rewrite Z.mod_small in We by (change (10 ^ Z.of_nat 2) with 100; lia). assert (Le := f_equal (@length Z) E). rewrite places_length in Le. unfold chars in Le. rewrite map_length in Le. repeat split; auto.
        intros ->. discriminate.
      - destruct (places_digits 3 (Z.abs X) ltac:(lia)) as (es & E & Fe & We). exists es. rewrite Z.mod_small in We by (change (10 ^ Z.of_nat 3) with 1000; lia). assert (Le := f_equal (@length Z) E). rewrite places_length in Le. unfold chars in Le. rewrite map_length in Le. repeat split; auto; [intros ->; discriminate|].
        right. split; [lia|]. destruct es as [|x es]; [discriminate|]. cbn [hd]. intros ->. cbn [whole] in We. change (10 * 0 + 0) with 0 in We. inversion Fe as [|? ? _ Fe']; subst.
        pose proof (whole_lt es Fe' 0 ltac:(lia)) as WL. injection Le as Le. rewrite <- Le in WL. change (10 ^ Z.of_nat 2) with 100 in WL. lia. }
    destruct Hx as (es & -> & Fe & We & Nee & Les).
    exists (Written Nothing (firstn 1 ds) (match skipn 1 ds with [] => false | _ => true end) (skipn 1 ds) (Some (101, if X <? 0 then Minus else Plus, es))).
    split; [|split; [|split; [reflexivity|]]].
    + unfold text_of. cbn [w_sign w_int w_point w_frac w_exp sign_chars app]. rewrite CF, CS, PT. destruct (X <? 0); reflexivity.
    + unfold proper. cbn [w_int w_frac w_point w_exp]. split; [apply FN|]. split; [apply SN|]. rewrite firstn_skipn. split; [exact Hne|].
      split; [destruct (skipn 1 ds); congruence|auto].
    + cbn [w_int w_frac]. rewrite firstn_skipn. match goal with |- (?v == _)%Q /\ _ => assert (SZ : (v == inject_Z n * pw 10 (X - P + 1))%Q) end.
      { unfold size_of, exponent_of. cbn [w_int w_frac w_exp]. rewrite firstn_skipn. apply V; [exact W|].
        rewrite skipn_length, We. destruct ds as [|x ds']; [congruence|]. cbn [length] in *. destruct (Z.ltb_spec X 0); cbn [negated]; lia. }
      split; [exact SZ|]. split; [lia|]. unfold styled. cbn [w_int w_frac w_point w_exp]. split; [apply Hlast2|]. split; [apply Pt|].
      split; [intros G; apply Range in G; [lia|exact SZ]|]. split; [destruct ds as [|x ds']; [congruence|]; exists x; split; [reflexivity|exact Hhd]|].
      split; [reflexivity|]. split; [destruct (X <? 0); discriminate|exact Les].
Qed.
