From Verif Require Import Base Supercore_Model Supercore_Spec.

Lemma land_mask v k : 0 <= k -> Z.land v (2 ^ k - 1) = v mod 2 ^ k.
Proof. intros. rewrite <- Z.land_ones by lia. rewrite Z.ones_equiv. f_equal. Qed.

Lemma padding_spec v k : 0 <= k < 64 -> 0 <= v < 2 ^ 64 ->
  let p := GetPadding v (2 ^ k) in
  0 <= p < 2 ^ k /\ (v + p) mod 2 ^ k = 0 /\
  (forall q, 0 <= q -> (v + q) mod 2 ^ k = 0 -> p <= q).
Proof.
  intros Hk Hv. cbv zeta. unfold GetPadding.
  assert (HP : 0 < 2 ^ k) by (apply pow2_pos; lia).
  assert (HP2 : 2 ^ k < 2 ^ 64) by (apply Z.pow_lt_mono_r; lia).
  replace (u64 (2 ^ k - 1)) with (2 ^ k - 1) by (symmetry; apply wrap_small; lia).
  rewrite land_mask by lia.
  pose proof (Z.mod_pos_bound v (2 ^ k) HP) as Hm.
  pose proof (Z.div_mod v (2 ^ k) ltac:(lia)) as Hd.
  remember (v mod 2 ^ k) as m eqn:Em in *. remember (v / 2 ^ k) as q0 eqn:Eq in *. clear Eq. remember (2 ^ k) as A eqn:EA in *. clear EA.
  destruct (Z.eqb_spec m 0) as [E|E].
  - split; [lia|]. split; [|lia]. rewrite Z.add_0_r. congruence.
  - clear Em. unfold u64. rewrite wrap_small by lia. split; [lia|]. split.
    + replace (v + (A - m)) with ((q0 + 1) * A) by lia. apply Z.mod_mul. lia.
    + intros q Hq Hz. destruct (Z_lt_le_dec q (A - m)) as [L|L]; [|exact L].
      replace (v + q) with ((m + q) + q0 * A) in Hz by lia.
      rewrite Z.mod_add in Hz by lia. rewrite Z.mod_small in Hz by lia. lia.
Qed.

Lemma pow2_and_pred k : 0 <= k -> Z.land (2 ^ k) (2 ^ k - 1) = 0.
Proof.
  intros. rewrite land_mask by assumption. apply Z.mod_same. pose proof (pow2_pos k H). lia.
Qed.

Lemma IsPow2_spec w x : 0 <= w -> 0 <= x < 2 ^ w ->
  (IsPow2 w x = true <-> (x = 0 \/ exists k, 0 <= k < w /\ x = 2 ^ k)).
Proof.
  intros Hw Hx. unfold IsPow2. rewrite Z.eqb_eq.
  destruct (Z.eq_dec x 0) as [->|Hnz].
  - split; [auto|]. intros _. apply Z.land_0_l.
  - rewrite wrap_small by lia. split.
    + intros HL. right. exists (Z.log2 x).
      pose proof (Z.log2_spec x ltac:(lia)) as [H1 H2].
      pose proof (Z.log2_nonneg x).
      split. { split; [lia|]. apply Z.log2_lt_pow2; lia. }
      destruct (Z.eq_dec x (2 ^ Z.log2 x)) as [E|E]; [exact E|exfalso].
      assert (T1 : Z.testbit x (Z.log2 x) = true) by (apply Z.bit_log2; lia).
      assert (T2 : Z.testbit (x - 1) (Z.log2 x) = true).
      { assert (L : Z.log2 (x - 1) = Z.log2 x) by (apply Z.log2_unique; lia).
        rewrite <- L. apply Z.bit_log2. pose proof (pow2_pos (Z.log2 x) H). lia. }
      assert (T3 : Z.testbit (Z.land x (x - 1)) (Z.log2 x) = true)
        by (rewrite Z.land_spec, T1, T2; reflexivity).
      rewrite HL, Z.bits_0 in T3. discriminate.
    + intros [H0|(k & Hk & ->)]; [lia|]. apply pow2_and_pred. lia.
Qed.

Lemma is_blank_spec nl c : is_blank nl c = true <-> blank nl c.
Proof.
  unfold is_blank, blank. rewrite !orb_true_iff, andb_true_iff, !Z.eqb_eq. tauto.
Qed.

Lemma skip_start_ok nl s : forall a, exists r,
  SkipStartWhitespace nl s (Some a) = Some r /\ strips_front nl s r.
Proof.
  induction s as [|c s IH]; intros a; cbn [SkipStartWhitespace].
  - exists []. split; [reflexivity|]. exists []. repeat split; auto. discriminate.
  - destruct (is_blank nl c) eqn:E.
    + destruct (IH a) as (r & Hr & p & -> & Hp & Hn). exists r. split; [exact Hr|].
      exists (c :: p). split; [reflexivity|]. split; [|exact Hn].
      constructor; [apply is_blank_spec; exact E|exact Hp].
    + exists (c :: s). split; [reflexivity|]. exists []. split; [reflexivity|]. split; [constructor|].
      intros c' t [= <- <-] Hb. apply is_blank_spec in Hb. congruence.
Qed.

Lemma skip_start_none nl s a :
  ~ Forall (blank nl) s -> SkipStartWhitespace nl s None = SkipStartWhitespace nl s (Some a).
Proof.
  induction s as [|c s IH]; intros Hn; [exfalso; apply Hn; constructor|].
  cbn [SkipStartWhitespace]. destruct (is_blank nl c) eqn:E; [|reflexivity].
  apply IH. intros Hf. apply Hn. constructor; [apply is_blank_spec, E|exact Hf].
Qed.

Lemma skip_start_ub nl s : SkipStartWhitespace nl s None = None <-> Forall (blank nl) s.
Proof.
  induction s as [|c s IH]; cbn [SkipStartWhitespace]; [split; auto|].
  destruct (is_blank nl c) eqn:E.
  - rewrite IH. split; [intros; constructor; [apply is_blank_spec, E|assumption]|].
    intros H; inversion H; assumption.
  - split; [discriminate|]. intros H; inversion H as [|? ? Hb]; subst.
    apply is_blank_spec in Hb. congruence.
Qed.

Lemma skip_start_full nl s aft :
  (aft = None -> ~ Forall (blank nl) s) ->
  exists r, SkipStartWhitespace nl s aft = Some r /\ strips_front nl s r.
Proof.
  intros H. destruct aft as [a|]; [apply skip_start_ok|].
  rewrite (skip_start_none nl s 0) by auto. apply skip_start_ok.
Qed.

Lemma strips_rev nl s r : strips_front nl (rev s) r -> strips_back nl s (rev r).
Proof.
  intros (p & E & Hp & Hn). exists (rev p). split.
  - rewrite <- (rev_involutive s), E, rev_app_distr. reflexivity.
  - split; [apply Forall_rev, Hp|]. intros c t Ht. apply (Hn c (rev t)).
    rewrite <- (rev_involutive r), Ht, rev_app_distr. reflexivity.
Qed.

Lemma skip_end_full nl s bef :
  (bef = None -> ~ Forall (blank nl) s) ->
  exists r, SkipEndWhitespace nl s bef = Some r /\ strips_back nl s r.
Proof.
  intros H. unfold SkipEndWhitespace.
  destruct (skip_start_full nl (rev s) bef) as (r & E & Hr).
  - intros Hb Hf. apply (H Hb). rewrite <- (rev_involutive s). apply Forall_rev, Hf.
  - rewrite E. exists (rev r). split; [reflexivity|]. apply strips_rev, Hr.
Qed.

Lemma skip_end_ub nl s : SkipEndWhitespace nl s None = None <-> Forall (blank nl) s.
Proof.
  unfold SkipEndWhitespace. destruct (SkipStartWhitespace nl (rev s) None) eqn:E; cbn [option_map].
  - split; [discriminate|]. intros H. apply Forall_rev, skip_start_ub in H. congruence.
  - split; [|reflexivity]. intros _. apply skip_start_ub in E.
    rewrite <- (rev_involutive s). apply Forall_rev, E.
Qed.

Lemma trim_full s bef aft :
  (Forall (blank false) s -> aft <> None /\ (s = [] -> bef <> None)) ->
  exists m r, strips_front false s m /\ strips_back false m r /\
    TrimWhitespace s bef aft = Some r.
Proof.
  intros H. unfold TrimWhitespace.
  destruct (skip_start_full false s aft) as (m & E & Hm).
  { intros Ha Hf. destruct (H Hf). congruence. }
  rewrite E. pose proof Hm as (p & Es & Hp & Hn).
  assert (Hs : firstn (length s - length m) s = p).
  { rewrite Es, app_length. replace (length p + length m - length m)%nat with (length p) by lia.
    rewrite firstn_app, Nat.sub_diag, firstn_all. cbn. apply app_nil_r. }
  rewrite Hs.
  destruct (skip_end_full false m (match rev p with [] => bef | c :: _ => Some c end)) as (r & E2 & Hr).
  - intros Hb Hf. destruct (rev p) eqn:Ep; [|discriminate].
    assert (p = []) by (rewrite <- (rev_involutive p), Ep; reflexivity). subst p.
    destruct m as [|c m']; [|inversion Hf; subst; apply (Hn c m' eq_refl); assumption].
    rewrite H0 in Es. cbn in Es. rewrite Es in H. destruct (H (Forall_nil _)) as [_ Hx]. apply Hx; auto.
  - exists m, r. auto.
Qed.

(** two blanks-stripped texts are the same text, so the specification is functional *)
Lemma strips_front_unique nl s r1 r2 : strips_front nl s r1 -> strips_front nl s r2 -> r1 = r2.
Proof.
  intros (p1 & E1 & H1 & N1) (p2 & E2 & H2 & N2). subst s. revert p2 E2 H2.
  induction p1 as [|c p1 IH]; intros p2 E2 H2.
  - cbn in E2. destruct p2 as [|d p2]; [exact E2|].
    exfalso. inversion H2; subst. apply (N1 d (p2 ++ r2)); auto.
  - destruct p2 as [|d p2].
    + exfalso. inversion H1; subst. apply (N2 c (p1 ++ r1)); auto.
    + cbn in E2. injection E2 as -> E2. inversion H1; inversion H2; subst. apply (IH ltac:(assumption) p2); assumption.
Qed.

(** FourCC *)
Lemma lor_disjoint_byte a c k : 0 <= k -> 0 <= a < 2 ^ k -> Z.lor a (c * 2 ^ k) = a + c * 2 ^ k.
Proof. intros. apply lor_low_shift; lia. Qed.

Lemma ascii_sgn c : 0 <= c < 128 -> u32 (sgn 8 c) = c.
Proof.
  intros. rewrite (sgn_small 8 c) by (unfold is_sword; lia).
  apply wrap_small. lia.
Qed.

Lemma last_byte d : is_byte d -> u32 (u32 (sgn 8 d) * 2 ^ 24) = d * 2 ^ 24.
Proof.
  unfold is_byte. intros Hd. unfold sgn. rewrite wrap_small by lia. unfold u32, wrap.
  destruct (Z.ltb_spec d (2 ^ (8 - 1))).
  - rewrite (Z.mod_small d) by lia. apply Z.mod_small. lia.
  - assert (E : (d - 2 ^ 8) mod 2 ^ 32 = d - 2 ^ 8 + 2 ^ 32).
    { symmetry. apply Z.mod_unique with (-1); lia. }
    rewrite E. symmetry. apply Z.mod_unique with (2 ^ 24 - 1); lia.
Qed.

Lemma compile_value a b c d rest :
  0 <= a < 128 -> 0 <= b < 128 -> 0 <= c < 128 -> is_byte d ->
  CompileFourCC (a :: b :: c :: d :: rest) = Some (le_value [a; b; c; d]).
Proof.
  intros Ha Hb Hc Hd. cbn [CompileFourCC]. f_equal. unfold fourcc_step.
  rewrite !ascii_sgn by assumption.
  change (8 * 0) with 0. change (8 * 1) with 8. change (8 * 2) with 16. change (8 * 3) with 24.
  rewrite last_byte by assumption.
  unfold u32. rewrite (wrap_small 32 (a * 2 ^ 0)), (wrap_small 32 (b * 2 ^ 8)), (wrap_small 32 (c * 2 ^ 16)) by lia.
  rewrite Z.lor_0_l. unfold is_byte in Hd.
  rewrite (lor_low_shift (a * 2 ^ 0) b 8) by lia.
  rewrite (lor_low_shift _ c 16) by lia.
  rewrite (lor_low_shift _ d 24) by lia.
  cbn [le_value]. lia.
Qed.

Lemma compile_bytes a b c d rest :
  0 <= a < 128 -> 0 <= b < 128 -> 0 <= c < 128 -> is_byte d ->
  exists v, CompileFourCC (a :: b :: c :: d :: rest) = Some v /\
            0 <= v < 2 ^ 32 /\ le_bytes 4 v = [a; b; c; d].
Proof.
  intros Ha Hb Hc Hd. eexists. split; [apply compile_value; assumption|].
  unfold is_byte in *. split; [cbn [le_value]; lia|].
  cbn [le_bytes le_value]. repeat f_equal; lia.
Qed.

Lemma le_bytes_inj4 v w : 0 <= v < 2 ^ 32 -> 0 <= w < 2 ^ 32 -> le_bytes 4 v = le_bytes 4 w -> v = w.
Proof.
  intros Hv Hw. cbn [le_bytes]. intros H. injection H as H1 H2 H3 H4. lia.
Qed.

(** rendering *)
Definition ascii_nz (c : Z) : Prop := 1 <= c < 128.

Lemma render_bytes v a b c d n :
  0 <= v < 2 ^ 32 -> le_bytes 4 v = [a; b; c; d] ->
  ascii_nz a -> ascii_nz b -> ascii_nz c -> ascii_nz d ->
  DecompileFourCC v n =
    (let cs := firstn n [a; b; c; d] in
     match all_alnum cs with None => None | Some true => Some cs | Some false => Some (flat_map hex_byte cs) end).
Proof.
  intros Hv E Ha Hb Hc Hd. unfold DecompileFourCC, ascii_nz in *.
  assert (E8 : le_bytes 8 v = [a; b; c; d; 0; 0; 0; 0]).
  { change 8%nat with (4 + 4)%nat. cbn [le_bytes plus] in *.
    injection E as E1 E2 E3 E4. rewrite E1, E2, E3, E4.
    replace (v / 256 / 256 / 256 / 256) with 0 by lia. reflexivity. }
  rewrite E8. cbn [c_strlen].
  replace (a =? 0) with false by lia. replace (b =? 0) with false by lia.
  replace (c =? 0) with false by lia. replace (d =? 0) with false by lia.
  cbn [option_map]. change (0 =? 0) with true. cbv iota. cbn [option_map].
  replace (firstn (Nat.min n 4) [a; b; c; d; 0; 0; 0; 0]) with (firstn n [a; b; c; d]); [reflexivity|].
  destruct n as [|[|[|[|n]]]]; reflexivity || (cbn [firstn Nat.min]; rewrite firstn_nil, ?Nat.min_0_r; reflexivity).
Qed.

Lemma all_alnum_true l : Forall alnum l -> all_alnum l = Some true.
Proof.
  induction 1 as [|c l Hc Hl IH]; cbn [all_alnum]; [reflexivity|].
  unfold alnum in Hc. unfold c_isalnum. replace (c <? 128) with true by lia.
  match goal with |- context [if ?b then _ else _] => replace b with true by lia end. exact IH.
Qed.

Lemma all_alnum_ascii l : Forall ascii_nz l -> exists b, all_alnum l = Some b /\ (b = true <-> Forall alnum l).
Proof.
  induction 1 as [|c l Hc Hl (b & E & Hb)]; cbn [all_alnum]; [exists true; repeat split; auto|].
  unfold ascii_nz in Hc. unfold c_isalnum. replace (c <? 128) with true by lia.
  match goal with |- context [if ?b then _ else _] => destruct b eqn:Eb end.
  - exists b. split; [exact E|]. rewrite Hb. split; [|intros H; inversion H; assumption].
    intros; constructor; [unfold alnum; lia|assumption].
  - exists false. split; [reflexivity|]. split; [discriminate|]. intros H; inversion H as [|? ? Ha]; subst.
    unfold alnum in Ha. lia.
Qed.

Definition ne32 (c : Z) := c <> 32.
Lemma hex_body b : ascii_nz b -> exists t, hex_byte b = t ++ [32] /\ Forall ne32 t /\ hd 0 t = 48 /\ t <> [].
Proof.
  intros Hb. unfold ascii_nz in Hb. unfold hex_byte.
  destruct (Z.ltb_spec b 16).
  - exists ([48; 120] ++ [hex_digit b]). rewrite <- app_assoc. split; [reflexivity|].
    split; [|split; [reflexivity|discriminate]].
    repeat constructor; unfold ne32, hex_digit; try lia. destruct (Z.ltb_spec b 10); lia.
  - exists ([48; 120] ++ [hex_digit (b / 16); hex_digit (b mod 16)]). rewrite <- app_assoc. split; [reflexivity|].
    split; [|split; [reflexivity|discriminate]].
    repeat constructor; unfold ne32, hex_digit; try lia.
    + destruct (Z.ltb_spec (b / 16) 10); lia.
    + destruct (Z.ltb_spec (b mod 16) 10); lia.
Qed.

Lemma hex_byte_inj a b : ascii_nz a -> ascii_nz b -> hex_byte a = hex_byte b -> a = b.
Proof.
  unfold ascii_nz, hex_byte, hex_digit. intros Ha Hb.
  destruct (Z.ltb_spec a 16), (Z.ltb_spec b 16); cbn [app].
  - destruct (Z.ltb_spec a 10), (Z.ltb_spec b 10); intros E; cons_inj E; lia.
  - discriminate.
  - discriminate.
  - destruct (Z.ltb_spec (a/16) 10), (Z.ltb_spec (b/16) 10), (Z.ltb_spec (a mod 16) 10), (Z.ltb_spec (b mod 16) 10);
      intros E; cons_inj E; lia.
Qed.

Lemma split32 t1 t2 r1 r2 : Forall ne32 t1 -> Forall ne32 t2 ->
  t1 ++ [32] ++ r1 = t2 ++ [32] ++ r2 -> t1 = t2 /\ r1 = r2.
Proof.
  revert t2. induction t1 as [|c t1 IH]; intros [|d t2] H1 H2 E; cbn in E.
  - injection E as ->. auto.
  - injection E as <- E. inversion H2 as [|? ? Hx]; subst. exfalso; apply Hx; reflexivity.
  - injection E as -> E. inversion H1 as [|? ? Hx]; subst. exfalso; apply Hx; reflexivity.
  - injection E as -> E. inversion H1; inversion H2; subst. destruct (IH t2) as [-> ->]; auto.
Qed.

Lemma hex_list_inj l1 l2 : Forall ascii_nz l1 -> Forall ascii_nz l2 ->
  flat_map hex_byte l1 = flat_map hex_byte l2 -> l1 = l2.
Proof.
  intros H1; revert l2. induction H1 as [|a l1 Ha Hl IH]; intros l2 H2 E; destruct H2 as [|b l2 Hb H2].
  - reflexivity.
  - exfalso. cbn [flat_map] in E. destruct (hex_body b Hb) as (t & Eh & _ & _ & Ht). rewrite Eh in E.
    destruct t; [congruence|discriminate].
  - exfalso. cbn [flat_map] in E. destruct (hex_body a Ha) as (t & Eh & _ & _ & Ht). rewrite Eh in E.
    destruct t; [congruence|discriminate].
  - cbn [flat_map] in E. destruct (hex_body a Ha) as (t1 & E1 & N1 & _). destruct (hex_body b Hb) as (t2 & E2 & N2 & _).
    rewrite E1, E2, <- !app_assoc in E. destruct (split32 _ _ _ _ N1 N2 E) as [Et Er].
    f_equal; [apply hex_byte_inj; try assumption; congruence|]. apply IH; assumption.
Qed.

Lemma hex_has_space l : l <> [] -> Forall ascii_nz l -> In 32 (flat_map hex_byte l).
Proof.
  intros Hn H. destruct H as [|a l Ha Hl]; [congruence|]. cbn [flat_map].
  destruct (hex_body a Ha) as (t & -> & _). apply in_or_app. left. apply in_or_app. right. left. reflexivity.
Qed.

Lemma alnum_no_space l : Forall alnum l -> ~ In 32 l.
Proof. intros H Hi. rewrite Forall_forall in H. apply H in Hi. unfold alnum in Hi. lia. Qed.

Lemma ascii_of_nz c : ascii_nz c -> 0 <= c < 128. Proof. unfold ascii_nz; lia. Qed.
Lemma byte_of_nz c : ascii_nz c -> is_byte c. Proof. unfold ascii_nz, is_byte; lia. Qed.

Lemma render_tag a b c d rest : ascii_nz a -> ascii_nz b -> ascii_nz c -> ascii_nz d ->
  exists v t, CompileFourCC (a :: b :: c :: d :: rest) = Some v /\ DecompileFourCC v 4 = Some t /\
    ((Forall alnum [a; b; c; d] /\ t = [a; b; c; d]) \/
     (~ Forall alnum [a; b; c; d] /\ t = flat_map hex_byte [a; b; c; d])).
Proof.
  intros Ha Hb Hc Hd.
  destruct (compile_bytes a b c d rest) as (v & E & Hv & Eb); try (apply ascii_of_nz; assumption).
  { apply byte_of_nz; assumption. }
  pose proof (render_bytes v a b c d 4 Hv Eb Ha Hb Hc Hd) as R. cbn [firstn] in R. cbv zeta in R.
  destruct (all_alnum_ascii [a; b; c; d]) as (al & Ea & Hal); [repeat (apply Forall_cons; [assumption|]); apply Forall_nil|].
  rewrite Ea in R. destruct al.
  - exists v, [a; b; c; d]. split; [exact E|]. split; [exact R|]. left. split; [apply Hal|]; reflexivity.
  - exists v, (flat_map hex_byte [a; b; c; d]). split; [exact E|]. split; [exact R|]. right.
    split; [|reflexivity]. intros H. apply Hal in H. discriminate.
Qed.

Lemma render_alnum a b c d rest : Forall alnum [a; b; c; d] ->
  exists v, CompileFourCC (a :: b :: c :: d :: rest) = Some v /\ DecompileFourCC v 4 = Some [a; b; c; d].
Proof.
  intros H. assert (Hz : Forall ascii_nz [a; b; c; d]).
  { eapply Forall_impl; [|exact H]. unfold alnum, ascii_nz. intros; lia. }
  inversion Hz as [|? ? Ha Hz1]; inversion Hz1 as [|? ? Hb Hz2]; inversion Hz2 as [|? ? Hc Hz3]; inversion Hz3 as [|? ? Hd Hz4]; subst.
  destruct (render_tag a b c d rest Ha Hb Hc Hd) as (v & t & E & Et & [[_ ->]|[N _]]); [|contradiction].
  exists v. auto.
Qed.

Lemma render_injective s s' v v' t : length s = 4%nat -> length s' = 4%nat ->
  Forall (fun c => 1 <= c < 128) s -> Forall (fun c => 1 <= c < 128) s' ->
  CompileFourCC s = Some v -> CompileFourCC s' = Some v' ->
  DecompileFourCC v 4 = Some t -> DecompileFourCC v' 4 = Some t -> s = s'.
Proof.
  intros Ls Ls' Hs Hs'.
  destruct s as [|a [|b [|c [|d [|]]]]]; try discriminate.
  destruct s' as [|a' [|b' [|c' [|d' [|]]]]]; try discriminate.
  inversion Hs as [|? ? Ha Hz1]; inversion Hz1 as [|? ? Hb Hz2]; inversion Hz2 as [|? ? Hc Hz3]; inversion Hz3 as [|? ? Hd Hz4]; subst.
  inversion Hs' as [|? ? Ha' Hy1]; inversion Hy1 as [|? ? Hb' Hy2]; inversion Hy2 as [|? ? Hc' Hy3]; inversion Hy3 as [|? ? Hd' Hy4]; subst.
  destruct (render_tag a b c d [] Ha Hb Hc Hd) as (v0 & t0 & E & Et & Hor).
  destruct (render_tag a' b' c' d' [] Ha' Hb' Hc' Hd') as (v1 & t1 & E' & Et' & Hor').
  rewrite E, E'. intros [= <-] [= <-]. rewrite Et, Et'. intros [= ->] [= ->].
  destruct Hor as [[A ->]|[A ->]], Hor' as [[A' E2]|[A' E2]].
  - exact E2.
  - exfalso. apply (alnum_no_space _ A). rewrite E2. apply hex_has_space; [discriminate|assumption].
  - exfalso. apply (alnum_no_space _ A'). rewrite <- E2. apply hex_has_space; [discriminate|assumption].
  - apply hex_list_inj; assumption.
Qed.

Lemma compile_injective s s' v : length s = 4%nat -> length s' = 4%nat ->
  Forall (fun c => 0 <= c < 128) s -> Forall (fun c => 0 <= c < 128) s' ->
  CompileFourCC s = Some v -> CompileFourCC s' = Some v -> s = s'.
Proof.
  intros Ls Ls' Hs Hs'.
  destruct s as [|a [|b [|c [|d [|]]]]]; try discriminate.
  destruct s' as [|a' [|b' [|c' [|d' [|]]]]]; try discriminate.
  inversion Hs as [|? ? Ha Hz1]; inversion Hz1 as [|? ? Hb Hz2]; inversion Hz2 as [|? ? Hc Hz3]; inversion Hz3 as [|? ? Hd Hz4]; subst.
  inversion Hs' as [|? ? Ha' Hy1]; inversion Hy1 as [|? ? Hb' Hy2]; inversion Hy2 as [|? ? Hc' Hy3]; inversion Hy3 as [|? ? Hd' Hy4]; subst.
  destruct (compile_bytes a b c d []) as (v0 & E & _ & B); try assumption; [unfold is_byte; lia|].
  destruct (compile_bytes a' b' c' d' []) as (v1 & E' & _ & B'); try assumption; [unfold is_byte; lia|].
  rewrite E, E'. intros [= <-] [= ->]. congruence.
Qed.

(** a non-ASCII character anywhere but last overwrites every byte above it *)
Lemma compile_non_ascii a b c d : is_byte a -> 128 <= a -> is_byte b -> is_byte c -> is_byte d ->
  CompileFourCC [a; b; c; d] = Some (a + 0xffffff00).
Proof.
  unfold is_byte. intros Ha Ha' Hb Hc Hd. cbn [CompileFourCC]. f_equal. unfold fourcc_step.
  change (8 * 0) with 0. rewrite Z.lor_0_l, Z.pow_0_r, Z.mul_1_r.
  assert (E : u32 (u32 (sgn 8 a)) = a + 255 * 2 ^ 8 + 255 * 2 ^ 16 + 255 * 2 ^ 24).
  { unfold sgn. rewrite wrap_small by lia. replace (a <? 2 ^ (8 - 1)) with false by lia.
    unfold u32. rewrite wrap_wrap by lia. unfold wrap. symmetry. apply Z.mod_unique with (-1); lia. }
  rewrite E.
  assert (G : forall x i, 1 <= i <= 3 ->
     Z.lor (a + 255 * 2 ^ 8 + 255 * 2 ^ 16 + 255 * 2 ^ 24) (u32 (u32 (sgn 8 x) * 2 ^ (8 * i)))
     = a + 255 * 2 ^ 8 + 255 * 2 ^ 16 + 255 * 2 ^ 24).
  { intros x i Hi. apply Z.bits_inj'. intros k Hk. rewrite Z.lor_spec.
    replace (a + 255 * 2 ^ 8 + 255 * 2 ^ 16 + 255 * 2 ^ 24) with (a + (2 ^ 24 - 1) * 2 ^ 8) by lia.
    rewrite <- lor_low_shift by lia. rewrite Z.lor_spec.
    rewrite Z.mul_pow2_bits by lia. unfold u32. rewrite wrap_testbit by lia. rewrite Z.mul_pow2_bits by lia.
    destruct (Z.lt_ge_cases k 8) as [Hk8|Hk8].
    { replace (Z.testbit (wrap 32 (sgn 8 x)) (k - 8 * i)) with false; [rewrite andb_false_r; apply orb_false_r|].
      symmetry. apply Z.testbit_neg_r. lia. }
    destruct (Z.ltb_spec k 32); [|cbn [andb]; apply orb_false_r].
    replace (Z.testbit (2 ^ 24 - 1) (k - 8)) with true; [rewrite orb_true_r; reflexivity|].
    symmetry. change (2 ^ 24 - 1) with (Z.ones 24). rewrite Z.testbit_ones by lia. lia. }
  rewrite !G by lia. lia.
Qed.
