(** Formatting, bit fields, enums. *)
From Verif Require Import Base Supercore_Model StringView_Model StringView_Spec StringView_Proof Bitfield_Model
  Reflector_Model Reflector_Spec Reflector_Proof.

(** ** Decimal text *)
Lemma dec_digits_ok : forall f x, 0 <= x < 10 ^ Z.of_nat f -> (1 <= f)%nat -> digits 10 (dec_digits f x) x.
Proof.
  induction f as [|f IH]; intros x Hx Hf; [lia|]. cbn [dec_digits]. destruct (Z.ltb_spec x 10).
  - constructor. left. lia.
  - rewrite Nat2Z.inj_succ, Z.pow_succ_r in Hx by lia.
    replace x with ((x / 10) * 10 + x mod 10) at 3 by lia.
    apply digits_more.
    + apply IH; [lia|]. destruct f; [cbn in Hx; lia|lia].
    + left. lia.
Qed.
Lemma dec_digits_nonempty f x : (1 <= f)%nat -> dec_digits f x <> [].
Proof. destruct f; [lia|]. intros _. cbn [dec_digits]. destruct (x <? 10); [discriminate|]. destruct (dec_digits f (x / 10)); discriminate. Qed.
Lemma to_string_literal x : - 2 ^ 63 <= x < 2 ^ 64 -> literal (to_string x) (x <? 0) (Z.abs x).
Proof.
  intros H. unfold to_string. destruct (Z.ltb_spec x 0).
  - rewrite <- (app_nil_r (45 :: _)). change ((45 :: dec_digits 20 (- x)) ++ []) with ([] ++ [minus] ++ dec_digits 20 (- x) ++ []).
    apply literal_dec; [constructor|auto| |exact I|intros _ r; discriminate].
    replace (Z.abs x) with (- x) by lia. apply dec_digits_ok; [change (10 ^ Z.of_nat 20) with 100000000000000000000|]; lia.
  - rewrite <- (app_nil_r (dec_digits 20 x)). change (dec_digits 20 x ++ []) with ([] ++ [] ++ dec_digits 20 x ++ []).
    apply literal_dec; [constructor|auto| |exact I|intros _ r; discriminate].
    replace (Z.abs x) with x by lia. apply dec_digits_ok; [change (10 ^ Z.of_nat 20) with 100000000000000000000|]; lia.
Qed.

(** characters of a formatted number *)
Lemma dec_digits_chars f x : 0 <= x -> Forall (fun c => 48 <= c <= 57) (dec_digits f x).
Proof.
  revert x. induction f as [|f IH]; intros x Hx; [constructor|]. cbn [dec_digits]. destruct (Z.ltb_spec x 10).
  - constructor; [lia|constructor].
  - apply Forall_app. split; [apply IH; lia|constructor; [lia|constructor]].
Qed.
Lemma to_string_chars x : Forall (fun c => c = 45 \/ 48 <= c <= 57) (to_string x).
Proof.
  unfold to_string. destruct (Z.ltb_spec x 0).
  - constructor; [auto|]. eapply Forall_impl; [|apply dec_digits_chars; lia]. intros; cbn in *; lia.
  - eapply Forall_impl; [|apply dec_digits_chars; lia]. intros; cbn in *; lia.
Qed.
Lemma to_string_nonempty x : to_string x <> [].
Proof. unfold to_string. destruct (x <? 0); [discriminate|]. apply dec_digits_nonempty. lia. Qed.

Lemma le_bytes_mod n x y : x mod 256 ^ Z.of_nat n = y mod 256 ^ Z.of_nat n -> le_bytes n x = le_bytes n y.
Proof.
  intros H. rewrite <- (le_bytes_value (le_bytes n x)) by apply le_bytes_ok.
  rewrite <- (le_bytes_value (le_bytes n y)) by apply le_bytes_ok.
  rewrite !le_bytes_length, !le_value_bytes, H. reflexivity.
Qed.
Lemma le_bytes_sgn n b : bytes_ok b -> length b = n -> (1 <= n)%nat ->
  le_bytes n (sgn (8 * Z.of_nat n) (le_value b)) = b.
Proof.
  intros Hb Hl Hn. rewrite <- (le_bytes_value b) at 2 by assumption. rewrite Hl. apply le_bytes_mod.
  rewrite pow256 by lia. change (wrap (8 * Z.of_nat n) (sgn (8 * Z.of_nat n) (le_value b)) = wrap (8 * Z.of_nat n) (le_value b)).
  apply sgn_wrap. lia.
Qed.

(** ** Bit fields *)
Definition bf_mask (pos n : Z) : Z := (2 ^ n - 1) * 2 ^ pos.
Lemma GetMask_ok pos n : 0 <= pos -> 1 <= n -> pos + n <= 64 -> GetMask 64 (pos, n) = Some (bf_mask pos n).
Proof.
  intros Hp Hn H. unfold GetMask, shift_ok, promoted. change (Z.max 64 32) with 64.
  replace ((0 <=? 64 - n) && (64 - n <? 64) && ((0 <=? pos) && (pos <? 64))) with true by lia.
  f_equal. unfold bf_mask.
  assert (E : Z.shiftr (2 ^ 64 - 1) (64 - n) = 2 ^ n - 1).
  { apply Z.bits_inj'. intros i Hi. rewrite Z.shiftr_spec by lia.
    replace (2 ^ 64 - 1) with (Z.ones 64) by (rewrite Z.ones_equiv; lia).
    replace (2 ^ n - 1) with (Z.ones n) by (rewrite Z.ones_equiv; lia).
    destruct (Z.lt_ge_cases i n).
    - rewrite Z.ones_spec_low by lia. rewrite Z.ones_spec_low by lia. reflexivity.
    - rewrite Z.ones_spec_high by lia. rewrite Z.ones_spec_high by lia. reflexivity. }
  rewrite E, Z.shiftl_mul_pow2 by lia. apply wrap_small.
  assert (2 ^ n * 2 ^ pos <= 2 ^ 64) by (rewrite <- Z.pow_add_r by lia; apply Z.pow_le_mono_r; lia).
  pose proof (pow2_pos n ltac:(lia)). pose proof (pow2_pos pos ltac:(lia)). nia.
Qed.
Lemma bf_mask_bit pos n i : 0 <= pos -> 0 <= n -> 0 <= i -> Z.testbit (bf_mask pos n) i = (pos <=? i) && (i <? pos + n).
Proof.
  intros Hp Hn Hi. unfold bf_mask. rewrite Z.mul_pow2_bits by lia.
  replace (2 ^ n - 1) with (Z.ones n) by (rewrite Z.ones_equiv; lia).
  destruct (Z.leb_spec pos i); cbn [andb].
  - destruct (Z.ltb_spec i (pos + n)); [rewrite Z.ones_spec_low by lia|rewrite Z.ones_spec_high by lia]; reflexivity.
  - apply Z.testbit_neg_r. lia.
Qed.
Lemma not_mask_bit m i : 0 <= m < 2 ^ 64 -> 0 <= i < 64 -> Z.testbit (2 ^ 64 - 1 - m) i = negb (Z.testbit m i).
Proof.
  intros Hm Hi.
  replace (2 ^ 64 - 1 - m) with (wrap 64 (Z.lnot m)).
  - rewrite wrap_testbit by lia. rewrite Z.lnot_spec by lia. destruct (Z.ltb_spec i 64); [reflexivity|lia].
  - unfold wrap, Z.lnot, Z.pred.
    replace (Z.opp m + -1) with (2 ^ 64 - 1 - m + (-1) * 2 ^ 64) by lia.
    rewrite Z_mod_plus_full. apply Z.mod_small. lia.
Qed.

(** the 64-bit word after inserting [v] *)
Definition bf_insert (w pos n v : Z) : Z := Z.lor (Z.land w (2 ^ 64 - 1 - bf_mask pos n)) (u64 (v * 2 ^ pos)).
Lemma bf_insert_bits w pos n v : 0 <= w < 2 ^ 64 -> 0 <= pos -> 1 <= n -> pos + n <= 64 -> 0 <= v < 2 ^ n ->
  forall i, 0 <= i -> Z.testbit (bf_insert w pos n v) i =
    if (pos <=? i) && (i <? pos + n) then Z.testbit v (i - pos) else Z.testbit w i.
Proof.
  intros Hw Hp Hn H Hv i Hi. unfold bf_insert. rewrite Z.lor_spec, Z.land_spec.
  assert (Hmask : 0 <= bf_mask pos n < 2 ^ 64).
  { unfold bf_mask. assert (2 ^ n * 2 ^ pos <= 2 ^ 64) by (rewrite <- Z.pow_add_r by lia; apply Z.pow_le_mono_r; lia).
    pose proof (pow2_pos n ltac:(lia)). pose proof (pow2_pos pos ltac:(lia)). nia. }
  assert (Hvp : 0 <= v * 2 ^ pos < 2 ^ 64).
  { assert (2 ^ n * 2 ^ pos <= 2 ^ 64) by (rewrite <- Z.pow_add_r by lia; apply Z.pow_le_mono_r; lia).
    pose proof (pow2_pos pos ltac:(lia)). nia. }
  unfold u64. rewrite (wrap_small 64 (v * 2 ^ pos)) by assumption.
  destruct (Z.lt_ge_cases i 64).
  - rewrite not_mask_bit by lia. rewrite bf_mask_bit by lia. rewrite Z.mul_pow2_bits by lia.
    destruct (Z.leb_spec pos i), (Z.ltb_spec i (pos + n)); cbn [andb negb]; try lia.
    + rewrite andb_false_r. reflexivity.
    + rewrite andb_true_r. rewrite (testbit_above n v) by lia. apply orb_false_r.
    + rewrite andb_true_r. rewrite (Z.testbit_neg_r v) by lia. apply orb_false_r.
  - rewrite (testbit_above 64 w i) by lia. rewrite (testbit_above 64 (v * 2 ^ pos) i) by lia. cbn [andb orb].
    destruct (Z.ltb_spec i (pos + n)); [lia|]. rewrite andb_false_r. reflexivity.
Qed.
Definition bf_extract (w pos n : Z) : Z := Z.shiftr (Z.land w (bf_mask pos n)) pos.
Lemma bf_extract_eq w pos n : 0 <= pos -> 0 <= n -> bf_extract w pos n = (w / 2 ^ pos) mod 2 ^ n.
Proof.
  intros Hp Hn. unfold bf_extract. apply Z.bits_inj'. intros i Hi.
  rewrite Z.shiftr_spec, Z.land_spec, bf_mask_bit by lia.
  rewrite <- Z.shiftr_div_pow2 by lia.
  destruct (Z.lt_ge_cases i n).
  - rewrite Z.mod_pow2_bits_low by lia. rewrite Z.shiftr_spec by lia.
    replace ((pos <=? i + pos) && (i + pos <? pos + n)) with true by lia. apply andb_true_r.
  - rewrite Z.mod_pow2_bits_high by lia. replace ((pos <=? i + pos) && (i + pos <? pos + n)) with false by lia.
    apply andb_false_r.
Qed.
Lemma bf_insert_extract w pos n v : 0 <= w < 2 ^ 64 -> 0 <= pos -> 1 <= n -> pos + n <= 64 -> 0 <= v < 2 ^ n ->
  bf_extract (bf_insert w pos n v) pos n = v.
Proof.
  intros Hw Hp Hn H Hv. unfold bf_extract. apply Z.bits_inj'. intros i Hi.
  rewrite Z.shiftr_spec, Z.land_spec, bf_mask_bit, bf_insert_bits by lia.
  destruct (Z.lt_ge_cases i n).
  - replace ((pos <=? i + pos) && (i + pos <? pos + n)) with true by lia. rewrite andb_true_r. f_equal. lia.
  - replace ((pos <=? i + pos) && (i + pos <? pos + n)) with false by lia. rewrite andb_false_r.
    symmetry. apply (testbit_above n); lia.
Qed.
Lemma bf_insert_range w pos n v : 0 <= w < 2 ^ 64 -> 0 <= pos -> 1 <= n -> pos + n <= 64 -> 0 <= v < 2 ^ n ->
  0 <= bf_insert w pos n v < 2 ^ 64.
Proof.
  intros. unfold bf_insert. apply lor_bounds; [lia|apply land_bounds; lia|apply wrap_range; lia].
Qed.
Lemma bf_insert_same w pos n : 0 <= w < 2 ^ 64 -> 0 <= pos -> 1 <= n -> pos + n <= 64 ->
  bf_insert w pos n (bf_extract w pos n) = w.
Proof.
  intros Hw Hp Hn H. apply Z.bits_inj'. intros i Hi.
  assert (R : 0 <= bf_extract w pos n < 2 ^ n).
  { rewrite bf_extract_eq by lia. apply Z.mod_pos_bound, pow2_pos. lia. }
  rewrite bf_insert_bits by assumption.
  destruct (Z.leb_spec pos i), (Z.ltb_spec i (pos + n)); cbn [andb]; try reflexivity.
  unfold bf_extract. rewrite Z.shiftr_spec, Z.land_spec, bf_mask_bit by lia.
  replace (i - pos + pos) with i by lia. replace ((pos <=? i) && (i <? pos + n)) with true by lia. apply andb_true_r.
Qed.

(** ** Enum tables *)
Lemma compare_eq0 a b : (sv_compare a b =? 0) = true <-> a = b.
Proof. rewrite Z.eqb_eq. pose proof (compare_iff a b). tauto. Qed.
Lemma value_of_name_some name tab v : value_of_name name tab = Some v <-> first_with (fun p => fst p = name) tab (name, v).
Proof.
  split.
  - induction tab as [|[n x] tab IH]; cbn [value_of_name]; [discriminate|].
    destruct (sv_compare n name =? 0) eqn:E.
    + intros [= <-]. apply compare_eq0 in E. subst n. exists [], tab. repeat split. constructor.
    + intros H. destruct (IH H) as (a & z & E2 & P & F). exists ((n, x) :: a), z. subst tab. split; [reflexivity|split; [exact P|]].
      constructor; [|exact F]. cbn. intros ->. assert (X : (sv_compare name name =? 0) = true) by (apply compare_eq0; reflexivity). congruence.
  - intros (a & z & -> & _ & F). induction F as [|[n x] a H F IH]; cbn [app value_of_name].
    + assert (X : (sv_compare name name =? 0) = true) by (apply compare_eq0; reflexivity). rewrite X. reflexivity.
    + destruct (sv_compare n name =? 0) eqn:E; [|exact IH]. apply compare_eq0 in E. cbn in H. contradiction.
Qed.
Lemma value_of_name_none name tab : value_of_name name tab = None <-> ~ In name (map fst tab).
Proof.
  induction tab as [|[n x] tab IH]; cbn [value_of_name map fst In]; [split; auto|].
  destruct (sv_compare n name =? 0) eqn:E.
  - apply compare_eq0 in E. split; [discriminate|]. intros H. exfalso. apply H. auto.
  - rewrite IH. assert (n <> name) by (intros ->; assert (X : (sv_compare name name =? 0) = true) by (apply compare_eq0; reflexivity); congruence).
    tauto.
Qed.
Lemma name_of_value_some v tab n : name_of_value v tab = Some n <-> first_with (fun p => snd p = v) tab (n, v).
Proof.
  split.
  - induction tab as [|[n' x] tab IH]; cbn [name_of_value]; [discriminate|].
    destruct (Z.eqb_spec x v) as [->|N].
    + intros [= <-]. exists [], tab. repeat split. constructor.
    + intros H. destruct (IH H) as (a & z & E2 & P & F). exists ((n', x) :: a), z. subst tab. split; [reflexivity|split; [exact P|]].
      constructor; [exact N|exact F].
  - intros (a & z & -> & _ & F). induction F as [|[n' x] a H F IH]; cbn [app name_of_value].
    + rewrite Z.eqb_refl. reflexivity.
    + destruct (Z.eqb_spec x v); [contradiction|exact IH].
Qed.

Lemma skip_end_eq s : skip_end s = rev (skip_start (rev s)).
Proof.
  unfold skip_end, skip_start, SkipEndWhitespace. destruct (SkipStartWhitespace false (rev s) (Some 0)); reflexivity.
Qed.
Lemma skip_end_blanks s b : blanks b -> skip_end (s ++ b) = skip_end s.
Proof.
  intros H. rewrite !skip_end_eq, rev_app_distr. rewrite skip_start_blanks; [reflexivity|].
  unfold blanks in *. apply Forall_rev. exact H.
Qed.
Lemma skip_end_id s c : c <> 32 -> c <> 9 -> skip_end (s ++ [c]) = s ++ [c].
Proof.
  intros. rewrite skip_end_eq, rev_app_distr. cbn [rev app]. rewrite skip_start_id by assumption.
  cbn [rev]. rewrite rev_involutive. reflexivity.
Qed.

(** a name: not empty, no blank at either end *)
Definition trimmed (s : list Z) : Prop :=
  (exists c r, s = c :: r /\ c <> 32 /\ c <> 9) /\ (exists r c, s = r ++ [c] /\ c <> 32 /\ c <> 9).
Lemma trimmed_ends s : trimmed s -> skip_start s = s /\ skip_end s = s /\ s <> [].
Proof.
  intros [(c & r & E & H1 & H2) (r' & c' & E' & H3 & H4)]. repeat split.
  - rewrite E. apply skip_start_id; assumption.
  - rewrite E'. apply skip_end_id; assumption.
  - rewrite E. discriminate.
Qed.
