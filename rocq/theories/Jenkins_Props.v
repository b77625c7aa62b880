(** C18, C19: name hashes. *)
From Verif Require Import Base Jenkins_Model Jenkins_Spec Jenkins_Proof.

(** ** C18 *)

(** JenHashCannon is Jenkins' one-at-a-time function on every string. *)
Theorem C18_cannon_is_one_at_a_time : forall s, jenkins 32 s = oaat s.
Proof. exact jenkins32_oaat. Qed.

(** JenHash is the same recipe carried out on unbounded integers and cut to 32 bits only
    after each character and at the end. *)
Definition wide_char (h c : Z) : Z :=
  let x := (h + c) * 1025 in Z.lxor x (x / 64) mod 2 ^ 32.
Definition wide_end (h : Z) : Z :=
  let x := h * 9 in (Z.lxor x (x / 2048) * 32769) mod 2 ^ 32.

Theorem C18_wide_formula : forall s,
  bytes_ok s -> jenkins 64 s = wide_end (fold_left wide_char s 0).
Proof.
  intros s Hs. unfold jenkins.
  assert (Hstep : forall h c, is_word 32 h -> is_byte c ->
            jen_step 64 h c = wide_char h c /\ is_word 32 (wide_char h c)).
  { intros h c Hh Hc. unfold is_word, is_byte in *. split.
    - unfold jen_step, wide_char. cbv zeta.
      rewrite (wrap_small 64 (h + c)) by lia. rewrite (wrap_small 64 ((h + c) * 2 ^ 10)) by lia.
      rewrite wrap_small by lia. replace (h + c + (h + c) * 2 ^ 10) with ((h + c) * 1025) by lia.
      reflexivity.
    - apply Z.mod_pos_bound. lia. }
  assert (F : forall h, is_word 32 h -> fold_left (jen_step 64) s h = fold_left wide_char s h /\
                        is_word 32 (fold_left wide_char s h)).
  { induction s as [|c s IH]; intros h Hh; cbn [fold_left]; [auto|].
    inversion Hs as [|? ? Hc Hs']; subst.
    destruct (Hstep h c Hh Hc) as [E W]. rewrite E. apply IH; assumption. }
  destruct (F 0 ltac:(unfold is_word; lia)) as [E W]. rewrite E.
  set (h := fold_left wide_char s 0) in *. clearbody h. clear -W. unfold is_word in W.
  unfold jen_final, wide_end. cbv zeta.
  rewrite (wrap_small 64 (h * 2 ^ 3)) by lia.
  rewrite (wrap_small 64 (h + h * 2 ^ 3)) by lia. replace (h + h * 2 ^ 3) with (h * 9) by lia.
  change (2 ^ 11) with 2048.
  set (y := Z.lxor (h * 9) (h * 9 / 2048)).
  assert (Hy : 0 <= y < 2 ^ 36) by (apply lxor_bounds; lia).
  rewrite (wrap_small 64 (y * 2 ^ 15)) by lia. rewrite wrap_small by lia.
  unfold u32, wrap. f_equal. lia.
Qed.

(** Hashing a literal and hashing an equal run-time view give the same value. *)
Theorem C18_literal_agrees : forall w s, jenkins_literal w (s ++ [0]) = jenkins w s.
Proof.
  intros. unfold jenkins_literal. rewrite app_length. cbn [length].
  replace (length s + 1 - 1)%nat with (length s) by lia. rewrite firstn_app_exact. reflexivity.
Qed.

(** The value always fits 32 bits. *)
Theorem C18_range : forall w s, is_word 32 (jenkins w s).
Proof. intros. apply wrap_range. lia. Qed.

(** JenHashCannon never confuses two strings that differ in a single character. *)
Theorem C18_cannon_single_character : forall p q c d,
  is_byte c -> is_byte d -> c <> d ->
  jenkins 32 (p ++ c :: q) <> jenkins 32 (p ++ d :: q).
Proof.
  intros p q c d Hc Hd Hne E. unfold jenkins in E. rewrite !fold_left_app in E. cbn [fold_left] in E.
  apply jen_final32_inj in E; try (apply fold_word, jen_step32_word).
  apply fold_inj in E; try apply jen_step32_word.
  apply jen_step32_inj in E. apply Hne.
  set (h := fold_left (jen_step 32) p 0) in E. rewrite !(Z.add_comm h) in E.
  unfold is_byte in *. apply (wrap_add_inj c d h); auto; unfold is_word; lia.
Qed.

(** JenHash, the one used everywhere else, does: four-byte strings, last byte different. *)
Theorem C18_wide_single_character_refuted :
  jenkins 64 [252; 121; 27; 124] = jenkins 64 [252; 121; 27; 127].
Proof. vm_compute. reflexivity. Qed.

(** Hash objects compare by value, but < and > are exchanged: [a < b] holds exactly when
    a's value is greater. It is still a strict total order compatible with ==. *)
Theorem C18_comparisons : forall a b c,
  (jen_eq a b = true <-> a = b) /\ (jen_ne a b = true <-> a <> b) /\
  (jen_lt a b = true <-> a > b) /\ (jen_gt a b = true <-> a < b) /\
  jen_lt a a = false /\ (jen_lt a b = true -> jen_lt b c = true -> jen_lt a c = true) /\
  (jen_lt a b = true \/ jen_eq a b = true \/ jen_lt b a = true) /\ jen_gt a b = jen_lt b a.
Proof. intros. unfold jen_eq, jen_ne, jen_lt, jen_gt. repeat split; lia. Qed.

Example C18_static_asserts :
  jenkins 64 [98; 117; 103] = 0x54908567 /\ jenkins 32 [98; 117; 103] = 0xF37C8567.
Proof. split; vm_compute; reflexivity. Qed.

(** ** C19 *)

(** For every length except 24, 36, 48, ... the hash is lookup3's hashword over the
    zero-padded little-endian words of the text. *)
Theorem C19_is_lookup3 : forall s seed,
  bytes_ok s -> (length s mod 12 <> 0 \/ length s = 0 \/ length s = 12)%nat ->
  jenkins3 s seed = hashword (string_words s) seed.
Proof. exact jenkins3_lookup3. Qed.

(** For the others the last twelve bytes are never read: any two texts equal up to them
    collide, under every seed. *)
Theorem C19_last_twelve_ignored_refuted : forall s t u seed,
  (0 < length s)%nat -> (length s mod 12 = 0)%nat -> length t = 12%nat -> length u = 12%nat ->
  jenkins3 (s ++ t) seed = jenkins3 (s ++ u) seed.
Proof.
  intros s t u seed H0 Hm Ht Hu. unfold jenkins3. cbv zeta.
  rewrite !app_length, Ht, Hu.
  replace (Nat.max (length s + 12) 12 - 12)%nat with (length s) by lia.
  destruct (Nat.eqb_spec (length s + 12) 12); [lia|].
  replace ((length s + 12) mod 12)%nat with 0%nat
    by (replace (length s + 12)%nat with (length s + 1 * 12)%nat by lia; rewrite Nat.mod_add by lia; lia).
  cbn [Nat.ltb Nat.leb]. f_equal. apply jen3_loop_prefix; auto.
Qed.

(** Concretely such texts hash differently under the published function. *)
Example C19_lookup3_distinguishes :
  let s := map Z.of_nat (seq 1 12) in
  hashword (string_words (s ++ map Z.of_nat (seq 1 12))) 0 <>
  hashword (string_words (s ++ map Z.of_nat (seq 2 12))) 0 /\
  jenkins3 (s ++ map Z.of_nat (seq 1 12)) 0 = jenkins3 (s ++ map Z.of_nat (seq 2 12)) 0.
Proof. split; [vm_compute; discriminate | vm_compute; reflexivity]. Qed.

(** Padding also makes a text and the same text followed by a NUL collide whenever the
    extra byte opens no new word. *)
Lemma le_value_snoc0 l : le_value (l ++ [0]) = le_value l.
Proof. rewrite le_value_app. cbn [le_value]. lia. Qed.

Lemma words4_snoc0 : forall s f g,
  (length s <= f)%nat -> (S (length s) <= g)%nat -> (length s mod 4 <> 0)%nat ->
  words4 g (s ++ [0]) = words4 f s.
Proof.
  induction s as [s IH] using (induction_ltof1 _ (@length Z)). unfold ltof in IH.
  intros f g Hf Hg Hm. destruct s as [|x s]; [cbn in Hm; lia|].
  rewrite (words4_cons f) by (try discriminate; assumption).
  rewrite words4_cons by (try discriminate; rewrite app_length; cbn [length] in *; lia).
  destruct (Nat.le_gt_cases 4 (length (x :: s))) as [H|H].
  - rewrite firstn_app, skipn_app. replace (4 - length (x :: s))%nat with 0%nat by lia.
    change (firstn 0 [0]) with (@nil Z). change (skipn 0 [0]) with [0]. rewrite app_nil_r. f_equal.
    assert (L : length (skipn 4 (x :: s)) = (length (x :: s) - 4)%nat) by apply skipn_length.
    apply IH; lia.
  - rewrite !(firstn_all2 (n := 4)) by (rewrite ?app_length; cbn [length] in *; lia).
    rewrite !(skipn_all2 (n := 4)) by (rewrite ?app_length; cbn [length] in *; lia).
    rewrite le_value_snoc0, !words4_nil. reflexivity.
Qed.

Theorem C19_trailing_nul_refuted : forall s seed,
  bytes_ok s -> (length s mod 4 <> 0)%nat -> (length s mod 12 <> 11 \/ length s = 11)%nat ->
  jenkins3 (s ++ [0]) seed = jenkins3 s seed.
Proof.
  intros s seed Hb H4 H11.
  assert (D : ((length s mod 12) mod 4 = length s mod 4)%nat).
  { pose proof (Nat.div_mod (length s) 12 ltac:(lia)) as E. rewrite E at 2.
    replace (12 * (length s / 12) + length s mod 12)%nat
      with (length s mod 12 + (3 * (length s / 12)) * 4)%nat by lia.
    rewrite Nat.mod_add by lia. reflexivity. }
  assert (N : (length s mod 12 <> 0)%nat) by (intros E; rewrite E in D; cbn in D; lia).
  assert (N1 : (length (s ++ [0%Z]) mod 12 <> 0 \/ length (s ++ [0%Z]) = 12)%nat).
  { rewrite app_length. cbn [length]. destruct H11 as [H|H]; [left|right; lia].
    pose proof (Nat.div_mod (length s) 12 ltac:(lia)) as E.
    pose proof (Nat.mod_upper_bound (length s) 12 ltac:(lia)).
    replace (length s + 1)%nat with (length s mod 12 + 1 + (length s / 12) * 12)%nat by lia.
    rewrite Nat.mod_add by lia. rewrite Nat.mod_small by lia. lia. }
  rewrite !C19_is_lookup3.
  - unfold string_words. rewrite (words4_snoc0 s (length s)) by (rewrite ?app_length; cbn [length]; lia). reflexivity.
  - assumption.
  - lia.
  - apply bytes_ok_app. split; [assumption|]. constructor; [unfold is_byte; lia|constructor].
  - tauto.
Qed.

Example C19_static_asserts :
  jenkins3 [97; 104; 111; 106] 0 = 0xE915A979 /\
  jenkins3 [110; 97; 122; 100; 97; 114] 0 = 0xB5CCCEA9 /\
  jenkins3 [115; 101; 101; 121; 97; 108; 97; 116; 101; 114] 0 = 0xFDFDC894.
Proof. repeat split; vm_compute; reflexivity. Qed.

Print Assumptions C18_cannon_is_one_at_a_time.
Print Assumptions C18_wide_formula.
Print Assumptions C18_literal_agrees.
Print Assumptions C18_range.
Print Assumptions C18_cannon_single_character.
Print Assumptions C18_wide_single_character_refuted.
Print Assumptions C18_comparisons.
Print Assumptions C19_is_lookup3.
Print Assumptions C19_last_twelve_ignored_refuted.
Print Assumptions C19_trailing_nul_refuted.
