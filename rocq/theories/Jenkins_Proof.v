From Verif Require Import Base Jenkins_Model Jenkins_Spec.

Lemma jen_step_oaat h c : jen_step 32 h c = oaat_char h c.
Proof.
  unfold jen_step, oaat_char, m32. rewrite Z.shiftl_mul_pow2, Z.shiftr_div_pow2 by lia.
  cbv zeta. set (x := wrap 32 (wrap 32 (h + c) + _)).
  assert (0 <= x < 2 ^ 32) by (apply wrap_range; lia).
  unfold u32. rewrite wrap_small by (apply lxor_bounds; lia). reflexivity.
Qed.

Lemma jenkins32_oaat s : jenkins 32 s = oaat s.
Proof.
  unfold jenkins, oaat. assert (E : forall h, fold_left (jen_step 32) s h = fold_left oaat_char s h).
  { induction s as [|c s IH]; intros h; cbn [fold_left]; [reflexivity|]. rewrite jen_step_oaat. apply IH. }
  rewrite E. set (h := fold_left _ _ _). clearbody h. unfold jen_final, m32.
  rewrite !Z.shiftl_mul_pow2, Z.shiftr_div_pow2 by lia. unfold u32. rewrite wrap_wrap by lia. reflexivity.
Qed.

(** Injectivity of the 32-bit mixing steps. *)
Lemma xorshift_inj n k x y :
  0 < k -> 0 <= n -> 0 <= x < 2 ^ n -> 0 <= y < 2 ^ n ->
  Z.lxor x (x / 2 ^ k) = Z.lxor y (y / 2 ^ k) -> x = y.
Proof.
  intros Hk Hn Hx Hy E.
  assert (H : forall m : nat, forall i, n - Z.of_nat m <= i -> 0 <= i -> Z.testbit x i = Z.testbit y i).
  { intros m. induction m as [|m IH]; intros i Hi H0.
    - rewrite (testbit_above n x), (testbit_above n y) by lia. reflexivity.
    - assert (B : Z.testbit (Z.lxor x (x / 2 ^ k)) i = Z.testbit (Z.lxor y (y / 2 ^ k)) i) by (rewrite E; reflexivity).
      rewrite !Z.lxor_spec, !Z.div_pow2_bits in B by lia.
      rewrite (IH (i + k)) in B by lia.
      destruct (Z.testbit x i), (Z.testbit y i), (Z.testbit y (i + k)); cbn in B; congruence. }
  apply Z.bits_inj'. intros i Hi. apply (H (Z.to_nat n) i); lia.
Qed.

Lemma mul_mod_inj m inv x y :
  (m * inv) mod 2 ^ 32 = 1 -> 0 <= x < 2 ^ 32 -> 0 <= y < 2 ^ 32 ->
  (x * m) mod 2 ^ 32 = (y * m) mod 2 ^ 32 -> x = y.
Proof.
  intros Hi Hx Hy E.
  assert (F : forall z, 0 <= z < 2 ^ 32 -> z = ((z * m) mod 2 ^ 32 * inv) mod 2 ^ 32).
  { intros z Hz. rewrite Z.mul_mod_idemp_l, <- Z.mul_assoc, <- Z.mul_mod_idemp_r, Hi, Z.mul_1_r, Z.mod_small by lia.
    reflexivity. }
  rewrite (F x Hx), (F y Hy), E. reflexivity.
Qed.

Lemma shift_add_mul k x : 0 <= k -> wrap 32 (x + wrap 32 (x * 2 ^ k)) = (x * (1 + 2 ^ k)) mod 2 ^ 32.
Proof.
  intros Hk. unfold wrap. rewrite Z.add_mod_idemp_r by lia. f_equal. lia.
Qed.

Lemma jen_step32_word h c : is_word 32 (jen_step 32 h c).
Proof. apply wrap_range; lia. Qed.

Lemma jen_step32_expand h c :
  jen_step 32 h c = let x := (wrap 32 (h + c) * 1025) mod 2 ^ 32 in Z.lxor x (x / 2 ^ 6).
Proof.
  unfold jen_step. rewrite shift_add_mul by lia. change (1 + 2 ^ 10) with 1025. cbv zeta.
  set (x := _ mod _). assert (0 <= x < 2 ^ 32) by (apply Z.mod_pos_bound; lia).
  apply wrap_small, lxor_bounds; lia.
Qed.
Lemma jen_final32_expand h :
  jen_final 32 h = let x := (h * 9) mod 2 ^ 32 in ((Z.lxor x (x / 2 ^ 11)) * 32769) mod 2 ^ 32.
Proof.
  unfold jen_final. rewrite !shift_add_mul by lia. change (1 + 2 ^ 3) with 9. change (1 + 2 ^ 15) with 32769.
  cbv zeta. apply wrap_small, Z.mod_pos_bound. lia.
Qed.

Lemma jen_step32_inj h h' c c' : jen_step 32 h c = jen_step 32 h' c' -> wrap 32 (h + c) = wrap 32 (h' + c').
Proof.
  rewrite !jen_step32_expand. cbv zeta. intros E.
  apply (xorshift_inj 32) in E; [| lia | lia | apply Z.mod_pos_bound; lia | apply Z.mod_pos_bound; lia].
  apply (mul_mod_inj 1025 3222273025) in E; auto; apply wrap_range; lia.
Qed.
Lemma jen_final32_inj h h' :
  is_word 32 h -> is_word 32 h' -> jen_final 32 h = jen_final 32 h' -> h = h'.
Proof.
  intros Hh Hh'. rewrite !jen_final32_expand. cbv zeta. intros E.
  apply (mul_mod_inj 32769 1073709057) in E; [|vm_compute; reflexivity| |].
  - apply (xorshift_inj 32) in E; [| lia | lia | apply Z.mod_pos_bound; lia | apply Z.mod_pos_bound; lia].
    apply (mul_mod_inj 9 954437177) in E; auto.
  - assert (0 <= (h * 9) mod 2 ^ 32 < 2 ^ 32) by (apply Z.mod_pos_bound; lia). apply lxor_bounds; lia.
  - assert (0 <= (h' * 9) mod 2 ^ 32 < 2 ^ 32) by (apply Z.mod_pos_bound; lia). apply lxor_bounds; lia.
Qed.

Lemma wrap_add_inj a b c : is_word 32 a -> is_word 32 b -> wrap 32 (a + c) = wrap 32 (b + c) -> a = b.
Proof.
  unfold is_word, wrap. intros Ha Hb E.
  assert (E' : ((a + c) - c) mod 2 ^ 32 = ((b + c) - c) mod 2 ^ 32).
  { rewrite <- (Zminus_mod_idemp_l (a + c)), E, Zminus_mod_idemp_l. reflexivity. }
  replace (a + c - c) with a in E' by lia. replace (b + c - c) with b in E' by lia.
  rewrite !Z.mod_small in E' by lia. exact E'.
Qed.

Lemma fold_word s h : is_word 32 h -> is_word 32 (fold_left (jen_step 32) s h).
Proof.
  revert h. induction s as [|c s IH]; intros h Hh; cbn [fold_left]; [assumption|]. apply IH, jen_step32_word.
Qed.
Lemma fold_inj s h h' :
  is_word 32 h -> is_word 32 h' ->
  fold_left (jen_step 32) s h = fold_left (jen_step 32) s h' -> h = h'.
Proof.
  revert h h'. induction s as [|c s IH]; intros h h' Hh Hh' E; cbn [fold_left] in E; [assumption|].
  apply IH in E; try apply jen_step32_word. apply jen_step32_inj in E. eapply wrap_add_inj; eauto.
Qed.

(** Hash 3. *)
Lemma byte_nth s i : bytes_ok s -> 0 <= nth i s 0 < 256.
Proof.
  intros H. destruct (Nat.lt_ge_cases i (length s)).
  - unfold bytes_ok in H. rewrite Forall_forall in H. apply H, nth_In; assumption.
  - rewrite nth_overflow by lia. lia.
Qed.

Lemma jen_key_value s off : bytes_ok s -> jen_key s off = le_value (firstn 4 (skipn off s)).
Proof.
  intros Hb.
  assert (L : forall a b c d, 0 <= a < 256 -> 0 <= b < 256 -> 0 <= c < 256 -> 0 <= d < 256 ->
     Z.lor a (Z.lor (b * 2 ^ 8) (Z.lor (c * 2 ^ 16) (d * 2 ^ 24))) = a + 256 * (b + 256 * (c + 256 * d))).
  { intros a b c d Ha Hb' Hc Hd.
    rewrite (lor_low_shift (c * 2 ^ 16) d 24) by lia.
    replace (c * 2 ^ 16 + d * 2 ^ 24) with ((c + d * 2 ^ 8) * 2 ^ 16) by lia.
    rewrite (lor_low_shift (b * 2 ^ 8) (c + d * 2 ^ 8) 16) by lia.
    replace (b * 2 ^ 8 + (c + d * 2 ^ 8) * 2 ^ 16) with ((b + (c + d * 2 ^ 8) * 2 ^ 8) * 2 ^ 8) by lia.
    rewrite (lor_low_shift a _ 8) by lia. lia. }
  assert (G : forall o, exists b o', (if (length s <=? o)%nat then (0, o) else (nth o s 0, S o)) = (b, o') /\
     0 <= b < 256 /\ le_value (firstn 0 (skipn o s)) = 0 /\
     (forall n, le_value (firstn (S n) (skipn o s)) = b + 256 * le_value (firstn n (skipn o' s)))).
  { intros o. destruct (Nat.leb_spec (length s) o) as [Ho|Ho].
    - exists 0, o. repeat split; try lia. intros n. rewrite skipn_all2 by lia. rewrite !firstn_nil. reflexivity.
    - exists (nth o s 0), (S o). repeat split; try apply byte_nth; auto. intros n.
      assert (E : skipn o s = nth o s 0 :: skipn (S o) s).
      { clear -Ho. revert s Ho. induction o as [|o IH]; intros [|x s] Ho; cbn in Ho; try lia; [reflexivity|].
        cbn [skipn nth]. apply IH. lia. }
      rewrite E. reflexivity. }
  unfold jen_key.
  destruct (G off) as (b0 & o0 & -> & B0 & _ & V0). destruct (G o0) as (b1 & o1 & -> & B1 & _ & V1).
  destruct (G o1) as (b2 & o2 & -> & B2 & _ & V2). destruct (G o2) as (b3 & o3 & -> & B3 & _ & V3).
  rewrite V0, V1, V2, V3, L by assumption. change (firstn 0 _) with (@nil Z). cbn [le_value]. lia.
Qed.

Definition tup (t : trip) : Z * Z * Z := (ta t, tb t, tc t).
Lemma rot_eq x k : 0 <= k <= 32 -> jen_rot x k = rot x k.
Proof.
  intros. unfold jen_rot, rot, m32. rewrite Z.shiftl_mul_pow2, Z.shiftr_div_pow2 by lia. reflexivity.
Qed.
Lemma mix_line_eq x y z k : 0 <= k <= 32 -> mix_ x y z k = mix_line x y z k.
Proof. intros. unfold mix_, mix_line. rewrite rot_eq by assumption. reflexivity. Qed.
Lemma final_line_eq x y k : 0 <= k <= 32 -> final_ x y k = final_line x y k.
Proof. intros. unfold final_, final_line. rewrite rot_eq by assumption. reflexivity. Qed.
Lemma mix_eq t : tup (jen3_mix t) = mix (tup t).
Proof.
  destruct t as [a b c]. unfold tup, jen3_mix, mix. cbn [ta tb tc].
  repeat (rewrite mix_line_eq by lia; destruct (mix_line _ _ _ _)). reflexivity.
Qed.
Lemma final_eq t : tup (jen3_final t) = final (tup t).
Proof.
  destruct t as [a b c]. unfold tup, jen3_final, final. cbn [ta tb tc].
  cbv zeta.
  repeat match goal with
  | |- context [final_line ?x ?y ?k] =>
      is_var x; is_var y; rewrite <- (final_line_eq x y k) by lia; generalize (final_ x y k); intros
  end.
  reflexivity.
Qed.
Lemma add_eq t k : tup (trip_add t k) = plus3 (tup t) (tup k).
Proof. destruct t, k. reflexivity. Qed.

Lemma words4_cons fuel s : s <> [] -> (length s <= fuel)%nat ->
  words4 fuel s = le_value (firstn 4 s) :: words4 fuel (skipn 4 s).
Proof.
  revert s. induction fuel as [|f IH]; intros [|x s] Hs Hf; try congruence; cbn [length] in Hf; [lia|].
  change (words4 (S f) (x :: s)) with (le_value (firstn 4 (x :: s)) :: words4 f (skipn 4 (x :: s))).
  f_equal. destruct (skipn 4 (x :: s)) as [|y r] eqn:E.
  - destruct f; reflexivity.
  - assert (L : (length (y :: r) <= f)%nat) by (rewrite <- E, skipn_length; cbn [length]; lia).
    rewrite (IH (y :: r)) by (try discriminate; assumption). reflexivity.
Qed.
Lemma words4_nil fuel : words4 fuel [] = [].
Proof. destruct fuel; reflexivity. Qed.

Lemma words4_fuel s : forall f g, (length s <= f)%nat -> (length s <= g)%nat -> words4 f s = words4 g s.
Proof.
  induction s as [s IH] using (induction_ltof1 _ (@length Z)). unfold ltof in IH. intros f g Hf Hg.
  destruct s as [|x s]; [rewrite !words4_nil; reflexivity|].
  rewrite (words4_cons f), (words4_cons g) by (try discriminate; assumption). f_equal.
  assert (L : (length (skipn 4 (x :: s)) < length (x :: s))%nat) by (rewrite skipn_length; cbn [length]; lia).
  apply IH; lia.
Qed.

Lemma words4_length fuel s : (length s <= fuel)%nat ->
  length (words4 fuel s) = (length s / 4 + if (length s mod 4 =? 0)%nat then 0 else 1)%nat.
Proof.
  revert fuel. induction s as [s IH] using (induction_ltof1 _ (@length Z)). unfold ltof in IH. intros f Hf.
  destruct s as [|x s]; [rewrite words4_nil; reflexivity|].
  rewrite words4_cons by (try discriminate; assumption). cbn [length].
  assert (L : (length (skipn 4 (x :: s)) < length (x :: s))%nat) by (rewrite skipn_length; cbn [length]; lia).
  rewrite IH by lia. rewrite skipn_length. cbn [length].
  destruct (Nat.le_gt_cases 4 (S (length s))) as [H|H].
  - replace (S (length s)) with (S (length s) - 4 + 1 * 4)%nat at 3 4 by lia.
    rewrite Nat.mod_add, Nat.div_add by lia. lia.
  - assert (D : (length s = 0 \/ length s = 1 \/ length s = 2)%nat) by lia.
    destruct D as [->|[->| ->]]; reflexivity.
Qed.

Lemma firstn_skipn_nil {A} n (s : list A) m : (length s <= n)%nat -> firstn m (skipn n s) = [].
Proof. intros. rewrite skipn_all2 by assumption. apply firstn_nil. Qed.

(** The tail: at most 12 bytes left, at least one. *)
Lemma hashword_tail fuel rest s :
  (0 < length rest <= 12)%nat -> (length rest <= fuel)%nat ->
  hashword_loop fuel (words4 fuel rest) s =
  final (plus3 s (le_value (firstn 4 rest), le_value (firstn 4 (skipn 4 rest)), le_value (firstn 4 (skipn 8 rest)))).
Proof.
  intros [H0 H12] Hf. destruct fuel as [|fuel]; [lia|].
  assert (N : rest <> []) by (destruct rest; [cbn in H0; lia|discriminate]).
  rewrite words4_cons by assumption.
  destruct (Nat.le_gt_cases (length rest) 4) as [H4|H4].
  { rewrite !(skipn_all2 rest) by lia. rewrite words4_nil. reflexivity. }
  assert (N4 : skipn 4 rest <> []) by (intros E; apply (f_equal (@length Z)) in E; rewrite skipn_length in E; cbn in E; lia).
  rewrite (words4_cons _ (skipn 4 rest)) by (try assumption; rewrite skipn_length; lia).
  rewrite skipn_skipn. change (4 + 4)%nat with 8%nat.
  destruct (Nat.le_gt_cases (length rest) 8) as [H8|H8].
  { rewrite !(skipn_all2 (n := 8) rest) by lia. rewrite words4_nil. reflexivity. }
  assert (N8 : skipn 8 rest <> []) by (intros E; apply (f_equal (@length Z)) in E; rewrite skipn_length in E; cbn in E; lia).
  rewrite (words4_cons _ (skipn 8 rest)) by (try assumption; rewrite skipn_length; lia).
  rewrite skipn_skipn. rewrite (skipn_all2 (n := (4 + 8)%nat) rest) by (cbn; lia). rewrite words4_nil. reflexivity.
Qed.

Lemma words4_ne fuel s : s <> [] -> (length s <= fuel)%nat -> exists w ws, words4 fuel s = w :: ws.
Proof. intros. rewrite words4_cons by assumption. eauto. Qed.

(** One mixing round: more than 12 bytes left. *)
Lemma hashword_more fuel wf rest s :
  (12 < length rest)%nat -> (length rest <= wf)%nat ->
  hashword_loop (S fuel) (words4 wf rest) s =
  hashword_loop fuel (words4 wf (skipn 12 rest))
    (mix (plus3 s (le_value (firstn 4 rest), le_value (firstn 4 (skipn 4 rest)), le_value (firstn 4 (skipn 8 rest))))).
Proof.
  intros H Hf.
  assert (N : forall k, (k <= 12)%nat -> skipn k rest <> []).
  { intros k Hk E. apply (f_equal (@length Z)) in E. rewrite skipn_length in E. cbn in E. lia. }
  rewrite (words4_cons wf rest) by (try assumption; exact (N 0%nat ltac:(lia))).
  rewrite (words4_cons wf (skipn 4 rest)) by (try (rewrite skipn_length; lia); apply N; lia).
  rewrite skipn_skipn. change (4 + 4)%nat with 8%nat.
  rewrite (words4_cons wf (skipn 8 rest)) by (try (rewrite skipn_length; lia); apply N; lia).
  rewrite skipn_skipn. change (4 + 8)%nat with 12%nat.
  destruct (words4_ne wf (skipn 12 rest)) as (w & ws & E); [apply N; lia|rewrite skipn_length; lia|].
  rewrite E. reflexivity.
Qed.

(** What remains to be mixed in after the loop, as the code sees it. *)
Lemma hashword_fuel ws : forall f g s, (length ws <= f)%nat -> (length ws <= g)%nat ->
  hashword_loop f ws s = hashword_loop g ws s.
Proof.
  induction ws as [ws IH] using (induction_ltof1 _ (@length Z)). unfold ltof in IH. intros f g s Hf Hg.
  destruct ws as [|x [|y [|z [|u r]]]]; try (destruct f, g; reflexivity).
  cbn [length] in Hf, Hg. destruct f as [|f]; [lia|]. destruct g as [|g]; [lia|].
  change (hashword_loop f (u :: r) (mix (plus3 s (x, y, z))) = hashword_loop g (u :: r) (mix (plus3 s (x, y, z)))).
  apply IH; cbn [length]; lia.
Qed.

Lemma jen3_loop_spec input (Hb : bytes_ok input) :
  forall n k t,
  (length input - k <= n)%nat -> (12 < length input)%nat -> (k < length input)%nat ->
  exists q t', jen3_loop n input k (length input - 12) t = t' /\
    (k + 12 * q < length input)%nat /\ (length input - (k + 12 * q) <= 12)%nat /\
    hashword_loop (length input) (words4 (length input) (skipn k input)) (tup t) =
    hashword_loop (length input) (words4 (length input) (skipn (k + 12 * q) input)) (tup t').
Proof.
  induction n as [|n IH]; intros k t Hn H12 Hk; [lia|]. cbn [jen3_loop].
  destruct (Nat.ltb_spec k (length input - 12)) as [H|H].
  - cbv zeta. set (tr := T _ _ _).
    destruct (IH (k + 12)%nat (jen3_mix (trip_add t tr))) as (q & t' & E & A & B & C); try lia.
    exists (S q), t'. split; [exact E|]. split; [lia|]. split; [lia|].
    replace (k + 12 * S q)%nat with (k + 12 + 12 * q)%nat by lia. rewrite <- C.
    rewrite mix_eq, add_eq.
    destruct (length input) as [|m] eqn:El; [lia|]. rewrite <- El.
    replace (length input) with (S m) at 1 by lia.
    rewrite hashword_more by (rewrite skipn_length; lia).
    rewrite !skipn_skipn. replace (12 + k)%nat with (k + 12)%nat by lia.
    unfold tr, tup at 3. cbn [ta tb tc]. rewrite !jen_key_value by assumption.
    rewrite (Nat.add_comm 4 k), (Nat.add_comm 8 k).
    apply hashword_fuel.
    + rewrite words4_length by (rewrite skipn_length; lia). rewrite skipn_length.
      assert (((length input - (k + 12)) / 4 <= (length input - (k + 12)))%nat) by (apply Nat.div_le_upper_bound; lia).
      destruct (_ =? 0)%nat; lia.
    + rewrite words4_length by (rewrite skipn_length; lia). rewrite skipn_length.
      assert (((length input - (k + 12)) / 4 <= (length input - (k + 12)))%nat) by (apply Nat.div_le_upper_bound; lia).
      destruct (_ =? 0)%nat; lia.
  - exists 0%nat, t. rewrite Nat.mul_0_r, Nat.add_0_r. repeat split; lia.
Qed.

Lemma last_trip_value input lk (Hb : bytes_ok input) :
  (0 < lk <= 12)%nat -> (lk <= length input)%nat ->
  (if (8 <? lk)%nat then
      T (jen_key input (length input - lk)) (jen_key input (length input - (lk - 4)))
        (jen_key input (length input - (lk - 8)))
    else if (4 <? lk)%nat then
      T (jen_key input (length input - lk)) (jen_key input (length input - (lk - 4))) 0
    else if (0 <? lk)%nat then T (jen_key input (length input - lk)) 0 0
    else T 0 0 0) =
  let rest := skipn (length input - lk) input in
  T (le_value (firstn 4 rest)) (le_value (firstn 4 (skipn 4 rest))) (le_value (firstn 4 (skipn 8 rest))).
Proof.
  intros Hl Hn. cbv zeta. rewrite !jen_key_value by assumption. rewrite !skipn_skipn.
  destruct (Nat.ltb_spec 8 lk).
  { replace (length input - (lk - 4))%nat with (4 + (length input - lk))%nat by lia.
    replace (length input - (lk - 8))%nat with (8 + (length input - lk))%nat by lia. reflexivity. }
  rewrite (skipn_all2 (n := (8 + (length input - lk))%nat)) by lia.
  destruct (Nat.ltb_spec 4 lk).
  { replace (length input - (lk - 4))%nat with (4 + (length input - lk))%nat by lia. reflexivity. }
  rewrite (skipn_all2 (n := (4 + (length input - lk))%nat)) by lia.
  destruct (Nat.ltb_spec 0 lk); [reflexivity|lia].
Qed.

Lemma hash_c t : (let '(_, _, c) := tup t in c) = tc t.
Proof. destruct t; reflexivity. Qed.

Lemma jenkins3_lookup3 input seed :
  bytes_ok input -> (length input mod 12 <> 0 \/ length input = 0 \/ length input = 12)%nat ->
  jenkins3 input seed = hashword (string_words input) seed.
Proof.
  intros Hb Hl. unfold jenkins3, hashword, string_words. cbv zeta.
  rewrite words4_length by lia.
  set (nk := (_ + _)%nat).
  assert (Es : m32 (0xdeadbeef + m32 (Z.shiftl (m32 (Z.of_nat nk)) 2) + seed) = jen3_setup (Z.of_nat nk) seed).
  { unfold jen3_setup, m32, u32, wrap. rewrite Z.shiftl_mul_pow2 by lia. change (2 ^ 2) with 4.
    rewrite Z.add_mod_idemp_l by lia. reflexivity. }
  rewrite Es. set (sd := jen3_setup _ _). set (t0 := T sd sd sd).
  change (sd, sd, sd) with (tup t0). clearbody t0.
  assert (Hfuel : hashword_loop nk (words4 (length input) input) (tup t0) =
                  hashword_loop (length input) (words4 (length input) input) (tup t0)).
  { apply hashword_fuel; rewrite words4_length by lia; [unfold nk; lia|].
    fold nk. unfold nk.
    destruct (Nat.eqb_spec (length input mod 4) 0) as [E|E].
    - assert ((length input / 4 <= length input)%nat) by (apply Nat.div_le_upper_bound; lia). lia.
    - pose proof (Nat.div_mod (length input) 4 ltac:(lia)). lia. }
  rewrite Hfuel. clear Hfuel.
  destruct (Nat.le_gt_cases (length input) 12) as [H12|H12].
  - (* no mixing round *)
    replace (Nat.max (length input) 12 - 12)%nat with 0%nat by lia.
    cbn [jen3_loop]. destruct (Nat.ltb_spec 0 0) as [X|_]; [lia|].
    destruct (Nat.eq_dec (length input) 0) as [E0|E0].
    { destruct input; [|discriminate]. cbn. symmetry. apply hash_c. }
    set (lk := if (length input =? 12)%nat then 12%nat else (length input mod 12)%nat).
    assert (Elk : lk = length input).
    { unfold lk. destruct (Nat.eqb_spec (length input) 12); [lia|]. apply Nat.mod_small. lia. }
    clearbody lk. rewrite (last_trip_value input lk) by (try assumption; lia). cbv zeta. subst lk.
    replace (length input - length input)%nat with 0%nat by lia. cbn [skipn].
    destruct (Nat.ltb_spec 0 (length input)); [|lia].
    rewrite hashword_tail by lia.
    set (lt := T _ _ _). change (_, _, _) with (tup lt) at 1.
    rewrite <- add_eq, <- final_eq. symmetry. apply hash_c.
  - replace (Nat.max (length input) 12 - 12)%nat with (length input - 12)%nat by lia.
    destruct (jen3_loop_spec input Hb (S (length input)) 0 t0) as (q & t' & E & A & B & C); try lia.
    rewrite E. cbn [skipn] in C. rewrite C.
    set (lk := if (length input =? 12)%nat then 12%nat else (length input mod 12)%nat).
    assert (Elk : lk = (length input - (0 + 12 * q))%nat).
    { unfold lk. destruct (Nat.eqb_spec (length input) 12); [lia|].
      assert (D : length input = ((length input - 12 * q) + q * 12)%nat) by lia.
      destruct (Nat.eq_dec (length input - 12 * q) 12) as [X|X].
      - exfalso. assert (length input mod 12 = 0)%nat by (rewrite D, X, Nat.mod_add by lia; reflexivity). lia.
      - rewrite D at 1. rewrite Nat.mod_add by lia. apply Nat.mod_small. lia. }
    clearbody lk. rewrite (last_trip_value input lk) by (try assumption; lia). cbv zeta.
    replace (length input - lk)%nat with (0 + 12 * q)%nat by lia.
    destruct (Nat.ltb_spec 0 lk); [|lia].
    rewrite hashword_tail by (rewrite skipn_length; lia).
    set (lt := T _ _ _). change (_, _, _) with (tup lt) at 1.
    rewrite <- add_eq, <- final_eq. symmetry. apply hash_c.
Qed.

(** The fault: nothing of the last twelve bytes is read. *)
Lemma jen_key_prefix a b c k : (k + 4 <= length a)%nat -> jen_key (a ++ b) k = jen_key (a ++ c) k.
Proof.
  intros H. unfold jen_key.
  assert (G : forall x o, (o < length a)%nat ->
     (if (length (a ++ x) <=? o)%nat then (0, o) else (nth o (a ++ x) 0, S o)) = (nth o a 0, S o)).
  { intros x o Ho. rewrite app_length. destruct (Nat.leb_spec (length a + length x) o); [lia|].
    rewrite app_nth1 by lia. reflexivity. }
  rewrite !G by lia. reflexivity.
Qed.
Lemma jen3_loop_prefix a b c n : forall k t, length b = 12%nat -> length c = 12%nat ->
  (length a mod 12 = k mod 12)%nat ->
  jen3_loop n (a ++ b) k (length a) t = jen3_loop n (a ++ c) k (length a) t.
Proof.
  induction n as [|n IH]; intros k t Hb Hc Hm; [reflexivity|]. cbn [jen3_loop].
  destruct (Nat.ltb_spec k (length a)) as [H|H]; [|reflexivity].
  assert (k + 12 <= length a)%nat.
  { pose proof (Nat.div_mod (length a) 12 ltac:(lia)). pose proof (Nat.div_mod k 12 ltac:(lia)).
    assert (k / 12 < length a / 12)%nat; [|lia].
    apply Nat.nle_gt. intros X. lia. }
  rewrite !(jen_key_prefix a b c) by lia. apply IH; auto.
  replace (k + 12)%nat with (k + 1 * 12)%nat by lia. rewrite Nat.mod_add by lia. exact Hm.
Qed.
