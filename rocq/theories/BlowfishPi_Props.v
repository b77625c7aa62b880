(** C51, continued: the constants are the digits of pi, so SetKey is the published schedule. *)
From Coq Require Import Reals Lra.
From Verif Require Import Base Blowfish_Tables Blowfish_Model Blowfish_Spec Blowfish_Proof
  BlowfishKey_Spec BlowfishKey_Proof BlowfishPi_Spec BlowfishPi_Proof BlowfishPi_Limbs.
Local Open Scope Z_scope.

Lemma tables_check : limb_check (digits 3 (BF_PBOXES ++ BF_SBOXES)) 1042 3600 1058 = true.
Proof. vm_cast_no_check (eq_refl true). Qed.

Lemma digits_app a b s : digits s (a ++ b) = digits (digits s a) b.
Proof. unfold digits. apply fold_left_app. Qed.
Lemma digits_small l : Forall (is_word 32) l -> 0 <= digits 0 l < 2 ^ (32 * Z.of_nat (length l)).
Proof.
  induction l as [|a l IH]; intros H; [cbn; lia|]. inversion H as [|a' l' Ha Hl]; subst.
  change (digits 0 (a :: l)) with (digits (2 ^ 32 * 0 + a) l). rewrite digits_linear.
  specialize (IH Hl). unfold is_word in Ha. cbn [length].
  replace (32 * Z.of_nat (S (length l))) with (32 + 32 * Z.of_nat (length l)) by lia. rewrite Z.pow_add_r by lia.
  set (B := 2 ^ (32 * Z.of_nat (length l))) in *. assert (0 < B) by (unfold B; lia). nia.
Qed.

Lemma int_part_unique r z : (IZR z <= r < IZR z + 1)%R -> Int_part r = z.
Proof.
  intros H. destruct (base_Int_part r) as [A B].
  assert (C1 : (IZR (Int_part r) < IZR (z + 1))%R) by (rewrite plus_IZR; lra).
  assert (C2 : (IZR z < IZR (Int_part r + 1))%R) by (rewrite plus_IZR; lra).
  apply lt_IZR in C1. apply lt_IZR in C2. lia.
Qed.

(** from the digits of pi as one number to each of them *)
Lemma digits_words l : Forall (is_word 32) l ->
  (IZR (digits 3 l) <= PI * IZR (2 ^ (32 * Z.of_nat (length l))) < IZR (digits 3 l) + 1)%R ->
  forall j, (j < length l)%nat -> nth j l 0 = pi_word j.
Proof.
  intros Hw Hp j Hj.
  assert (L1 : length (firstn (j + 1) l) = (j + 1)%nat) by (rewrite firstn_length; lia).
  assert (L2 : length (skipn (j + 1) l) = (length l - (j + 1))%nat) by apply skipn_length.
  assert (Hw' := Hw). rewrite <- (firstn_skipn (j + 1) l) in Hw'. apply Forall_app in Hw'. destruct Hw' as [Hw1 Hw2].
  pose proof (digits_small _ Hw2) as Bs. rewrite L2 in Bs.
  pose proof (digits_app (firstn (j + 1) l) (skipn (j + 1) l) 3) as D3. rewrite firstn_skipn, (digits_linear (skipn (j + 1) l)), L2 in D3.
  set (a := firstn (j + 1) l) in *. set (b := skipn (j + 1) l) in *.
  rewrite D3 in Hp.
  assert (SB : 2 ^ (32 * Z.of_nat (length l)) = 2 ^ (32 * Z.of_nat (j + 1)) * 2 ^ (32 * Z.of_nat (length l - (j + 1)))).
  { rewrite <- Z.pow_add_r by lia. f_equal. lia. }
  rewrite SB in Hp.
  set (B := 2 ^ (32 * Z.of_nat (length l - (j + 1)))) in *. set (A := digits 3 a) in *.
  assert (PB : (0 < IZR B)%R) by (apply IZR_lt; unfold B; lia).
  assert (I : Int_part (PI * 2 ^ (32 * (j + 1))) = A).
  { assert (PW : (2 ^ (32 * (j + 1)) = IZR (2 ^ (32 * Z.of_nat (j + 1))))%R).
    { replace (32 * Z.of_nat (j + 1)) with (Z.of_nat (32 * (j + 1))) by lia. rewrite <- (pow_IZR 2). reflexivity. }
    rewrite PW. set (T := 2 ^ (32 * Z.of_nat (j + 1))) in *.
    apply int_part_unique. rewrite plus_IZR, !mult_IZR in Hp.
    assert (0 <= IZR (digits 0 b) /\ IZR (digits 0 b) + 1 <= IZR B)%R as [G1 G2].
    { split; [apply IZR_le; lia|]. rewrite <- plus_IZR. apply IZR_le. lia. }
    destruct Hp as [P1 P2]. rewrite <- Rmult_assoc in P1, P2.
    split.
    - apply Rmult_le_reg_r with (IZR B); [exact PB|]. lra.
    - apply Rmult_lt_reg_r with (IZR B); [exact PB|]. rewrite Rmult_plus_distr_r, Rmult_1_l. lra. }
  unfold pi_word. rewrite I.
  assert (EA : A = 2 ^ 32 * digits 3 (firstn j l) + nth j l 0).
  { unfold A, a. replace (firstn (j + 1) l) with (firstn j l ++ [nth j l 0]).
    - rewrite digits_app. reflexivity.
    - rewrite <- (firstn_skipn j l) at 3. rewrite firstn_app, firstn_firstn, firstn_length.
      replace (min (j + 1) j) with j by lia. replace (j + 1 - min j (length l))%nat with 1%nat by lia.
      f_equal. rewrite <- (firstn_skipn j l) at 1. rewrite app_nth2 by (rewrite firstn_length; lia).
      rewrite firstn_length. replace (j - min j (length l))%nat with 0%nat by lia.
      assert (LS : length (skipn j l) <> 0%nat) by (rewrite skipn_length; lia).
      destruct (skipn j l); [cbn in LS; congruence | reflexivity]. }
  rewrite EA. rewrite Z.add_comm, Z.mul_comm, Z.mod_add by lia. symmetry. apply Z.mod_small.
  assert (In (nth j l 0) a) as Hin.
  { unfold a. rewrite <- (firstn_skipn (j + 1) l) at 1. rewrite app_nth1 by (rewrite firstn_length; lia). apply nth_In. rewrite firstn_length. lia. }
  rewrite Forall_forall in Hw1. apply Hw1, Hin.
Qed.

Lemma tables_length : length (BF_PBOXES ++ BF_SBOXES) = 1042%nat.
Proof. rewrite app_length, sboxes_length. reflexivity. Qed.

(** The two tables, one after the other, are the first 33344 bits of pi behind the point. *)
Theorem C51_tables_are_pi : forall j, (j < 1042)%nat -> nth j (BF_PBOXES ++ BF_SBOXES) 0 = pi_word j.
Proof.
  intros j Hj. apply digits_words.
  - apply Forall_app. split; [apply pboxes_words | apply sboxes_words].
  - rewrite tables_length. assert (B5 : Z.of_nat 3600 <= 2 ^ 20) by (apply Z.leb_le; vm_compute; reflexivity).
    assert (B239 : Z.of_nat 1058 <= 2 ^ 20) by (apply Z.leb_le; vm_compute; reflexivity).
    pose proof (limb_check_ok _ _ _ _ B5 B239 tables_check) as C.
    apply check_pi_ok in C; [exact C | lia | lia].
  - rewrite tables_length. exact Hj.
Qed.

(** SetKey with a key of 7-bit characters: there are ciphertexts as the published schedule makes
    them from the constants and the key, and the encoder holds the resulting subkeys. *)
Theorem C51_schedule_over_tables : forall fresh e key, key <> [] -> Forall (fun b => 0 <= b < 128) key ->
  let init := initial (fun j => nth j (BF_PBOXES ++ BF_SBOXES) 0) (e_v2 e) key in
  exists c e', ciphertexts (e_v2 e) init c /\ set_key fresh e key = Some e' /\
    e_P e' = map (subkey init c 521) (seq 0 18) /\
    e_S e' = map (fun i => subkey init c 521 (18 + i)) (seq 0 1024).
Proof. exact schedule_with_tables. Qed.

Lemma subkey_ext init init' c k j : init j = init' j -> subkey init c k j = subkey init' c k j.
Proof. unfold subkey. destruct (j <? 2 * k)%nat; auto. Qed.

(** The same with the published constants. *)
Theorem C51_published_schedule : forall fresh e key, key <> [] -> Forall (fun b => 0 <= b < 128) key ->
  let init := initial pi_word (e_v2 e) key in
  exists c e', ciphertexts (e_v2 e) init c /\ set_key fresh e key = Some e' /\
    e_P e' = map (subkey init c 521) (seq 0 18) /\
    e_S e' = map (fun i => subkey init c 521 (18 + i)) (seq 0 1024).
Proof.
  intros fresh e key Hk Hb init.
  destruct (schedule_with_tables fresh e key Hk Hb) as (c & e' & [C0 C1] & HS & HP & HB).
  set (ti := initial (fun j => nth j (BF_PBOXES ++ BF_SBOXES) 0) (e_v2 e) key) in *.
  assert (EI : forall j, (j < 1042)%nat -> ti j = init j).
  { intros j Hj. unfold ti, init, initial. rewrite C51_tables_are_pi by exact Hj. reflexivity. }
  assert (EB : forall k, map (fun i => subkey ti c k (18 + i)) (seq 0 1024) = map (fun i => subkey init c k (18 + i)) (seq 0 1024)).
  { intros k. apply map_ext_in. intros i Hi. apply in_seq in Hi. apply subkey_ext, EI. lia. }
  exists c, e'. split; [split; [exact C0|]|split; [exact HS|split]].
  - intros k Hk'. rewrite (C1 k Hk'). unfold blowfish_with. rewrite EB. cbv zeta.
    apply block_ext. intros j Hj. apply subkey_ext, EI. lia.
  - rewrite HP. apply map_ext_in. intros i Hi. apply in_seq in Hi. apply subkey_ext, EI. lia.
  - rewrite HB. apply EB.
Qed.

(** the hypotheses are met, and the first constant is the familiar 0x243F6A88 *)
Example C51_published_example : pi_word 0 = 0x243F6A88 /\ pi_word 1041 = 0x3AC372E6 /\
  exists c e', ciphertexts false (initial pi_word false [75; 101; 121]) c /\
    set_key 0 (Build_encoder false [] [] 0 ECB) [75; 101; 121] = Some e' /\ nth 0 (e_P e') 0 = fst (c 1%nat).
Proof.
  split; [rewrite <- C51_tables_are_pi by lia; reflexivity|].
  split; [rewrite <- C51_tables_are_pi by lia; reflexivity|].
  destruct (C51_published_schedule 0 (Build_encoder false [] [] 0 ECB) [75; 101; 121]) as (c & e' & A & B & C & _).
  - discriminate.
  - repeat constructor; lia.
  - exists c, e'. split; [exact A|]. split; [exact B|]. rewrite C. reflexivity.
Qed.

Print Assumptions C51_tables_are_pi.
Print Assumptions C51_schedule_over_tables.
Print Assumptions C51_published_schedule.
