(** C51: SetKey is the published key schedule over the code's tables. *)
From Verif Require Import Base Blowfish_Tables Blowfish_Model Blowfish_Spec Blowfish_Proof Blowfish_Props BlowfishKey_Spec.

Lemma halves b : is_word 64 b -> is_word 32 (low32 b) /\ is_word 32 (high32 b) /\ b = low32 b + 2 ^ 32 * high32 b.
Proof.
  unfold is_word, low32, high32. intros [A B].
  pose proof (Z.div_mod b (2 ^ 32) ltac:(lia)). pose proof (Z.mod_pos_bound b (2 ^ 32) ltac:(lia)).
  assert (b / 2 ^ 32 < 2 ^ 32) by (apply Z.div_lt_upper_bound; [lia|]; change (2 ^ 32 * 2 ^ 32) with (2 ^ 64); lia).
  pose proof (Z.div_pos b (2 ^ 32) ltac:(lia) ltac:(lia)). lia.
Qed.

Lemma nth_set_nth l i x j : nth j (set_nth l i x) 0 = if (j =? i)%nat && (i <? length l)%nat then x else nth j l 0.
Proof.
  revert i j. induction l as [|y l IH]; intros i j.
  - destruct i; cbn; rewrite andb_false_r; reflexivity.
  - destruct i as [|i], j as [|j]; try reflexivity. cbn [set_nth nth length]. rewrite IH. reflexivity.
Qed.

Lemma lxor_word a b : is_word 32 a -> is_word 32 b -> is_word 32 (Z.lxor a b).
Proof. intros. apply lxor_bounds; [lia | assumption | assumption]. Qed.
Lemma feistel_word F P n : forall i l r, (forall x, is_word 32 (F x)) -> (forall i, is_word 32 (P i)) -> is_word 32 l -> is_word 32 r ->
  is_word 32 (fst (feistel F P n i l r)) /\ is_word 32 (snd (feistel F P n i l r)).
Proof.
  induction n as [|n IH]; intros i l r HF HP Hl Hr; cbn [feistel]; [auto|].
  apply IH; auto using lxor_word.
Qed.
Lemma feistel_ext F F' P P' n : forall i l r, (forall x, F x = F' x) -> (forall j, (j < i + n)%nat -> P j = P' j) ->
  feistel F P n i l r = feistel F' P' n i l r.
Proof.
  induction n as [|n IH]; intros i l r HF HP; cbn [feistel]; [reflexivity|].
  rewrite HF, (HP i) by lia. apply IH; auto. intros j Hj. apply HP. lia.
Qed.


Lemma block_word F P l r : (forall x, is_word 32 (F x)) -> (forall i, is_word 32 (P i)) -> is_word 32 l -> is_word 32 r ->
  is_word 32 (fst (blowfish_block F P l r)) /\ is_word 32 (snd (blowfish_block F P l r)).
Proof.
  intros HF HP Hl Hr. destruct (feistel_word F P 16 0 l r HF HP Hl Hr) as [A B]. unfold blowfish_block.
  destruct (feistel F P 16 0 l r) as [a b]. cbn [fst snd] in *. auto using lxor_word.
Qed.
Lemma block_ext F P P' l r : (forall j, (j < 18)%nat -> P j = P' j) -> blowfish_block F P l r = blowfish_block F P' l r.
Proof.
  intros H. unfold blowfish_block. rewrite (feistel_ext F F P P' 16 0 l r); [|reflexivity | intros; apply H; lia].
  rewrite !H by lia. reflexivity.
Qed.

Section Trajectory.
Variables (En : list Z -> list Z -> Z -> Z) (P0 S0 : list Z).
Hypothesis EnW : forall P S b, Forall (is_word 32) P -> is_word 64 b -> is_word 64 (En P S b).
Hypothesis LP : length P0 = 18%nat.
Hypothesis LS : length S0 = 1024%nat.
Hypothesis WP : Forall (is_word 32) P0.
Hypothesis WS : Forall (is_word 32) S0.

Fixpoint st (k : nat) : list Z * list Z * Z :=
  match k with
  | O => (P0, S0, 0)
  | S k => let '(P, Sb, last) := st k in
           let last' := En P Sb last in
           if (k <? 9)%nat then (set_nth (set_nth P (2 * k) (low32 last')) (2 * k + 1) (high32 last'), Sb, last')
           else (P, set_nth (set_nth Sb (2 * (k - 9)) (low32 last')) (2 * (k - 9) + 1) (high32 last'), last')
  end.
Definition Pk k := fst (fst (st k)).
Definition Sk k := snd (fst (st k)).
Definition Lk k := snd (st k).
Definition ck k := (low32 (Lk k), high32 (Lk k)).

Lemma st_S k : st (S k) = (let last' := En (Pk k) (Sk k) (Lk k) in
           if (k <? 9)%nat then (set_nth (set_nth (Pk k) (2 * k) (low32 last')) (2 * k + 1) (high32 last'), Sk k, last')
           else (Pk k, set_nth (set_nth (Sk k) (2 * (k - 9)) (low32 last')) (2 * (k - 9) + 1) (high32 last'), last')).
Proof. unfold Pk, Sk, Lk. cbn [st]. destruct (st k) as [[P Sb] last]. reflexivity. Qed.

Lemma Lk_S k : Lk (S k) = En (Pk k) (Sk k) (Lk k).
Proof. unfold Lk at 1. rewrite st_S. cbv zeta. destruct (k <? 9)%nat; reflexivity. Qed.
Lemma Pk_S k : Pk (S k) = if (k <? 9)%nat then set_nth (set_nth (Pk k) (2 * k) (low32 (Lk (S k)))) (2 * k + 1) (high32 (Lk (S k))) else Pk k.
Proof. rewrite Lk_S. unfold Pk at 1. rewrite st_S. cbv zeta. destruct (k <? 9)%nat; reflexivity. Qed.
Lemma Sk_S k : Sk (S k) = if (k <? 9)%nat then Sk k else set_nth (set_nth (Sk k) (2 * (k - 9)) (low32 (Lk (S k)))) (2 * (k - 9) + 1) (high32 (Lk (S k))).
Proof. rewrite Lk_S. unfold Sk at 1. rewrite st_S. cbv zeta. destruct (k <? 9)%nat; reflexivity. Qed.


Lemma st_ok k : length (Pk k) = 18%nat /\ length (Sk k) = 1024%nat /\ Forall (is_word 32) (Pk k) /\
  Forall (is_word 32) (Sk k) /\ is_word 64 (Lk k).
Proof.
  induction k as [|k IH].
  - unfold Pk, Sk, Lk. cbn. repeat split; auto; lia.
  - destruct IH as (A & B & C & D & E').
    assert (W : is_word 64 (Lk (S k))) by (rewrite Lk_S; apply EnW; assumption).
    destruct (halves _ W) as (h1 & h2 & _).
    rewrite Pk_S, Sk_S. destruct (k <? 9)%nat; rewrite ?set_nth_length; repeat split; auto;
      try apply W; repeat apply set_nth_Forall; assumption.
Qed.

Lemma fill_p_st n : forall k, (k + n <= 9)%nat ->
  fill_p En n (2 * k) (Pk k) (Sk k) (Lk k) = (Pk (k + n), Lk (k + n)) /\ Sk (k + n) = Sk k.
Proof.
  induction n as [|n IH]; intros k H; cbn [fill_p].
  - rewrite Nat.add_0_r. auto.
  - destruct (IH (S k) ltac:(lia)) as [I1 I2]. replace (k + S n)%nat with (S k + n)%nat by lia.
    assert (T : (k <? 9)%nat = true) by (apply Nat.ltb_lt; lia).
    rewrite I2. rewrite <- I1. rewrite Pk_S, !Sk_S, T. rewrite Lk_S. cbv zeta.
    replace (2 * S k)%nat with (2 * k + 2)%nat by lia. auto.
Qed.
Lemma fill_s_st n : forall k, (9 <= k)%nat ->
  fst (fill_s En n (2 * (k - 9)) (Pk k) (Sk k) (Lk k)) = Sk (k + n) /\ Pk (k + n) = Pk k.
Proof.
  induction n as [|n IH]; intros k H; cbn [fill_s].
  - rewrite Nat.add_0_r. auto.
  - destruct (IH (S k) ltac:(lia)) as [I1 I2]. replace (k + S n)%nat with (S k + n)%nat by lia.
    assert (T : (k <? 9)%nat = false) by (apply Nat.ltb_ge; lia).
    rewrite I2. rewrite <- I1. rewrite Sk_S, !Pk_S, T. rewrite Lk_S. cbv zeta.
    replace (2 * (S k - 9))%nat with (2 * (k - 9) + 2)%nat by lia. auto.
Qed.


Definition init j := nth j (P0 ++ S0) 0.

Lemma subkey_S c k j : subkey init c (S k) j =
  if (j =? 2 * k)%nat then fst (c (S k)) else if (j =? 2 * k + 1)%nat then snd (c (S k)) else subkey init c k j.
Proof.
  unfold subkey.
  destruct (Nat.eqb_spec j (2 * k)) as [->|N1].
  - replace (2 * k <? 2 * S k)%nat with true by (symmetry; apply Nat.ltb_lt; lia).
    replace (Nat.even (2 * k)) with true by (symmetry; apply Nat.even_spec; exists k; lia).
    replace (2 * k / 2)%nat with k by (rewrite Nat.mul_comm, Nat.div_mul; lia). reflexivity.
  - destruct (Nat.eqb_spec j (2 * k + 1)) as [->|N2].
    + replace (2 * k + 1 <? 2 * S k)%nat with true by (symmetry; apply Nat.ltb_lt; lia).
      replace (Nat.even (2 * k + 1)) with false
        by (symmetry; rewrite <- Nat.negb_odd; apply negb_false_iff, Nat.odd_spec; exists k; lia).
      replace ((2 * k + 1) / 2)%nat with k; [reflexivity|].
      rewrite Nat.mul_comm, Nat.div_add_l by lia. cbn. lia.
    + replace (j <? 2 * S k)%nat with (j <? 2 * k)%nat; [reflexivity|].
      destruct (Nat.ltb_spec j (2 * k)), (Nat.ltb_spec j (2 * S k)); lia.
Qed.

Lemma tables k : (k <= 521)%nat -> forall j, nth j (Pk k ++ Sk k) 0 = subkey init ck k j.
Proof.
  induction k as [|k IH]; intros H j.
  - reflexivity.
  - rewrite subkey_S, <- IH by lia. destruct (st_ok k) as (A & B & _).
    change (fst (ck (S k))) with (low32 (Lk (S k))). change (snd (ck (S k))) with (high32 (Lk (S k))).
    rewrite Pk_S, Sk_S. destruct (Nat.ltb_spec k 9).
    + destruct (Nat.ltb_spec j 18).
      * rewrite !(app_nth1 _ (Sk k)) by (rewrite ?set_nth_length; lia).
        rewrite !nth_set_nth, set_nth_length, A.
        destruct (Nat.eqb_spec j (2 * k)), (Nat.eqb_spec j (2 * k + 1)), (Nat.ltb_spec (2 * k) 18), (Nat.ltb_spec (2 * k + 1) 18); cbn [andb]; try lia; reflexivity.
      * rewrite !app_nth2 by (rewrite ?set_nth_length; lia). rewrite !set_nth_length.
        destruct (Nat.eqb_spec j (2 * k)), (Nat.eqb_spec j (2 * k + 1)); try lia; reflexivity.
    + destruct (Nat.ltb_spec j 18).
      * rewrite !app_nth1 by lia.
        destruct (Nat.eqb_spec j (2 * k)), (Nat.eqb_spec j (2 * k + 1)); try lia; reflexivity.
      * rewrite !app_nth2 by lia. rewrite !nth_set_nth, set_nth_length, A, B.
        destruct (Nat.eqb_spec (j - 18) (2 * (k - 9))), (Nat.eqb_spec (j - 18) (2 * (k - 9) + 1)), (Nat.eqb_spec j (2 * k)), (Nat.eqb_spec j (2 * k + 1)),
          (Nat.ltb_spec (2 * (k - 9)) 1024), (Nat.ltb_spec (2 * (k - 9) + 1) 1024); cbn [andb]; try lia; reflexivity.
Qed.

End Trajectory.

Section Cipher.
Variables (v2 : bool) (P0 S0 : list Z).
Hypothesis LP : length P0 = 18%nat.
Hypothesis LS : length S0 = 1024%nat.
Hypothesis WP : Forall (is_word 32) P0.
Hypothesis WS : Forall (is_word 32) S0.
Variable En : list Z -> list Z -> Z -> Z.
Hypothesis EnW : forall P S b, Forall (is_word 32) P -> is_word 64 b -> is_word 64 (En P S b).
Hypothesis EnB : forall (P S : list Z) (xL xR : Z), is_word 32 xL -> is_word 32 xR ->
  let byte (x k : Z) := x / 2 ^ (8 * k) mod 256 in
  let F (x : Z) := if v2 then blowfish_F S (byte x 0) (byte x 1) (byte x 2) (byte x 3)
             else blowfish_F S (byte x 3) (byte x 2) (byte x 1) (byte x 0) in
  let '(yL, yR) := blowfish_block F (fun i => nth i P 0) xL xR in
  En P S (xL + 2 ^ 32 * xR) = yL + 2 ^ 32 * yR.

Lemma trajectory_ciphertexts : ciphertexts v2 (init P0 S0) (ck En P0 S0).
Proof.
  split; [reflexivity|]. intros k Hk. destruct (st_ok En P0 S0 EnW LP LS WP WS k) as (A & B & C & D & W).
  destruct (halves _ W) as (h1 & h2 & h3).
  pose proof (EnB (Pk En P0 S0 k) (Sk En P0 S0 k) _ _ h1 h2) as R. cbv zeta in R. rewrite <- h3 in R. rewrite <- Lk_S in R.
  unfold blowfish_with. change (fst (ck En P0 S0 k)) with (low32 (Lk En P0 S0 k)). change (snd (ck En P0 S0 k)) with (high32 (Lk En P0 S0 k)).
  assert (Q : map (fun i => subkey (init P0 S0) (ck En P0 S0) k (18 + i)) (seq 0 1024) = Sk En P0 S0 k).
  { apply nth_ext with (d := 0) (d' := 0); [rewrite map_length, seq_length; lia|].
    intros n Hn. rewrite map_length, seq_length in Hn.
    set (g := fun i => subkey (init P0 S0) (ck En P0 S0) k (18 + i)).
    rewrite (nth_indep _ 0 (g 0%nat)) by (rewrite map_length, seq_length; lia).
    rewrite (map_nth g), seq_nth by lia. unfold g. rewrite <- (tables En P0 S0 EnW LP LS WP WS) by lia.
    rewrite app_nth2 by lia. f_equal. lia. }
  rewrite Q. cbv zeta.
  match type of R with context [blowfish_block ?F (fun i => nth i (Pk En P0 S0 k) 0) ?l ?r] =>
    rewrite <- (block_ext F (fun i => nth i (Pk En P0 S0 k) 0) (subkey (init P0 S0) (ck En P0 S0) k) l r);
    [pose proof (block_word F (fun i => nth i (Pk En P0 S0 k) 0) l r) as FW; destruct (blowfish_block F (fun i => nth i (Pk En P0 S0 k) 0) l r) as [x y]
    | intros j Hj; rewrite <- (tables En P0 S0 EnW LP LS WP WS) by lia; rewrite app_nth1 by lia; reflexivity] end.
  assert (PW : forall i, is_word 32 (nth i (Pk En P0 S0 k) 0)).
  { intros i. destruct (Nat.ltb_spec i (length (Pk En P0 S0 k))).
    - rewrite Forall_forall in C. apply C, nth_In. assumption.
    - rewrite nth_overflow by lia. unfold is_word. lia. }
  destruct FW as [Fx Fy]; auto.
  { intros z. destruct v2; unfold blowfish_F; apply Z.mod_pos_bound; lia. }
  cbn [fst snd] in Fx, Fy.
  unfold ck. rewrite R.
  rewrite low32_mk, high32_mk; auto using lxor_word.
Qed.
End Cipher.

(** SetKey with a key of 7-bit characters: there are ciphertexts as the published schedule makes
    them from the tables and the key, and the encoder holds the resulting subkeys. *)
Lemma schedule_with_tables : forall fresh e key, key <> [] -> Forall (fun b => 0 <= b < 128) key ->
  let init := initial (fun j => nth j (BF_PBOXES ++ BF_SBOXES) 0) (e_v2 e) key in
  exists c e', ciphertexts (e_v2 e) init c /\ set_key fresh e key = Some e' /\
    e_P e' = map (subkey init c 521) (seq 0 18) /\
    e_S e' = map (fun i => subkey init c 521 (18 + i)) (seq 0 1024).
Proof.
  intros fresh e key Hk Hb ini.
  set (P0 := map (fun i => Z.lxor (nth i BF_PBOXES 0) (key_entry (e_v2 e) key i)) (seq 0 18)).
  assert (LP : length P0 = 18%nat) by (unfold P0; rewrite map_length, seq_length; reflexivity).
  assert (WP : Forall (is_word 32) P0).
  { apply Forall_forall. intros x Hx. apply in_map_iff in Hx. destruct Hx as (i & <- & Hi). apply in_seq in Hi.
    apply lxor_bounds; [lia| |apply key_entry_word].
    pose proof pboxes_words as PW. rewrite Forall_forall in PW. apply PW, nth_In. change (length BF_PBOXES) with 18%nat. lia. }
  pose proof (trajectory_ciphertexts (e_v2 e) P0 BF_SBOXES LP sboxes_length WP sboxes_words (encode_block (e_v2 e)) (encode_block_word (e_v2 e)) (C16_block_is_blowfish (e_v2 e))) as T.
  set (En := encode_block (e_v2 e)) in *.
  pose proof (encode_block_word (e_v2 e)) as EnW. change (encode_block (e_v2 e)) with En in EnW.
  assert (EI : forall j, init P0 BF_SBOXES j = ini j).
  { intros j. unfold init, ini, initial. destruct (Nat.ltb_spec j 18) as [Hj|Hj].
    - rewrite app_nth1 by lia. unfold P0.
      set (g := fun i => Z.lxor (nth i BF_PBOXES 0) (key_entry (e_v2 e) key i)).
      rewrite (nth_indep _ 0 (g 0%nat)) by (rewrite map_length, seq_length; lia).
      rewrite (map_nth g), seq_nth by lia. unfold g. cbn [Nat.add].
      rewrite (app_nth1 BF_PBOXES) by (change (length BF_PBOXES) with 18%nat; lia). f_equal.
      destruct (C51_ascii_key_words key j Hk Hb) as [K1 K2]. cbv zeta in K1, K2. unfold key_word. rewrite !Nat.add_0_r.
      destruct (e_v2 e); [apply K2 | apply K1].
    - rewrite !app_nth2 by (change (length BF_PBOXES) with 18%nat; lia). rewrite LP. reflexivity. }
  assert (ES : forall c k j, subkey (init P0 BF_SBOXES) c k j = subkey ini c k j).
  { intros c k j. unfold subkey. destruct (j <? 2 * k)%nat; auto. }
  assert (Tab : forall j, nth j (Pk En P0 BF_SBOXES 521 ++ Sk En P0 BF_SBOXES 521) 0 = subkey ini (ck En P0 BF_SBOXES) 521 j).
  { intros j. rewrite <- ES. apply (tables En P0 BF_SBOXES EnW LP sboxes_length WP sboxes_words). lia. }
  destruct (st_ok En P0 BF_SBOXES EnW LP sboxes_length WP sboxes_words 521) as (A & B & _).
  exists (ck En P0 BF_SBOXES).
  destruct (fill_p_st En P0 BF_SBOXES EnW LP sboxes_length sboxes_words 9 0 ltac:(lia)) as [F1 F2].
  destruct (fill_s_st En P0 BF_SBOXES EnW LP sboxes_length sboxes_words 512 9 ltac:(lia)) as [F3 F4].
  change (0 + 9)%nat with 9%nat in F1, F2. change (9 + 512)%nat with 521%nat in F3, F4. change (2 * (9 - 9))%nat with 0%nat in F3.
  change (2 * 0)%nat with 0%nat in F1. change (Pk _ P0 BF_SBOXES 0) with P0 in F1. change (Sk _ P0 BF_SBOXES 0) with BF_SBOXES in F1, F2.
  change (Lk _ P0 BF_SBOXES 0) with 0 in F1. rewrite F2, <- F4 in F3.
  assert (NP : forall (l : list Z) g n, length l = n -> (forall i, (i < n)%nat -> nth i l 0 = g i) -> l = map g (seq 0 n)).
  { intros l g n Hl Hg. apply nth_ext with (d := 0) (d' := g 0%nat); [rewrite map_length, seq_length; lia|].
    intros i Hi. rewrite (map_nth g), seq_nth by lia. apply Hg. lia. }
  eexists. split; [|split; [|split]].
  - destruct T as [T0 T1]. split; [exact T0|]. intros k Hk'. rewrite (T1 k Hk').
    unfold blowfish_with.
    assert (QM : map (fun i => subkey (init P0 BF_SBOXES) (ck En P0 BF_SBOXES) k (18 + i)) (seq 0 1024) =
                 map (fun i => subkey ini (ck En P0 BF_SBOXES) k (18 + i)) (seq 0 1024)) by (apply map_ext; intros; apply ES).
    rewrite QM. cbv zeta. apply block_ext. intros; apply ES.
  - unfold set_key. destruct key as [|b0 key]; [congruence|]. fold P0 En. rewrite F1.
    rewrite F4 in F3. destruct (fill_s En 512 0 _ BF_SBOXES _) as [Sb l'] eqn:FS. cbn [fst] in F3. rewrite F3. reflexivity.
  - cbn [e_P]. rewrite <- F4. apply NP; [exact A|]. intros i Hi. rewrite <- Tab, app_nth1 by lia. reflexivity.
  - cbn [e_S]. apply NP; [exact B|]. intros i Hi. rewrite <- Tab, app_nth2 by lia. f_equal. lia.
Qed.
