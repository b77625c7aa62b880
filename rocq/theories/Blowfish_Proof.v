From Verif Require Import Base Blowfish_Tables Blowfish_Model Blowfish_Spec.

Lemma xor_cancel a b : Z.lxor (Z.lxor a b) b = a.
Proof. rewrite Z.lxor_assoc, Z.lxor_nilpotent, Z.lxor_0_r. reflexivity. Qed.

Lemma bf_f_word v2 S x : is_word 32 (bf_f v2 S x).
Proof. apply wrap_range; lia. Qed.

Lemma p_word P i : Forall (is_word 32) P -> is_word 32 (nth i P 0).
Proof.
  intros H. destruct (Nat.lt_ge_cases i (length P)).
  - rewrite Forall_forall in H. apply H, nth_In; assumption.
  - rewrite nth_overflow by lia. unfold is_word. lia.
Qed.

Lemma bf_xor_word v2 P S a b i :
  Forall (is_word 32) P -> is_word 32 a -> is_word 32 (bf_xor v2 P S a b i).
Proof.
  intros HP Ha. unfold bf_xor. apply lxor_bounds; [lia|assumption|].
  apply lxor_bounds; [lia|apply bf_f_word|apply p_word; assumption].
Qed.

Lemma bf_rounds_word v2 P S pids t o :
  Forall (is_word 32) P -> is_word 32 t -> is_word 32 o ->
  is_word 32 (fst (bf_rounds v2 P S pids t o)) /\ is_word 32 (snd (bf_rounds v2 P S pids t o)).
Proof.
  intros HP. revert t o. induction pids as [|i pids IH]; intros t o Ht Ho; cbn [bf_rounds].
  - split; assumption.
  - apply IH; [assumption|]. apply bf_xor_word; assumption.
Qed.

Lemma bf_rounds_app v2 P S p q t o :
  bf_rounds v2 P S (p ++ q) t o =
  (let '(t', o') := bf_rounds v2 P S p t o in bf_rounds v2 P S q t' o').
Proof.
  revert t o. induction p as [|i p IH]; intros t o; cbn [app bf_rounds]; [reflexivity|apply IH].
Qed.

Lemma bf_rounds_rev v2 P S pids t o :
  bf_rounds v2 P S (rev pids) (snd (bf_rounds v2 P S pids t o)) (fst (bf_rounds v2 P S pids t o))
  = (o, t).
Proof.
  revert t o. induction pids as [|i pids IH]; intros t o; cbn [bf_rounds rev]; [reflexivity|].
  rewrite bf_rounds_app, IH. cbn [bf_rounds]. unfold bf_xor. rewrite xor_cancel. reflexivity.
Qed.

Lemma low32_word b : is_word 32 (low32 b).
Proof. unfold low32, is_word. lia. Qed.
Lemma high32_word b : is_word 64 b -> is_word 32 (high32 b).
Proof. unfold high32, is_word. change (2 ^ 64) with (2 ^ 32 * 2 ^ 32). intros; lia. Qed.
Lemma low32_mk a b : is_word 32 a -> low32 (a + 2 ^ 32 * b) = a.
Proof. unfold low32, is_word. intros; lia. Qed.
Lemma high32_mk a b : is_word 32 a -> high32 (a + 2 ^ 32 * b) = b.
Proof. unfold high32, is_word. intros; lia. Qed.
Lemma mk_low_high b : low32 b + 2 ^ 32 * high32 b = b.
Proof. unfold low32, high32. lia. Qed.
Lemma mk_word a b : is_word 32 a -> is_word 32 b -> is_word 64 (a + 2 ^ 32 * b).
Proof. unfold is_word. change (2 ^ 64) with (2 ^ 32 * 2 ^ 32). intros; lia. Qed.

(** Encode and decode are one network with the pid list reversed and the outer words
    exchanged. *)
Definition bf_net v2 P S first pids last block : Z :=
  let r := bf_rounds v2 P S pids (high32 block) (Z.lxor (low32 block) first) in
  Z.lxor (fst r) last + 2 ^ 32 * snd r.

Lemma encode_block_net v2 P S b :
  encode_block v2 P S b =
  bf_net v2 P S (nth 0 P 0) [1;2;3;4;5;6;7;8;9;10;11;12;13;14;15;16]%nat (nth 17 P 0) b.
Proof. unfold encode_block, bf_net. destruct (bf_rounds _ _ _ _ _ _). reflexivity. Qed.
Lemma decode_block_net v2 P S b :
  decode_block v2 P S b =
  bf_net v2 P S (nth 17 P 0) (rev [1;2;3;4;5;6;7;8;9;10;11;12;13;14;15;16]%nat) (nth 0 P 0) b.
Proof.
  unfold decode_block, bf_net. cbn [rev app]. destruct (bf_rounds _ _ _ _ _ _). reflexivity.
Qed.

Lemma bf_net_word v2 P S first pids last b :
  Forall (is_word 32) P -> is_word 32 first -> is_word 32 last -> is_word 64 b ->
  is_word 64 (bf_net v2 P S first pids last b).
Proof.
  intros HP Hf Hl Hb. unfold bf_net.
  destruct (bf_rounds_word v2 P S pids (high32 b) (Z.lxor (low32 b) first) HP
              (high32_word b Hb) (lxor_bounds 32 _ _ ltac:(lia) (low32_word b) Hf)) as [H1 H2].
  apply mk_word; [apply lxor_bounds; [lia| exact H1 | exact Hl] | exact H2].
Qed.

Lemma bf_net_inv v2 P S first pids last b :
  Forall (is_word 32) P -> is_word 32 first -> is_word 32 last -> is_word 64 b ->
  bf_net v2 P S last (rev pids) first (bf_net v2 P S first pids last b) = b.
Proof.
  intros HP Hf Hl Hb. unfold bf_net at 2.
  destruct (bf_rounds_word v2 P S pids (high32 b) (Z.lxor (low32 b) first) HP
              (high32_word b Hb) (lxor_bounds 32 _ _ ltac:(lia) (low32_word b) Hf)) as [H1 H2].
  pose proof (bf_rounds_rev v2 P S pids (high32 b) (Z.lxor (low32 b) first)) as R.
  set (r := bf_rounds v2 P S pids (high32 b) (Z.lxor (low32 b) first)) in *.
  assert (W : is_word 32 (Z.lxor (fst r) last)) by (apply lxor_bounds; [lia|assumption|assumption]).
  unfold bf_net. rewrite low32_mk, high32_mk by exact W.
  rewrite xor_cancel, R. cbn [fst snd]. rewrite xor_cancel. apply mk_low_high.
Qed.

Lemma encode_block_word v2 P S b :
  Forall (is_word 32) P -> is_word 64 b -> is_word 64 (encode_block v2 P S b).
Proof.
  intros HP Hb. rewrite encode_block_net. apply bf_net_word; try apply p_word; assumption.
Qed.
Lemma decode_block_word v2 P S b :
  Forall (is_word 32) P -> is_word 64 b -> is_word 64 (decode_block v2 P S b).
Proof.
  intros HP Hb. rewrite decode_block_net. apply bf_net_word; try apply p_word; assumption.
Qed.
Lemma decode_encode v2 P S b :
  Forall (is_word 32) P -> is_word 64 b -> decode_block v2 P S (encode_block v2 P S b) = b.
Proof.
  intros HP Hb. rewrite encode_block_net, decode_block_net.
  apply bf_net_inv; try apply p_word; assumption.
Qed.
Lemma encode_decode v2 P S b :
  Forall (is_word 32) P -> is_word 64 b -> encode_block v2 P S (decode_block v2 P S b) = b.
Proof.
  intros HP Hb. rewrite encode_block_net, decode_block_net.
  rewrite <- (rev_involutive [1;2;3;4;5;6;7;8;9;10;11;12;13;14;15;16]%nat) at 1.
  apply bf_net_inv; try apply p_word; assumption.
Qed.

(** Textbook form. *)
Lemma bf_rounds_feistel v2 P S n i t xL :
  bf_rounds v2 P S (seq (i + 1) n) t (Z.lxor xL (nth i P 0)) =
  (let '(l, r) := feistel (bf_f v2 S) (fun k => nth k P 0) n i xL t in
   (r, Z.lxor l (nth (i + n) P 0))).
Proof.
  revert i t xL. induction n as [|n IH]; intros i t xL; cbn [seq bf_rounds feistel].
  - rewrite Nat.add_0_r. reflexivity.
  - unfold bf_xor. rewrite <- Z.lxor_assoc.
    specialize (IH (Datatypes.S i) (Z.lxor xL (nth i P 0))
                  (Z.lxor (bf_f v2 S (Z.lxor xL (nth i P 0))) t)).
    replace (Datatypes.S (i + 1)) with (Datatypes.S i + 1)%nat by lia.
    rewrite (Z.lxor_comm t).
    replace (nth (i + 1) P 0) with (nth (Datatypes.S i) P 0) by (f_equal; lia).
    rewrite IH. replace (Datatypes.S i + n)%nat with (i + Datatypes.S n)%nat by lia. reflexivity.
Qed.

(** Block-list view of the loops. *)
Fixpoint bf_blocks (step : Z -> Z -> Z * Z) (cur : Z) (bs : list Z) : list Z :=
  match bs with
  | [] => []
  | b :: r => fst (step cur b) :: bf_blocks step (snd (step cur b)) r
  end.

Definition step_ok (step : Z -> Z -> Z * Z) : Prop :=
  forall cur b, is_word 64 cur -> is_word 64 b ->
    is_word 64 (fst (step cur b)) /\ is_word 64 (snd (step cur b)).

Definition step_inv (enc dec : Z -> Z -> Z * Z) : Prop :=
  forall cur b, is_word 64 cur -> is_word 64 b ->
    dec cur (fst (enc cur b)) = (b, snd (enc cur b)).

Lemma bytes_ok_firstn n l : bytes_ok l -> bytes_ok (firstn n l).
Proof.
  intros H. unfold bytes_ok in *. rewrite <- (firstn_skipn n l) in H. apply Forall_app in H. apply H.
Qed.
Lemma bytes_ok_skipn n l : bytes_ok l -> bytes_ok (skipn n l).
Proof.
  intros H. unfold bytes_ok in *. rewrite <- (firstn_skipn n l) in H. apply Forall_app in H. apply H.
Qed.
Lemma block_word buf : bytes_ok buf -> is_word 64 (le_value (firstn 8 buf)).
Proof.
  intros H. pose proof (le_value_bound _ (bytes_ok_firstn 8 buf H)) as B.
  unfold is_word. split; [lia|]. eapply Z.lt_le_trans; [apply B|].
  change (2 ^ 64) with (256 ^ 8). apply Z.pow_le_mono_r; [lia|].
  pose proof (firstn_le_length 8 buf). lia.
Qed.

Lemma bf_loop_length step n cur buf :
  (8 * n <= length buf)%nat -> length (bf_loop step n cur buf) = length buf.
Proof.
  revert cur buf. induction n as [|n IH]; intros cur buf H; cbn [bf_loop]; [reflexivity|].
  destruct (step _ _). rewrite app_length, le_bytes_length, IH.
  - rewrite skipn_length. lia.
  - rewrite skipn_length. lia.
Qed.

Lemma bf_loop_bytes step n cur buf : bytes_ok buf -> bytes_ok (bf_loop step n cur buf).
Proof.
  revert cur buf. induction n as [|n IH]; intros cur buf H; cbn [bf_loop]; [assumption|].
  destruct (step _ _). apply bytes_ok_app. split; [apply le_bytes_ok|].
  apply IH, bytes_ok_skipn, H.
Qed.

Lemma skipn8_le x l : skipn 8 (le_bytes 8 x ++ l) = l.
Proof. reflexivity. Qed.
Lemma firstn8_le x l : firstn 8 (le_bytes 8 x ++ l) = le_bytes 8 x.
Proof. reflexivity. Qed.
Lemma le_value_bytes8 x : is_word 64 x -> le_value (le_bytes 8 x) = x.
Proof. intros H. rewrite le_value_bytes. apply Z.mod_small. exact H. Qed.

Lemma bf_loop_tail step n cur buf :
  (8 * n <= length buf)%nat -> skipn (8 * n) (bf_loop step n cur buf) = skipn (8 * n) buf.
Proof.
  revert cur buf. induction n as [|n IH]; intros cur buf H; cbn [bf_loop]; [reflexivity|].
  destruct (step _ _) as [b' c'].
  replace (8 * S n)%nat with (8 * n + 8)%nat by lia.
  rewrite <- !skipn_skipn, skipn8_le. apply IH. rewrite skipn_length. lia.
Qed.

Lemma bf_loop_inv enc dec n cur buf :
  step_ok enc -> step_inv enc dec -> is_word 64 cur -> bytes_ok buf ->
  (8 * n <= length buf)%nat ->
  bf_loop dec n cur (bf_loop enc n cur buf) = buf.
Proof.
  intros Hok Hinv. revert cur buf. induction n as [|n IH]; intros cur buf Hc Hb Hl; [reflexivity|].
  cbn [bf_loop]. set (b := le_value (firstn 8 buf)).
  assert (Wb : is_word 64 b) by (apply block_word; assumption).
  destruct (Hok cur b Hc Wb) as [W1 W2]. pose proof (Hinv cur b Hc Wb) as I.
  destruct (enc cur b) as [b' c'] eqn:Ee. cbn [fst snd] in *.
  rewrite firstn8_le, skipn8_le, le_value_bytes8, I by assumption.
  rewrite IH; [|assumption|apply bytes_ok_skipn; assumption|rewrite skipn_length; lia].
  assert (L8 : length (firstn 8 buf) = 8%nat) by (rewrite firstn_length; lia).
  pose proof (le_bytes_value _ (bytes_ok_firstn 8 buf Hb)) as V. rewrite L8 in V.
  unfold b. rewrite V. apply firstn_skipn.
Qed.

Lemma blocks_loop step n cur buf :
  step_ok step -> is_word 64 cur -> bytes_ok buf ->
  blocks n (bf_loop step n cur buf) = bf_blocks step cur (blocks n buf).
Proof.
  intros Hok. revert cur buf. induction n as [|n IH]; intros cur buf Hc Hb; [reflexivity|].
  cbn [bf_loop blocks bf_blocks]. set (b := le_value (firstn 8 buf)).
  assert (Wb : is_word 64 b) by (apply block_word; assumption).
  destruct (Hok cur b Hc Wb) as [W1 W2].
  destruct (step cur b) as [b' c'] eqn:Ee. cbn [fst snd] in *.
  rewrite firstn8_le, skipn8_le, le_value_bytes8 by assumption. f_equal.
  apply IH; [assumption|apply bytes_ok_skipn; assumption].
Qed.

Lemma blocks_length n buf : length (blocks n buf) = n.
Proof. revert buf. induction n as [|n IH]; intros; cbn [blocks length]; [|rewrite IH]; reflexivity. Qed.

(** The number of blocks processed. *)
Lemma bf_buffer_some step vec buf r :
  bf_buffer step vec buf = Some r ->
  exists n, (8 * n <= length buf)%nat /\ n = Z.to_nat (sgn 32 (Z.of_nat (length buf) / 8)) /\
    Z.of_nat n <= 2 ^ 28 /\ r = bf_loop step n vec buf.
Proof.
  unfold bf_buffer. intros H.
  destruct (Z.ltb_spec (2 ^ 28) (sgn 32 (Z.of_nat (length buf) / 8))); [discriminate|].
  inversion H; subst r. clear H.
  exists (Z.to_nat (sgn 32 (Z.of_nat (length buf) / 8))).
  repeat split; try lia.
  assert (sgn 32 (Z.of_nat (length buf) / 8) <= Z.of_nat (length buf) / 8).
  { unfold sgn, wrap. destruct (Z.ltb_spec ((Z.of_nat (length buf) / 8) mod 2 ^ 32) (2 ^ (32 - 1))); lia. }
  lia.
Qed.

Lemma bf_buffer_again step step' vec buf r :
  bf_buffer step vec buf = Some r ->
  bf_buffer step' vec r =
  Some (bf_loop step' (Z.to_nat (sgn 32 (Z.of_nat (length buf) / 8))) vec r).
Proof.
  intros H. pose proof H as H'. apply bf_buffer_some in H'. destruct H' as (n & Hn & En & Hb & ->).
  unfold bf_buffer in *. rewrite bf_loop_length by assumption.
  destruct (Z.ltb_spec (2 ^ 28) (sgn 32 (Z.of_nat (length buf) / 8))); [discriminate|]. reflexivity.
Qed.

Section Modes.
  Variables E D : Z -> Z.
  Hypothesis HE : forall b, is_word 64 b -> is_word 64 (E b).
  Hypothesis HD : forall b, is_word 64 b -> is_word 64 (D b).
  Hypothesis HDE : forall b, is_word 64 b -> D (E b) = b.
  Hypothesis HED : forall b, is_word 64 b -> E (D b) = b.

  Lemma xor64 a b : is_word 64 a -> is_word 64 b -> is_word 64 (Z.lxor a b).
  Proof. intros; apply lxor_bounds; [lia|assumption|assumption]. Qed.
  Hint Resolve HE HD xor64 : w.

  Lemma enc_step_ok m : step_ok (enc_step m E D).
  Proof. intros cur b Hc Hb. unfold enc_step, dec_step; destruct m; unfold ecb_enc, ecb_dec, cbc_enc, cbc_dec, pcbc_enc, pcbc_dec, cfb_enc, cfb_dec, ofb_enc, ofb_dec; cbv zeta; cbn [fst snd]; auto 6 with w. Qed.
  Lemma dec_step_ok m : step_ok (dec_step m E D).
  Proof. intros cur b Hc Hb. unfold enc_step, dec_step; destruct m; unfold ecb_enc, ecb_dec, cbc_enc, cbc_dec, pcbc_enc, pcbc_dec, cfb_enc, cfb_dec, ofb_enc, ofb_dec; cbv zeta; cbn [fst snd]; auto 6 with w. Qed.
  Lemma enc_dec_inv m : step_inv (enc_step m E D) (dec_step m E D).
  Proof.
    intros cur b Hc Hb. unfold enc_step, dec_step; destruct m; unfold ecb_enc, ecb_dec, cbc_enc, cbc_dec, pcbc_enc, pcbc_dec, cfb_enc, cfb_dec, ofb_enc, ofb_dec; cbv zeta; cbn [fst snd]; rewrite ?HDE by auto with w; rewrite ?xor_cancel; try reflexivity.
    f_equal. apply Z.lxor_comm.
  Qed.
  Lemma dec_enc_inv m : step_inv (dec_step m E D) (enc_step m E D).
  Proof.
    intros cur b Hc Hb. unfold enc_step, dec_step; destruct m; unfold ecb_enc, ecb_dec, cbc_enc, cbc_dec, pcbc_enc, pcbc_dec, cfb_enc, cfb_dec, ofb_enc, ofb_dec; cbv zeta; cbn [fst snd]; rewrite ?xor_cancel, ?HED by auto with w; try reflexivity.
    f_equal. apply Z.lxor_comm.
  Qed.

  Lemma bf_blocks_length step cur bs : length (bf_blocks step cur bs) = length bs.
  Proof. revert cur. induction bs as [|b bs IH]; intros; cbn; [|rewrite IH]; reflexivity. Qed.

  Lemma ecb_eq iv bs i : (i < length bs)%nat -> ecb_eqn E iv bs (bf_blocks (ecb_enc E) iv bs) i.
  Proof.
    unfold ecb_eqn. revert iv i. induction bs as [|b bs IH]; intros iv i Hi; cbn [length] in Hi; [lia|].
    destruct i as [|i]; cbn; [reflexivity|]. apply IH. lia.
  Qed.
  Lemma cbc_eq iv bs i : (i < length bs)%nat -> cbc_eqn E iv bs (bf_blocks (cbc_enc E) iv bs) i.
  Proof.
    unfold cbc_eqn, prev. revert iv i. induction bs as [|b bs IH]; intros iv i Hi; cbn [length] in Hi; [lia|].
    destruct i as [|i]; [reflexivity|]. cbn [bf_blocks cbc_enc fst snd nth]. apply IH. lia.
  Qed.
  Lemma cfb_eq iv bs i : (i < length bs)%nat -> cfb_eqn E iv bs (bf_blocks (cfb_enc E) iv bs) i.
  Proof.
    unfold cfb_eqn, prev. revert iv i. induction bs as [|b bs IH]; intros iv i Hi; cbn [length] in Hi; [lia|].
    destruct i as [|i]; [reflexivity|]. cbn [bf_blocks cfb_enc fst snd nth]. apply IH. lia.
  Qed.
  Lemma iter_comm n x : Nat.iter n E (E x) = E (Nat.iter n E x).
  Proof. induction n as [|n IH]; [reflexivity|]. change (E (Nat.iter n E (E x)) = E (E (Nat.iter n E x))). rewrite IH. reflexivity. Qed.
  Lemma ofb_eq iv bs i : (i < length bs)%nat -> ofb_eqn E iv bs (bf_blocks (ofb_enc E) iv bs) i.
  Proof.
    unfold ofb_eqn. revert iv i. induction bs as [|b bs IH]; intros iv i Hi; cbn [length] in Hi; [lia|].
    destruct i as [|i]; [reflexivity|]. cbn [bf_blocks ofb_enc fst snd nth]. rewrite IH by lia.
    rewrite iter_comm. reflexivity.
  Qed.
  Lemma pcbc_eq_gen p c bs i :
    (i < length bs)%nat ->
    let out := bf_blocks (pcbc_enc E) (Z.lxor p c) bs in
    nth i out 0 = E (Z.lxor (nth i bs 0) (Z.lxor (prev p bs i) (prev c out i))).
  Proof.
    unfold prev. cbv zeta. revert p c i.
    induction bs as [|b bs IH]; intros p c i Hi; cbn [length] in Hi; [lia|].
    destruct i as [|i]; [reflexivity|]. cbn [bf_blocks pcbc_enc fst snd nth].
    set (b' := E (Z.lxor b (Z.lxor p c))).
    rewrite (Z.lxor_comm b' b). specialize (IH b b' i ltac:(lia)). exact IH.
  Qed.
  Lemma pcbc_eq iv bs i : (i < length bs)%nat -> pcbc_eqn E iv bs (bf_blocks (pcbc_enc E) iv bs) i.
  Proof.
    intros Hi. unfold pcbc_eqn. apply (pcbc_eq_gen 0 iv bs i Hi).
  Qed.
End Modes.

(** Key schedule: boxes stay 18 / 1024 words. *)
Lemma set_nth_length l i x : length (set_nth l i x) = length l.
Proof. revert i. induction l as [|y l IH]; intros [|i]; cbn; auto. Qed.
Lemma set_nth_Forall p l i x : Forall p l -> p x -> Forall p (set_nth l i x).
Proof.
  revert i. induction l as [|y l IH]; intros [|i] H Hx; cbn; auto; inversion H; subst; constructor; auto.
Qed.

Lemma fill_p_ok En n i P S last :
  (forall P S b, Forall (is_word 32) P -> is_word 64 b -> is_word 64 (En P S b)) ->
  Forall (is_word 32) P -> is_word 64 last ->
  length (fst (fill_p En n i P S last)) = length P /\
  Forall (is_word 32) (fst (fill_p En n i P S last)) /\ is_word 64 (snd (fill_p En n i P S last)).
Proof.
  intros HE. revert i P last. induction n as [|n IH]; intros i P last HP Hl; cbn [fill_p]; [auto|].
  pose proof (HE P S last HP Hl) as W. cbv zeta. set (nx := En P S last) in *. clearbody nx.
  destruct (IH (i + 2)%nat (set_nth (set_nth P i (low32 nx)) (i + 1) (high32 nx)) nx) as (A & B & C).
  - apply set_nth_Forall; [apply set_nth_Forall; [assumption|apply low32_word]|apply high32_word; assumption].
  - assumption.
  - rewrite A, !set_nth_length. auto.
Qed.
Lemma fill_s_ok En n i P S last :
  (forall P S b, Forall (is_word 32) P -> is_word 64 b -> is_word 64 (En P S b)) ->
  Forall (is_word 32) P -> Forall (is_word 32) S -> is_word 64 last ->
  length (fst (fill_s En n i P S last)) = length S /\
  Forall (is_word 32) (fst (fill_s En n i P S last)).
Proof.
  intros HE HP. revert i S last. induction n as [|n IH]; intros i S last HS Hl; cbn [fill_s]; [auto|].
  pose proof (HE P S last HP Hl) as W. cbv zeta. set (nx := En P S last) in *. clearbody nx.
  destruct (IH (i + 2)%nat (set_nth (set_nth S i (low32 nx)) (i + 1) (high32 nx)) nx) as (A & B).
  - apply set_nth_Forall; [apply set_nth_Forall; [assumption|apply low32_word]|apply high32_word; assumption].
  - assumption.
  - rewrite A, !set_nth_length. auto.
Qed.

Definition word32b (x : Z) : bool := (0 <=? x) && (x <? 2 ^ 32).
Lemma words32 l : forallb word32b l = true -> Forall (is_word 32) l.
Proof.
  intros H. apply Forall_forall. intros x Hx. rewrite forallb_forall in H. specialize (H x Hx).
  unfold word32b, is_word in *. lia.
Qed.
Lemma pboxes_words : Forall (is_word 32) BF_PBOXES.
Proof. apply words32. vm_compute. reflexivity. Qed.
Lemma sboxes_words : Forall (is_word 32) BF_SBOXES.
Proof. apply words32. vm_compute. reflexivity. Qed.
Lemma sboxes_length : length BF_SBOXES = 1024%nat.
Proof. vm_compute. reflexivity. Qed.

Lemma key_term_word key i sh : is_word 32 (key_term key i sh).
Proof. apply wrap_range; lia. Qed.
Lemma key_entry_word v2 key i : is_word 32 (key_entry v2 key i).
Proof.
  unfold key_entry.
  destruct v2; (apply lor_bounds; [lia|apply key_term_word|]);
    (apply lor_bounds; [lia|apply key_term_word|]);
    (apply lor_bounds; [lia|apply key_term_word|apply key_term_word]).
Qed.

Lemma set_key_ok fresh e key e' :
  set_key fresh e key = Some e' ->
  length (e_P e') = 18%nat /\ length (e_S e') = 1024%nat /\
  Forall (is_word 32) (e_P e') /\ Forall (is_word 32) (e_S e') /\
  e_v2 e' = e_v2 e /\ e_mode e' = e_mode e /\
  e_vec e' = match e_mode e with ECB => e_vec e | _ => fresh end.
Proof.
  unfold set_key. destruct key as [|k key]; [discriminate|]. set (K := k :: key). clearbody K.
  set (P0 := map _ _).
  assert (HP0 : Forall (is_word 32) P0).
  { apply Forall_forall. intros x Hx. apply in_map_iff in Hx. destruct Hx as (i & <- & _).
    apply lxor_bounds; [lia|apply p_word, pboxes_words|apply key_entry_word]. }
  assert (L0 : length P0 = 18%nat) by (unfold P0; rewrite map_length, seq_length; reflexivity).
  clearbody P0.
  destruct (fill_p_ok (encode_block (e_v2 e)) 9 0 P0 BF_SBOXES 0 (encode_block_word _) HP0) as (A & B & C); [unfold is_word; lia|].
  destruct (fill_p (encode_block (e_v2 e)) 9 0 P0 BF_SBOXES 0) as [P last]. cbn [fst snd] in *.
  destruct (fill_s_ok (encode_block (e_v2 e)) 512 0 P BF_SBOXES last (encode_block_word _) B sboxes_words C) as (A' & B').
  destruct (fill_s (encode_block (e_v2 e)) 512 0 P BF_SBOXES last) as [Sb l2]. cbn [fst snd] in *.
  intros H. inversion H; subst e'. cbn [e_P e_S e_v2 e_mode e_vec].
  rewrite sboxes_length in A'. rewrite L0 in A. auto 10.
Qed.
