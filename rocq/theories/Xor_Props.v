(** C15: the repeating-key XOR cipher. *)
From Verif Require Import Base Xor_Model.

Lemma xor_loop_spec key buf i :
  key <> [] ->
  exists r, xor_loop key buf i = Some r /\ length r = length buf /\
    forall j, (j < length buf)%nat ->
      nth j r 0 = Z.lxor (nth j buf 0) (nth ((i + j) mod length key) key 0).
Proof.
  intros Hk. revert i. induction buf as [|b buf IH]; intros i; cbn [xor_loop].
  - exists []. repeat split. cbn; intros; lia.
  - destruct (length key) as [|n] eqn:En.
    { destruct key; [congruence | discriminate]. }
    destruct (IH (S i)) as (r & E & L & N). rewrite E.
    eexists; split; [reflexivity|]. split; [cbn; lia|].
    intros [|j] Hj.
    + cbn [nth]. rewrite Nat.add_0_r. reflexivity.
    + cbn [nth]. cbn [length] in Hj. rewrite N by lia.
      replace (i + S j)%nat with (S i + j)%nat by lia. reflexivity.
Qed.

(** Every byte of the result is the byte at the same index xored with the key byte at
    that index modulo the key length; the length is unchanged. *)
Theorem C15_xor_bytes : forall key buf,
  key <> [] ->
  exists enc, xor_encode key buf = Some enc /\ length enc = length buf /\
    forall j, (j < length buf)%nat ->
      nth j enc 0 = Z.lxor (nth j buf 0) (nth (j mod length key) key 0).
Proof. intros key buf Hk. exact (xor_loop_spec key buf 0 Hk). Qed.

(** Decoding restores what was encoded. *)
Theorem C15_xor_round_trip : forall key buf enc,
  xor_encode key buf = Some enc -> xor_decode key enc = Some buf.
Proof.
  intros key buf enc H. destruct key as [|k0 key].
  - destruct buf as [|b buf]; cbn in H; [|discriminate]. inversion H; reflexivity.
  - assert (Hk : k0 :: key <> []) by discriminate.
    destruct (xor_loop_spec (k0 :: key) buf 0 Hk) as (e & E & L & N).
    unfold xor_encode in H. rewrite E in H. inversion H; subst e.
    destruct (xor_loop_spec (k0 :: key) enc 0 Hk) as (d & E' & L' & N').
    unfold xor_decode, xor_encode. rewrite E'. f_equal.
    apply nth_ext with (d := 0) (d' := 0); [lia|].
    intros j Hj. rewrite N' by lia. rewrite N by lia.
    rewrite Z.lxor_assoc, Z.lxor_nilpotent, Z.lxor_0_r. reflexivity.
Qed.

(** The only failing calls are those with an empty key and something to encode. *)
Theorem C15_xor_fails_iff : forall key buf,
  xor_encode key buf = None <-> key = [] /\ buf <> [].
Proof.
  intros key buf. split.
  - intros H. destruct key as [|k key].
    + split; [reflexivity|]. intros ->. discriminate.
    + destruct (C15_xor_bytes (k :: key) buf ltac:(discriminate)) as (e & E & _). congruence.
  - intros [-> Hb]. destruct buf; [congruence | reflexivity].
Qed.

(** Encoding keeps bytes bytes. *)
Theorem C15_xor_bytes_ok : forall key buf enc,
  bytes_ok key -> bytes_ok buf -> xor_encode key buf = Some enc -> bytes_ok enc.
Proof.
  intros key buf enc Hk Hb H. destruct key as [|k0 key].
  - destruct buf; cbn in H; [|discriminate]. inversion H. constructor.
  - destruct (C15_xor_bytes (k0 :: key) buf ltac:(discriminate)) as (e & E & L & N).
    rewrite E in H. inversion H; subst e.
    apply Forall_forall. intros x Hx. apply (In_nth _ _ 0) in Hx. destruct Hx as (j & Hj & <-).
    rewrite N by lia. unfold is_byte. change 256 with (2 ^ 8). apply lxor_bounds; [lia| |].
    + unfold bytes_ok in Hb. rewrite Forall_forall in Hb. apply Hb, nth_In. lia.
    + unfold bytes_ok in Hk. rewrite Forall_forall in Hk. apply Hk, nth_In.
      apply Nat.mod_upper_bound. discriminate.
Qed.

Example C15_example :
  xor_encode [1; 255] [16; 32; 48] = Some [17; 223; 49] /\ xor_encode [] [16] = None.
Proof. split; reflexivity. Qed.

Print Assumptions C15_xor_bytes.
Print Assumptions C15_xor_round_trip.
Print Assumptions C15_xor_fails_iff.
Print Assumptions C15_xor_bytes_ok.
