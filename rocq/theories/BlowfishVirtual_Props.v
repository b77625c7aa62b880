(** SetKey through the interface (C51). *)
From Verif Require Import Base Blowfish_Tables Blowfish_Model Blowfish_Spec BlowfishKey_Spec.

Lemma nth_flat_map4 : forall (f0 f1 f2 f3 : nat -> Z) n i a, (i < n)%nat ->
  let l := flat_map (fun i => [f0 i; f1 i; f2 i; f3 i]) (seq a n) in
  nth (4 * i) l 0 = f0 (a + i)%nat /\ nth (4 * i + 1) l 0 = f1 (a + i)%nat /\
  nth (4 * i + 2) l 0 = f2 (a + i)%nat /\ nth (4 * i + 3) l 0 = f3 (a + i)%nat.
Proof.
  induction n as [|n IH]; intros i a Hi; [lia|]. cbn [seq flat_map]. destruct i as [|i].
  - rewrite Nat.add_0_r. cbn. auto.
  - specialize (IH i (S a) ltac:(lia)). cbn zeta in IH. replace (a + S i)%nat with (S a + i)%nat by lia.
    replace (4 * S i)%nat with (4 + 4 * i)%nat by lia. replace (4 + 4 * i + 1)%nat with (4 + (4 * i + 1))%nat by lia.
    replace (4 + 4 * i + 2)%nat with (4 + (4 * i + 2))%nat by lia. replace (4 + 4 * i + 3)%nat with (4 + (4 * i + 3))%nat by lia.
    cbn [Nat.add app nth] in *. exact IH.
Qed.

Lemma len_flat_map4 : forall (f0 f1 f2 f3 : nat -> Z) l, length (flat_map (fun i => [f0 i; f1 i; f2 i; f3 i]) l) = (4 * length l)%nat.
Proof. intros. induction l as [|x l IH]; [reflexivity|]. cbn [flat_map app length] in *. rewrite IH. lia. Qed.

Lemma mod4n : forall i j n, (0 < n)%nat -> (j < 4)%nat -> ((4 * i + j) mod (4 * n) = 4 * (i mod n) + j)%nat.
Proof.
  intros i j n Hn Hj. symmetry. apply (Nat.mod_unique _ _ (i / n)).
  - pose proof (Nat.mod_upper_bound i n). lia.
  - pose proof (Nat.div_mod i n). nia.
Qed.

Lemma modmod : forall i j n, (0 < n)%nat -> ((4 * (i mod n) + j) mod n = (4 * i + j) mod n)%nat.
Proof.
  intros i j n Hn. rewrite (Nat.div_mod i n) at 2 by lia.
  replace (4 * (n * (i / n) + i mod n) + j)%nat with (4 * (i mod n) + j + (4 * (i / n)) * n)%nat by lia.
  rewrite Nat.mod_add by lia. reflexivity.
Qed.

Lemma key_entry_backwards : forall key i, key <> [] -> key_entry true (words_backwards key) i = key_entry false key i.
Proof.
  intros key i Hk. assert (Hn : (0 < length key)%nat) by (destruct key; [congruence | cbn; lia]).
  unfold key_entry, key_term, words_backwards. rewrite !len_flat_map4, seq_length.
  replace (i * 4)%nat with (4 * i + 0)%nat by lia.
  replace (4 * i + 0 + 1)%nat with (4 * i + 1)%nat by lia. replace (4 * i + 0 + 2)%nat with (4 * i + 2)%nat by lia.
  replace (4 * i + 0 + 3)%nat with (4 * i + 3)%nat by lia.
  rewrite !mod4n by lia.
  set (k := fun j => nth (j mod length key) key 0).
  destruct (nth_flat_map4 (fun i => k (4 * i + 3)%nat) (fun i => k (4 * i + 2)%nat) (fun i => k (4 * i + 1)%nat) (fun i => k (4 * i)%nat)
    (length key) (i mod length key) 0 (Nat.mod_upper_bound i (length key) ltac:(lia))) as (A & B & C & D).
  cbn zeta in A, B, C, D. rewrite Nat.add_0_l in A, B, C, D. rewrite Nat.add_0_r. fold (k 0%nat).
  rewrite Nat.add_0_r. subst k. cbn beta in *. rewrite A, B, C, D.
  pose proof (modmod i 0 (length key) Hn) as M0. rewrite !Nat.add_0_r in M0.
  rewrite M0, (modmod i 1), (modmod i 2), (modmod i 3) by exact Hn. reflexivity.
Qed.

(** Keyed through the interface, a BlowfishEncoder is keyed as directly; a BlowfishEncoder2 as if SetKey had been
    given the key written four times with every four bytes backwards. *)
Theorem C51_through_interface : forall fresh e key,
  set_key_virtual fresh e key = set_key fresh e (if e_v2 e then words_backwards key else key).
Proof.
  intros fresh e key. destruct key as [|b r].
  - destruct (e_v2 e); reflexivity.
  - destruct (e_v2 e) eqn:V; unfold set_key_virtual, set_key; [|rewrite V; reflexivity].
    destruct (words_backwards (b :: r)) as [|b' r'] eqn:W; [discriminate W|].
    rewrite V. rewrite <- W.
    replace (map (fun i => Z.lxor (nth i BF_PBOXES 0) (key_entry true (words_backwards (b :: r)) i)) (seq 0 18))
      with (map (fun i => Z.lxor (nth i BF_PBOXES 0) (key_entry false (b :: r) i)) (seq 0 18)); [reflexivity|].
    apply map_ext. intro i. rewrite key_entry_backwards by discriminate. reflexivity.
Qed.
Print Assumptions C51_through_interface.

(** So a BlowfishEncoder2 given one key through the interface and directly is keyed the same if every four bytes of the
    key read the same backwards. *)
Theorem C51_interface_palindromes : forall fresh e key, e_v2 e = true ->
  (forall i, nth ((4 * i) mod length key) key 0 = nth ((4 * i + 3) mod length key) key 0 /\
             nth ((4 * i + 1) mod length key) key 0 = nth ((4 * i + 2) mod length key) key 0) ->
  set_key_virtual fresh e key = set_key fresh e key.
Proof.
  intros fresh e key V Hp. destruct key as [|b r]; [reflexivity|]. unfold set_key_virtual, set_key. rewrite V.
  replace (map (fun i => Z.lxor (nth i BF_PBOXES 0) (key_entry false (b :: r) i)) (seq 0 18))
    with (map (fun i => Z.lxor (nth i BF_PBOXES 0) (key_entry true (b :: r) i)) (seq 0 18)); [reflexivity|].
  apply map_ext. intro i. f_equal. unfold key_entry, key_term. destruct (Hp i) as [A B].
  replace (i * 4)%nat with (4 * i)%nat by lia. rewrite <- A, <- B. reflexivity.
Qed.
Print Assumptions C51_interface_palindromes.

(** Not so: that both ways of keying a BlowfishEncoder2 always give the same subkeys. *)
Theorem C51_interface_refuted : exists key, let e := Build_encoder true [] [] 0 ECB in
  match set_key_virtual 0 e key, set_key 0 e key with
  | Some a, Some b => e_P a <> e_P b
  | _, _ => False
  end.
Proof.
  exists [75; 101; 121; 33]. cbv beta zeta.
  assert (F : forall o o' : option encoder, o <> None -> o' <> None ->
    match o with Some a => nth 0 (e_P a) 0 | None => 0 end <> match o' with Some a => nth 0 (e_P a) 0 | None => 0 end ->
    match o, o' with Some a, Some b => e_P a <> e_P b | _, _ => False end).
  { intros [a|] [b|] H1 H2 H3; try congruence. }
  apply F.
  - unfold set_key_virtual. destruct (fill_p _ _ _ _ _ _). destruct (fill_s _ _ _ _ _ _). discriminate.
  - unfold set_key. destruct (fill_p _ _ _ _ _ _). destruct (fill_s _ _ _ _ _ _). discriminate.
  - lazy; discriminate.
Qed.
Print Assumptions C51_interface_refuted.
