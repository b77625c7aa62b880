(** C54: fixing up the pointers of a loaded file. *)
From Verif Require Import Base Pointer_Model.

(** The pointer a stored offset stands for: zero is the null pointer, others count from the root. *)
Definition target (root off : Z) : Z := if off =? 0 then 0 else root + off.

(** The offset [off] in the slot at [a] can be resolved: the address it denotes exists, and for a
    32-bit slot it lies within 2 GB of the slot and is not the slot itself. *)
Definition reachable (k : kind) (a root off : Z) : Prop :=
  off = 0 \/
  match k with
  | X64 => 0 <= root + off < 2 ^ 64
  | X86 => 0 <= root + off < 2 ^ 64 /\ - 2 ^ 31 <= root + off - a < 2 ^ 31 /\ root + off <> a
  end.

(** The words a slot can hold. *)
Definition cell_ok (k : kind) (v : Z) : Prop := match k with X64 => is_word 64 v | X86 => is_sword 32 v end.

Lemma wrap64_mod32 x : u32 (u64 x) = x mod 2 ^ 32.
Proof. unfold u32, u64, wrap. change (2 ^ 64) with (2 ^ 32 * 2 ^ 32). rewrite Z.rem_mul_r by lia.
  replace (x mod 2 ^ 32 + 2 ^ 32 * ((x / 2 ^ 32) mod 2 ^ 32)) with (x mod 2 ^ 32 + ((x / 2 ^ 32) mod 2 ^ 32) * 2 ^ 32) by ring.
  rewrite Z_mod_plus_full. apply Z.mod_mod. lia. Qed.

Lemma sgn32_small x : - 2 ^ 31 <= x < 2 ^ 31 -> sgn 32 (x mod 2 ^ 32) = x.
Proof. intros H. unfold sgn, wrap. rewrite Z.mod_mod by lia. change (32 - 1) with 31.
  destruct (Z.ltb_spec (x mod 2 ^ 32) (2 ^ 31)); change (2 ^ 32) with 4294967296 in *; change (2 ^ 31) with 2147483648 in *; lia. Qed.

(** reading back an assigned 32-bit slot *)
Lemma get_assign_x86 a d s : is_word 64 a -> is_word 64 d -> - 2 ^ 31 <= d - a < 2 ^ 31 -> d <> a ->
  get X86 a (assign X86 a d s) = d.
Proof.
  intros Ha Hd Hr Hn. unfold get, assign, set_cell. cbn [cells]. rewrite Z.eqb_refl, wrap64_mod32, sgn32_small by exact Hr.
  destruct (Z.eqb_spec (d - a) 0); [lia|]. unfold is_word in *. unfold u64. rewrite wrap_small; lia.
Qed.

(** what a slot reads as after its one Fixup *)
Lemma fixed_value k a root s : is_word 64 a -> is_word 64 root -> cell_ok k (cells s a) -> reachable k a root (cells s a) ->
  forall t, Fixed t a s = false -> get k a (fst (Fixup k t a root false s)) = target root (cells s a).
Proof.
  intros Ha Hr Hc Hre t Hf. unfold Fixup. rewrite Hf. cbn [negb andb]. cbn [set_used cells]. unfold target.
  destruct (Z.eqb_spec (cells s a) 0) as [E|E].
  - cbn [fst]. unfold get; cbn [set_used cells]. rewrite E. destruct k; reflexivity.
  - destruct Hre as [Hre|Hre]; [congruence|]. destruct k; cbn [fst].
    + unfold get, set_cell; cbn [cells]. rewrite Z.eqb_refl. unfold u64. apply wrap_small; lia.
    + destruct Hre as (H1 & H2 & H3). unfold u64 at 1. rewrite wrap_small by lia. apply get_assign_x86; auto.
Qed.

Lemma fixup_other k t a root nc s b : b <> a -> cells (fst (Fixup k t a root nc s)) b = cells s b.
Proof. intros H. unfold Fixup. destruct (negb nc && Fixed t a s); [reflexivity|]. cbn [set_used cells].
  destruct (cells s a =? 0); [reflexivity|]. destruct k; cbn [fst]; unfold assign, set_cell, set_used; cbn [cells]; (destruct (Z.eqb_spec b a); [contradiction|reflexivity]). Qed.
Lemma get_ext k a s s' : cells s a = cells s' a -> get k a s = get k a s'.
Proof. intros H. unfold get. destruct k; rewrite ?H; reflexivity. Qed.
Lemma fixup_used k t a root s u b : existsb (fun i => i =? b) (used (fst (Fixup k t a root false s)) u) =
  existsb (fun i => i =? b) (used s u) || (Nat.eqb u t && (a =? b)).
Proof.
  unfold Fixup, Fixed. cbn [negb andb]. destruct (existsb (fun i => i =? a) (used s t)) eqn:E.
  - cbn [fst]. destruct (Nat.eqb_spec u t) as [->|]; cbn [andb]; [|now rewrite orb_false_r].
    destruct (Z.eqb_spec a b) as [->|]; [now rewrite E|now rewrite orb_false_r].
  - assert (G : forall s', used s' u = (if Nat.eqb u t then used s t ++ [a] else used s u) ->
      existsb (fun i => i =? b) (used s' u) = existsb (fun i => i =? b) (used s u) || (Nat.eqb u t && (a =? b))).
    { intros s' ->. destruct (Nat.eqb_spec u t) as [->|]; cbn [andb]; [|now rewrite orb_false_r].
      rewrite existsb_app. cbn [existsb]. now rewrite orb_false_r. }
    destruct (cells _ a =? 0); [apply G; reflexivity|]. destruct k; apply G; reflexivity.
Qed.
Lemma fixup_again k t a root s : Fixed t a s = true -> Fixup k t a root false s = (s, false).
Proof. intros H. unfold Fixup. now rewrite H. Qed.
Lemma fixup_ret k t a root s : Fixed t a s = false -> snd (Fixup k t a root false s) = negb (cells s a =? 0).
Proof. intros H. unfold Fixup. rewrite H. cbn [negb andb set_used cells]. destruct (cells s a =? 0); [reflexivity|]. destruct k; reflexivity. Qed.

(** A history of checked Fixup calls: (thread, slot) pairs with one root. *)
Definition fixes (root : Z) (calls : list (nat * Z)) : list event := map (fun c => EvFix (fst c) (snd c) root false) calls.

Lemma fixes_run kd owner root : is_word 64 root -> forall calls s,
  (forall t a, In (t, a) calls -> t = owner a) ->
  let s' := fst (run kd (fixes root calls) s) in
  (forall a, ~ In a (map snd calls) -> cells s' a = cells s a) /\
  (forall a, In a (map snd calls) -> Fixed (owner a) a s = true -> cells s' a = cells s a) /\
  (forall a, In a (map snd calls) -> Fixed (owner a) a s = false -> is_word 64 a -> cell_ok (kd a) (cells s a) -> reachable (kd a) a root (cells s a) ->
     get (kd a) a s' = target root (cells s a)).
Proof.
  intros Hroot calls. induction calls as [|[t x] calls IH]; intros s Ho; cbn [fixes map fst snd run step].
  - cbn [fst]. split; [reflexivity|]. split; intros a Ha; destruct Ha.
  - assert (Et : t = owner x) by (apply Ho; now left).
    destruct (Fixup (kd x) t x root false s) as [s1 b] eqn:E1.
    specialize (IH s1 (fun t' a Hin => Ho t' a (or_intror Hin))). unfold fixes in IH. cbn [map fst] in IH.
    destruct (run kd (map (fun c => EvFix (fst c) (snd c) root false) calls) s1) as [s2 r2] eqn:E2. cbn [fst] in IH |- *.
    destruct IH as (I1 & I2 & I3).
    assert (S1 : s1 = fst (Fixup (kd x) t x root false s)) by (rewrite E1; reflexivity).
    assert (Keep : forall a, a <> x -> cells s1 a = cells s a) by (intros a Ha; rewrite S1; apply fixup_other; exact Ha).
    assert (Fx : forall a, Fixed (owner a) a s1 = Fixed (owner a) a s || (Nat.eqb (owner a) t && (x =? a)))
      by (intros a; rewrite S1; apply fixup_used).
    split; [|split].
    + intros a Ha. rewrite I1 by (intros Hin; apply Ha; now right). apply Keep. intros ->. apply Ha. now left.
    + intros a Ha Hf. destruct (Z.eq_dec a x) as [->|N].
      * assert (s1 = s). { rewrite S1. rewrite fixup_again; [reflexivity|]. now rewrite Et. } subst s1.
        destruct (in_dec Z.eq_dec x (map snd calls)); [rewrite I2 by (auto; congruence)|rewrite I1 by auto]; rewrite H; reflexivity.
      * assert (In a (map snd calls)) by (destruct Ha; [congruence|assumption]). rewrite I2; [apply Keep; exact N|assumption|rewrite Fx, Hf; reflexivity].
    + intros a Ha Hf Wa Hc Hre. destruct (Z.eq_dec a x) as [->|N].
      * assert (Fs1 : Fixed (owner x) x s1 = true) by (rewrite Fx, <- Et, Nat.eqb_refl, Z.eqb_refl; apply orb_true_r).
        assert (C2 : cells s2 x = cells s1 x) by (destruct (in_dec Z.eq_dec x (map snd calls)); [apply I2; assumption|apply I1; assumption]).
        rewrite (get_ext _ _ _ _ C2), S1. apply fixed_value; auto. now rewrite Et.
      * assert (In a (map snd calls)) by (destruct Ha; [congruence|assumption]).
        rewrite <- (Keep a N). apply I3; auto.
        -- rewrite Fx, Hf. cbn [orb]. destruct (Z.eqb_spec x a); [congruence|]. apply andb_false_r.
        -- now rewrite Keep.
        -- now rewrite Keep.
Qed.

(** Any sequence of checked Fixup calls with one root, in any order and with any repetitions, from any
    number of threads as long as every slot belongs to one thread: every slot visited ends up at
    root + offset, moved exactly once; null slots stay null; slots not visited keep their content. *)
Theorem C54_fixup_once : forall kd owner root calls s,
  is_word 64 root -> (forall t a, In (t, a) calls -> t = owner a) ->
  (forall a, In a (map snd calls) -> is_word 64 a /\ cell_ok (kd a) (cells s a) /\ reachable (kd a) a root (cells s a) /\ ~ In a (used s (owner a))) ->
  let s' := fst (run kd (fixes root calls) s) in
  (forall a, In a (map snd calls) -> get (kd a) a s' = target root (cells s a)) /\
  (forall a, ~ In a (map snd calls) -> cells s' a = cells s a).
Proof.
  intros kd owner root calls s Hr Ho Ha s'. destruct (fixes_run kd owner root Hr calls s Ho) as (I1 & _ & I3). fold s' in I1, I3.
  split; [|exact I1]. intros a Hin. destruct (Ha a Hin) as (W & C & R & Nu). apply I3; auto.
  unfold Fixed. destruct (existsb (fun i => i =? a) (used s (owner a))) eqn:E; [|reflexivity].
  apply existsb_exists in E as (i & Hi & Ei). apply Z.eqb_eq in Ei. subst i. contradiction.
Qed.
Print Assumptions C54_fixup_once.

(** The results: true exactly at the first call for a slot that is not null. *)
Theorem C54_results : forall kd owner root calls s,
  (forall t a, In (t, a) calls -> t = owner a) -> (forall a, In a (map snd calls) -> ~ In a (used s (owner a))) ->
  let rets := snd (run kd (fixes root calls) s) in
  length rets = length calls /\
  forall i t a, nth_error calls i = Some (t, a) ->
    (nth_error rets i = Some true <-> cells s a <> 0 /\ ~ In a (map snd (firstn i calls))) /\
    (nth_error rets i = Some false <-> cells s a = 0 \/ In a (map snd (firstn i calls))).
Proof.
  intros kd owner root calls s Ho Hu.
  assert (G : forall calls s, (forall t a, In (t, a) calls -> t = owner a) ->
    snd (run kd (fixes root calls) s) =
    map (fun p => negb (Fixed (owner (snd (snd p))) (snd (snd p)) s) && negb (cells s (snd (snd p)) =? 0) && negb (existsb (Z.eqb (snd (snd p))) (map snd (firstn (fst p) calls))))
        (combine (seq 0 (length calls)) calls)).
  { clear. intros calls. assert (Off : forall (l : list (nat * Z)) k (f : nat * (nat * Z) -> bool), map f (combine (seq (S k) (length l)) l) = map (fun p => f (S (fst p), snd p)) (combine (seq k (length l)) l)).
    { induction l as [|c l IH]; intros k f; [reflexivity|]. cbn. f_equal. apply IH. }
    induction calls as [|[t x] calls IH]; intros s Ho; [reflexivity|]. cbn [fixes map fst snd run step].
    assert (Et : t = owner x) by (apply Ho; now left).
    destruct (Fixup (kd x) t x root false s) as [s1 b] eqn:E1.
    specialize (IH s1 (fun t' a Hin => Ho t' a (or_intror Hin))). unfold fixes in IH.
    destruct (run kd (map (fun c => EvFix (fst c) (snd c) root false) calls) s1) as [s2 r2] eqn:E2. cbn [snd] in IH |- *.
    cbn [length seq combine map fst snd firstn existsb]. cbn [app]. f_equal.
    - replace b with (snd (Fixup (kd x) t x root false s)) by (rewrite E1; reflexivity). rewrite <- Et.
      cbn [negb]. rewrite andb_true_r. destruct (Fixed t x s) eqn:F; [rewrite fixup_again by exact F; reflexivity|]. rewrite fixup_ret by exact F. reflexivity.
    - rewrite IH, Off. cbn [fst snd]. apply map_ext_in. intros [i [t' a]] Hin. cbn [fst snd firstn map existsb].
      assert (S1 : s1 = fst (Fixup (kd x) t x root false s)) by (rewrite E1; reflexivity).
      assert (Fx : Fixed (owner a) a s1 = Fixed (owner a) a s || (Nat.eqb (owner a) t && (x =? a))) by (rewrite S1; apply fixup_used).
      rewrite Fx. destruct (Z.eqb_spec a x) as [->|N].
      + rewrite Et, Nat.eqb_refl, Z.eqb_refl, orb_true_r. cbn [andb negb orb]. now rewrite andb_false_r.
      + destruct (Z.eqb_spec x a); [congruence|]. rewrite andb_false_r, orb_false_r. cbn [orb]. rewrite S1, fixup_other by exact N. reflexivity. }
  intros rets. unfold rets. rewrite (G calls s Ho). split.
  - rewrite map_length, combine_length, seq_length. lia.
  - intros i t a Hi.
    assert (Hn : nth_error (combine (seq 0 (length calls)) calls) i = Some (i, (t, a))).
    { assert (L : (i < length calls)%nat) by (apply nth_error_Some; congruence). clear - Hi L.
      assert (forall (l : list (nat * Z)) k i c, nth_error l i = Some c -> nth_error (combine (seq k (length l)) l) i = Some ((k + i)%nat, c)) as Hg.
      { induction l as [|d l IH]; intros k j c H; [destruct j; discriminate|]. destruct j as [|j]; cbn in *; [rewrite Nat.add_0_r; congruence|]. rewrite (IH (S k) j c H). do 2 f_equal. lia. }
      apply (Hg calls 0%nat i (t, a) Hi). }
    rewrite (map_nth_error _ _ _ Hn). cbn [fst snd].
    assert (Hin : In a (map snd calls)) by (apply nth_error_In in Hi; apply (in_map snd) in Hi; exact Hi).
    assert (F : Fixed (owner a) a s = false).
    { unfold Fixed. destruct (existsb (fun i => i =? a) (used s (owner a))) eqn:E; [|reflexivity].
      apply existsb_exists in E as (j & Hj & Ej). apply Z.eqb_eq in Ej. subst j. destruct (Hu a Hin Hj). }
    rewrite F. cbn [negb andb].
    assert (Ex : existsb (Z.eqb a) (map snd (firstn i calls)) = true <-> In a (map snd (firstn i calls))).
    { rewrite existsb_exists. split; [intros (j & Hj & Ej); apply Z.eqb_eq in Ej; subst; exact Hj|intros; exists a; split; [assumption|apply Z.eqb_refl]]. }
    destruct (Z.eqb_spec (cells s a) 0) as [Z0|Z0]; cbn [negb andb]; destruct (existsb (Z.eqb a) (map snd (firstn i calls))) eqn:X; cbn [negb andb];
      (split; split; intros Hq; try discriminate; try reflexivity; try tauto; try (split; [tauto|intros Y; apply Ex in Y; congruence])).
    all: try (destruct Hq as [Hq Hq']; exfalso; apply Hq', Ex; reflexivity).
    all: try (right; apply Ex; reflexivity).
    all: destruct Hq as [Hq|Hq]; [congruence|apply Ex in Hq; discriminate].
Qed.
Print Assumptions C54_results.

(** A 32-bit slot resolves to root + offset exactly when that address lies within 2 GB of the slot and
    is not the slot itself (addresses below 2^63, as in user space): otherwise Fixup still returns true and the slot points elsewhere. *)
Theorem C54_x86_reach : forall t a root s, is_word 63 a -> is_word 64 root -> cells s a <> 0 -> 0 < root + cells s a < 2 ^ 63 -> ~ In a (used s t) ->
  snd (Fixup X86 t a root false s) = true /\
  (get X86 a (fst (Fixup X86 t a root false s)) = root + cells s a <-> - 2 ^ 31 <= root + cells s a - a < 2 ^ 31 /\ root + cells s a <> a).
Proof.
  intros t a root s Ha Hr Hz Hd Hu. unfold is_word in Ha. change (2 ^ 63) with 9223372036854775808 in *.
  assert (F : Fixed t a s = false).
  { unfold Fixed. destruct (existsb (fun i => i =? a) (used s t)) eqn:E; [|reflexivity].
    apply existsb_exists in E as (j & Hj & Ej). apply Z.eqb_eq in Ej. subst j. contradiction. }
  unfold Fixup. rewrite F. cbn [negb andb set_used cells]. destruct (Z.eqb_spec (cells s a) 0) as [|_]; [contradiction|]. cbn [fst snd].
  split; [reflexivity|]. set (d := root + cells s a) in *. unfold u64 at 1. rewrite wrap_small by (change (2 ^ 64) with 18446744073709551616; lia). split.
  - unfold get, assign, set_cell. cbn [cells]. rewrite Z.eqb_refl, wrap64_mod32. pose proof (sgn_range 32 ((d - a) mod 2 ^ 32) ltac:(lia)) as Rg. unfold is_sword in Rg. change (32 - 1) with 31 in Rg.
    assert (Cg : exists q, sgn 32 ((d - a) mod 2 ^ 32) = d - a + q * 2 ^ 32).
    { unfold sgn, wrap. rewrite Z.mod_mod by lia. rewrite Z.mod_eq by lia. destruct (_ <? _); [exists (- ((d - a) / 2 ^ 32))|exists (- ((d - a) / 2 ^ 32) - 1)]; ring. }
    destruct Cg as [q Cq]. set (v := sgn 32 ((d - a) mod 2 ^ 32)) in *. clearbody v.
    destruct (Z.eqb_spec v 0) as [V0|V0].
    + intros E. lia.
    + intros E. unfold u64, wrap in E. unfold is_word in *. clearbody d. clear - E Rg Cq V0 Ha Hd.
      assert (exists p, a + v = d + p * 2 ^ 64) as [p Hp] by (exists ((a + v) / 2 ^ 64); pose proof (Z.div_mod (a + v) (2 ^ 64) ltac:(lia)); lia).
      change (2 ^ 64) with 18446744073709551616 in *. change (2 ^ 31) with 2147483648 in *. change (2 ^ 32) with 4294967296 in *. assert (p = 0) by lia. subst p. lia.
  - intros [H1 H2]. apply get_assign_x86; auto; unfold is_word; change (2 ^ 64) with 18446744073709551616; lia.
Qed.
Print Assumptions C54_x86_reach.

(** The same for a plain assignment of a non-null address. *)
Theorem C54_x86_assign : forall a d s, is_word 64 a -> is_word 64 d -> - 2 ^ 31 <= d - a < 2 ^ 31 -> d <> a -> get X86 a (assign X86 a d s) = d.
Proof. exact get_assign_x86. Qed.
Print Assumptions C54_x86_assign.
(** Assigning null does not give a null pointer when the slot lives above 4 GB, as heap blocks do. *)
Theorem C54_x86_assign_null_refuted : forall a s, 2 ^ 32 < a < 2 ^ 63 -> a mod 2 ^ 32 <> 0 -> get X86 a (assign X86 a 0 s) <> 0.
Proof.
  intros a s Ha Hm. unfold get, assign, set_cell. cbn [cells]. rewrite Z.eqb_refl, wrap64_mod32.
  pose proof (sgn_range 32 ((0 - a) mod 2 ^ 32) ltac:(lia)) as Rg. unfold is_sword in Rg. change (32 - 1) with 31 in Rg.
  assert (Cg : exists q, sgn 32 ((0 - a) mod 2 ^ 32) = 0 - a + q * 2 ^ 32).
  { unfold sgn, wrap. rewrite Z.mod_mod by lia. rewrite Z.mod_eq by lia. destruct (_ <? _); [exists (- ((0 - a) / 2 ^ 32))|exists (- ((0 - a) / 2 ^ 32) - 1)]; ring. }
  destruct Cg as [q Cq]. set (v := sgn 32 _) in *. clearbody v. destruct (Z.eqb_spec v 0) as [V0|V0].
  - exfalso. apply Hm. replace a with (q * 2 ^ 32) by lia. apply Z_mod_mult.
  - unfold u64, wrap. intros E. change (2 ^ 63) with 9223372036854775808 in *. change (2 ^ 64) with 18446744073709551616 in *. change (2 ^ 31) with 2147483648 in *. change (2 ^ 32) with 4294967296 in *. lia.
Qed.
Print Assumptions C54_x86_assign_null_refuted.

(** Not every history is safe.  Fixing a slot a second time - with noCheck, after ClearESPointers, or
    from another thread - adds the root once more. *)
Theorem C54_second_fixup_refuted : forall t a root off s, is_word 64 root -> 0 < root -> 0 < off -> root + off + root < 2 ^ 64 -> cells s a = off -> ~ In a (used s t) ->
  let kd := fun _ : Z => X64 in
  get X64 a (fst (run kd [EvFix t a root false; EvFix t a root true] s)) = root + off + root /\
  get X64 a (fst (run kd [EvFix t a root false; EvClear t; EvFix t a root false] s)) = root + off + root /\
  (forall t', t' <> t -> ~ In a (used s t') -> get X64 a (fst (run kd [EvFix t a root false; EvFix t' a root false] s)) = root + off + root).
Proof.
  intros t a root off s Hr Hr0 Ho Hlim Hc Hu kd. assert (P : 2 ^ 64 = 18446744073709551616) by reflexivity.
  assert (NF : forall t0 s0, ~ In a (used s0 t0) -> Fixed t0 a s0 = false).
  { intros t0 s0 H. unfold Fixed. destruct (existsb (fun i => i =? a) (used s0 t0)) eqn:E; [|reflexivity].
    apply existsb_exists in E as (j & Hj & Ej). apply Z.eqb_eq in Ej. subst j. contradiction. }
  assert (One : forall t0 s0 nc, Fixed t0 a s0 = false \/ nc = true -> forall v, cells s0 a = v -> 0 < v -> root + v < 2 ^ 64 ->
    exists s1, Fixup X64 t0 a root nc s0 = (s1, true) /\ cells s1 a = root + v /\ (forall u, u <> t0 -> used s1 u = used s0 u)).
  { intros t0 s0 nc Hn v Hv Hpos Hl. eexists. unfold Fixup. replace (negb nc && Fixed t0 a s0) with false by (destruct Hn as [-> | ->]; [now rewrite andb_false_r|reflexivity]).
    cbn [set_used cells]. rewrite Hv. destruct (Z.eqb_spec v 0); [lia|]. split; [reflexivity|]. unfold set_cell; cbn [cells used].
    rewrite Z.eqb_refl. split; [unfold u64; apply wrap_small; lia|]. intros u Hu'. unfold set_used; cbn [used]; destruct (Nat.eqb_spec u t0); [contradiction|reflexivity]. }
  unfold is_word in Hr.
  destruct (One t s false (or_introl (NF _ _ Hu)) off Hc Ho ltac:(lia)) as (s1 & E1 & C1 & U1).
  split; [|split].
  - destruct (One t s1 true (or_intror eq_refl) (root + off) C1 ltac:(lia) ltac:(lia)) as (s2 & E2 & C2 & _).
    unfold kd. cbn [run step]. rewrite E1. cbn [run step]. rewrite E2. cbn [fst get]. lia.
  - destruct (One t (ClearESPointers t s1) false) with (v := root + off) as (s2 & E2 & C2 & _); try lia.
    + left. apply NF. unfold ClearESPointers, set_used; cbn [used]. rewrite Nat.eqb_refl. intros [].
    + exact C1.
    + unfold kd. cbn [run step]. rewrite E1. cbn [run step]. rewrite E2. cbn [fst get]. lia.
  - intros t' Nt Hu'. destruct (One t' s1 false) with (v := root + off) as (s2 & E2 & C2 & _); try lia.
    + left. apply NF. rewrite U1 by exact Nt. exact Hu'.
    + unfold kd. cbn [run step]. rewrite E1. cbn [run step]. rewrite E2. cbn [fst get]. lia.
Qed.
Print Assumptions C54_second_fixup_refuted.

(** And a slot of a file loaded later at the same address is not fixed at all: usedPts remembers the
    address until ClearESPointers. *)
Theorem C54_stale_address_refuted : forall kd t a root root' off' s, ~ In a (used s t) ->
  let s' := fst (run kd [EvFix t a root false; EvLoad a off'; EvFix t a root' false] s) in
  cells s' a = off' /\ last (snd (run kd [EvFix t a root false; EvLoad a off'; EvFix t a root' false] s)) true = false.
Proof.
  intros kd t a root root' off' s Hu. cbn [run step]. destruct (Fixup (kd a) t a root false s) as [s1 b1] eqn:E1.
  assert (F : Fixed t a (set_cell a off' s1) = true).
  { replace s1 with (fst (Fixup (kd a) t a root false s)) by (rewrite E1; reflexivity). unfold Fixed. cbn [set_cell used].
    rewrite fixup_used, Nat.eqb_refl, Z.eqb_refl. apply orb_true_r. }
  rewrite (fixup_again _ _ _ _ _ F). cbn [fst snd app last]. split; [|reflexivity]. unfold set_cell; cbn [cells]. now rewrite Z.eqb_refl.
Qed.
Print Assumptions C54_stale_address_refuted.
(** After ClearESPointers it is fixed as any other. *)
Theorem C54_clear_then_reload : forall kd t a root s, is_word 64 a -> is_word 64 root -> cell_ok (kd a) (cells s a) -> reachable (kd a) a root (cells s a) ->
  get (kd a) a (fst (run kd [EvClear t; EvFix t a root false] s)) = target root (cells s a).
Proof.
  intros kd t a root s Ha Hr Hc Hre. cbn [run step]. destruct (Fixup (kd a) t a root false (ClearESPointers t s)) as [s1 b1] eqn:E1. cbn [fst].
  replace s1 with (fst (Fixup (kd a) t a root false (ClearESPointers t s))) by (rewrite E1; reflexivity).
  rewrite fixed_value; auto. unfold Fixed, ClearESPointers, set_used; cbn [used]. now rewrite Nat.eqb_refl.
Qed.
Print Assumptions C54_clear_then_reload.

(** Non-vacuity: a block at 0x10000 with a 64-bit slot, a 32-bit slot and a null slot, fixed in a
    mixed order with repetitions. *)
Definition ex_cells (a : Z) : Z := if a =? 0x10000 then 0x40 else if a =? 0x10010 then 0x44 else 0.
Definition ex_kind (a : Z) : kind := if a =? 0x10010 then X86 else X64.
Definition ex_state := St ex_cells (fun _ => []).
Definition ex_calls := [(1%nat, 0x10010); (2%nat, 0x10000); (1%nat, 0x10010); (1%nat, 0x10020); (2%nat, 0x10000)].
Example C54_nonvacuous :
  (forall a, In a (map snd ex_calls) -> is_word 64 a /\ cell_ok (ex_kind a) (cells ex_state a) /\ reachable (ex_kind a) a 0x10000 (cells ex_state a) /\ ~ In a (used ex_state (if a =? 0x10000 then 2%nat else 1%nat))) /\
  snd (run ex_kind (fixes 0x10000 ex_calls) ex_state) = [true; true; false; false; false] /\
  map (fun a => get (ex_kind a) a (fst (run ex_kind (fixes 0x10000 ex_calls) ex_state))) [0x10000; 0x10010; 0x10020] = [0x10040; 0x10044; 0].
Proof.
  split; [|split; reflexivity]. intros a H. cbn in H.
  repeat (destruct H as [<-|H]; [cbn; unfold is_word, is_sword, reachable; cbn; repeat split; try lia; tauto|]). destruct H.
Qed.
