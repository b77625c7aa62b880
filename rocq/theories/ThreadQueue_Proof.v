From Verif Require Import Base ThreadQueue_Model.
From Coq Require Import Permutation.
Local Open Scope nat_scope.

(** Tasks whose future is not ready. *)
Definition running (l : list (nat * bool)) : list nat :=
  map fst (filter (fun x => negb (snd x)) l).

Lemma running_app a b : running (a ++ b) = running a ++ running b.
Proof. unfold running. rewrite filter_app, map_app. reflexivity. Qed.
Lemma running_length l : length (running l) <= length l.
Proof.
  unfold running. rewrite map_length. induction l as [|[t b] l IH]; cbn [filter length]; [lia|].
  destruct (negb (snd (t, b))); cbn [length]; lia.
Qed.
Lemma split_at {A} (l : list A) j x :
  nth_error l j = Some x -> l = firstn j l ++ x :: skipn (S j) l.
Proof.
  revert j. induction l as [|y l IH]; intros [|j] H; cbn in H; try discriminate.
  - inversion H; reflexivity.
  - cbn. f_equal. apply IH, H.
Qed.
Lemma set_slot_length l j x : j < length l -> length (set_slot l j x) = length l.
Proof.
  intros H. unfold set_slot. rewrite app_length, firstn_length. cbn [length]. rewrite skipn_length. lia.
Qed.
Lemma set_slot_nth l j x i : j < length l ->
  nth_error (set_slot l j x) i = if i =? j then Some x else nth_error l i.
Proof.
  intros Hj. unfold set_slot. revert j i Hj.
  induction l as [|y l IH]; intros j i Hj; cbn [length] in Hj; [lia|].
  destruct j as [|j].
  - destruct i; reflexivity.
  - destruct i as [|i]; cbn [firstn app nth_error Nat.eqb skipn]; [reflexivity|]. apply IH. lia.
Qed.

Record inv (hw n : nat) (s : state) : Prop := {
  i_started : started s = seq 0 (cur s);
  i_cur : cur s <= n;
  i_launch : ph s = Launch -> length (slots s) = cur s /\ cur s <= Nat.min hw n;
  i_len : ph s <> Launch -> length (slots s) = Nat.min hw n;
  i_perm : Permutation (started s) (finished s ++ running (slots s));
  i_fin : forall j t, nth_error (slots s) j = Some (t, true) -> In t (finished s);
  i_wait : forall j, ph s = Wait j -> cur s = n /\ Forall (fun x => snd x = true) (firstn j (slots s));
  i_done : ph s = Done -> cur s = n /\ Forall (fun x => snd x = true) (slots s)
}.

Lemma inv_init hw n : inv hw n init.
Proof.
  constructor; cbn; try discriminate; try lia; auto.
  - congruence.
  - intros [|j] t H; discriminate.
Qed.

Lemma firstn_snoc {A} (l : list A) j x : nth_error l j = Some x -> firstn (S j) l = firstn j l ++ [x].
Proof.
  revert j. induction l as [|y l IH]; intros [|j] H; cbn in H; try discriminate.
  - inversion H; reflexivity.
  - cbn. f_equal. apply IH, H.
Qed.

Lemma running_set l j t b t' b' :
  nth_error l j = Some (t, b) ->
  running (set_slot l j (t', b')) =
  running (firstn j l) ++ (if b' then [] else [t']) ++ running (skipn (S j) l).
Proof.
  intros H. unfold set_slot. rewrite running_app. f_equal.
  change ((t', b') :: skipn (S j) l) with ([(t', b')] ++ skipn (S j) l). rewrite running_app.
  destruct b'; reflexivity.
Qed.
Lemma running_split l j t b :
  nth_error l j = Some (t, b) ->
  running l = running (firstn j l) ++ (if b then [] else [t]) ++ running (skipn (S j) l).
Proof.
  intros H. rewrite (split_at l j (t, b) H) at 1. rewrite running_app. f_equal.
  change ((t, b) :: skipn (S j) l) with ([(t, b)] ++ skipn (S j) l). rewrite running_app.
  destruct b; reflexivity.
Qed.

Lemma inv_trans hw n s s' : inv hw n s -> trans hw n s s' -> inv hw n s'.
Proof.
  intros [I1 I2 I3 I4 I5 IF I6 I7] [H|[j H]].
  - unfold main_step in H. cbv zeta in H. destruct (ph s) as [| |j|j|] eqn:Ep.
    + destruct (I3 eq_refl) as [L C].
      destruct (Nat.ltb_spec (length (slots s)) (Nat.min hw n)) as [Hl|Hl]; inversion H; subst s'; clear H;
        constructor; cbn [ph cur slots started finished]; try discriminate; auto; try lia.
      * rewrite I1, seq_S. reflexivity.
      * intros _. rewrite app_length. cbn [length]. lia.
      * congruence.
      * rewrite running_app. cbn [running]. rewrite app_assoc. apply Permutation_app; [assumption|reflexivity].
      * intros j t H. destruct (Nat.lt_ge_cases j (length (slots s))).
        -- rewrite nth_error_app1 in H by lia. eauto.
        -- rewrite nth_error_app2 in H by lia.
           destruct (j - length (slots s)) as [|[|?]]; cbn in H; discriminate.
    + destruct (Nat.ltb_spec (cur s) n) as [Hl|Hl]; inversion H; subst s'; clear H;
        constructor; cbn [ph cur slots started finished]; try discriminate; auto; try lia;
        try (intros; apply I4; discriminate).
      intros j E. inversion E; subst j. split; [lia|constructor].
    + destruct (nth_error (slots s) j) as [[t fin]|] eqn:En.
      2: { inversion H; subst s'; clear H; constructor; cbn [ph cur slots started finished]; try discriminate; auto.
           intros; apply I4; discriminate. }
      destruct (Nat.leb_spec n (cur s)) as [Hn|Hn].
      { inversion H; subst s'; clear H; constructor; cbn [ph cur slots started finished]; try discriminate; auto.
        intros; apply I4; discriminate. }
      assert (Hj : j < length (slots s)) by (apply nth_error_Some; congruence).
      destruct fin; inversion H; subst s'; clear H; constructor; cbn [ph cur slots started finished]; try discriminate; auto; try lia.
      * rewrite I1, seq_S. reflexivity.
      * intros _. rewrite set_slot_length by assumption. apply I4; discriminate.
      * rewrite (running_set _ _ _ _ _ _ En). rewrite (running_split _ _ _ _ En) in I5. cbn [app] in *.
        rewrite <- Permutation_cons_append. rewrite I5.
        rewrite !app_assoc. apply (Permutation_cons_app _ _ (cur s)). reflexivity.
      * intros i u H. rewrite set_slot_nth in H by assumption.
        destruct (Nat.eqb_spec i j); [inversion H|eauto].
      * intros _. apply I4. discriminate.
    + destruct (nth_error (slots s) j) as [[t fin]|] eqn:En.
      * destruct fin; [|discriminate]. inversion H; subst s'; clear H.
        destruct (I6 j eq_refl) as [Cn F].
        constructor; cbn [ph cur slots started finished]; try discriminate; auto.
        -- intros; apply I4; discriminate.
        -- intros i E. inversion E; subst i. split; [assumption|].
           rewrite (firstn_snoc _ _ _ En). apply Forall_app. split; [assumption|]. constructor; [reflexivity|constructor].
      * inversion H; subst s'; clear H. destruct (I6 j eq_refl) as [Cn F].
        constructor; cbn [ph cur slots started finished]; try discriminate; auto.
        -- intros; apply I4; discriminate.
        -- intros _. split; [assumption|]. apply nth_error_None in En. rewrite firstn_all2 in F by lia. exact F.
    + discriminate.
  - unfold finish_step in H. destruct (nth_error (slots s) j) as [[t [|]]|] eqn:En; try discriminate.
    inversion H; subst s'; clear H.
    assert (Hj : j < length (slots s)) by (apply nth_error_Some; congruence).
    constructor; cbn [ph cur slots started finished]; auto.
    + intros E. rewrite set_slot_length by assumption. auto.
    + intros E. rewrite set_slot_length by assumption. auto.
    + rewrite (running_set _ _ _ _ _ _ En). rewrite (running_split _ _ _ _ En) in I5. cbn [app] in *.
      rewrite I5. rewrite <- app_assoc. apply Permutation_app_head. cbn [app].
      symmetry. apply Permutation_middle.
    + intros i u H. rewrite set_slot_nth in H by assumption. apply in_or_app.
      destruct (Nat.eqb_spec i j); [inversion H; right; left; reflexivity | left; eauto].
    + intros i E. destruct (I6 i E) as [Cn F]. split; [assumption|].
      apply Forall_forall. intros x Hx. apply In_nth_error in Hx. destruct Hx as [k Hk].
      assert (Hk2 : k < i).
      { assert (k < length (firstn i (set_slot (slots s) j (t, true)))) by (apply nth_error_Some; congruence).
        rewrite firstn_length in *. lia. }
      assert (Q : nth_error (set_slot (slots s) j (t, true)) k = Some x).
      { rewrite <- Hk. rewrite <- (firstn_skipn i (set_slot (slots s) j (t, true))) at 1.
        apply nth_error_app1. apply nth_error_Some. congruence. }
      rewrite set_slot_nth in Q by assumption. destruct (Nat.eqb_spec k j) as [->|]; [inversion Q; reflexivity|].
      rewrite Forall_forall in F. apply F.
      assert (Q2 : nth_error (firstn i (slots s)) k = Some x).
      { rewrite <- Q. rewrite <- (firstn_skipn i (slots s)) at 2. symmetry. apply nth_error_app1.
        rewrite firstn_length. assert (k < length (slots s)) by (apply nth_error_Some; congruence). lia. }
      eapply nth_error_In; eauto.
    + intros E. destruct (I7 E) as [Cn F]. exfalso. rewrite Forall_forall in F.
      apply nth_error_In in En. apply F in En. discriminate.
Qed.

Lemma inv_reachable hw n s : reachable hw n s -> inv hw n s.
Proof. induction 1; [apply inv_init | eapply inv_trans; eauto]. Qed.

Lemma running_none l : Forall (fun x => snd x = true) l -> running l = [].
Proof.
  induction l as [|[t b] l IH]; intros H; [reflexivity|]. inversion H; subst. cbn in *. subst b. cbn. apply IH. assumption.
Qed.

(** * Liveness *)
(** Everything the calling thread can see is the same, except that futures may have
    become ready. *)
Definition sim (s s' : state) : Prop :=
  ph s' = ph s /\ cur s' = cur s /\ length (slots s') = length (slots s) /\
  forall j t b, nth_error (slots s) j = Some (t, b) ->
    exists b', nth_error (slots s') j = Some (t, b') /\ (b = true -> b' = true).

Lemma sim_refl s : sim s s.
Proof. repeat split. intros. eauto. Qed.
Lemma sim_trans a b c : sim a b -> sim b c -> sim a c.
Proof.
  intros (A1 & A2 & A3 & A4) (B1 & B2 & B3 & B4). repeat split; try congruence.
  intros j t x H. destruct (A4 _ _ _ H) as (y & Hy & Iy). destruct (B4 _ _ _ Hy) as (z & Hz & Iz). eauto.
Qed.
Lemma finish_sim j s s' : finish_step j s = Some s' -> sim s s'.
Proof.
  unfold finish_step. destruct (nth_error (slots s) j) as [[t [|]]|] eqn:En; try discriminate.
  intros H. inversion H; subst s'.
  assert (Hj : j < length (slots s)) by (apply nth_error_Some; congruence).
  unfold sim. cbn [ph cur slots]. repeat split; try (apply set_slot_length; assumption).
  intros i u b Hi. rewrite set_slot_nth by assumption. destruct (Nat.eqb_spec i j) as [->|].
  - rewrite En in Hi. inversion Hi; subst. eauto.
  - eauto.
Qed.
Lemma sim_enabled hw n s s' : sim s s' -> main_step hw n s <> None -> main_step hw n s' <> None.
Proof.
  intros (A1 & A2 & A3 & A4) H. unfold main_step in *. cbv zeta in *. rewrite A1, A2, A3 in *.
  destruct (ph s) as [| |j|j|].
  - destruct (_ <? _); discriminate.
  - destruct (_ <? _); discriminate.
  - destruct (nth_error (slots s') j) as [[t b]|]; [|discriminate].
    destruct (_ <=? _); [discriminate|]. destruct b; discriminate.
  - destruct (nth_error (slots s) j) as [[t b]|] eqn:En.
    + destruct (A4 _ _ _ En) as (b' & -> & Ib). destruct b; [|congruence]. rewrite Ib by reflexivity. discriminate.
    + assert (E : nth_error (slots s') j = None) by (apply nth_error_None; apply nth_error_None in En; lia).
      rewrite E. discriminate.
  - congruence.
Qed.

Lemma some_inj {A} (a b : A) : Some a = Some b -> a = b.
Proof. congruence. Qed.

Section Live.
  Variables hw n : nat.
  Hypothesis Hhw : 1 <= hw.
  Variable tr : nat -> state.
  Hypothesis T0 : tr 0 = init.
  Hypothesis TS : forall k, trans hw n (tr k) (tr (S k)) \/ tr (S k) = tr k.
  Hypothesis FM : forall k, exists k', k <= k' /\
     (main_step hw n (tr k') = Some (tr (S k')) \/ main_step hw n (tr k') = None).
  Hypothesis FF : forall k t, In t (started (tr k)) -> exists k', In t (finished (tr k')).

  Lemma tr_inv k : inv hw n (tr k).
  Proof.
    induction k as [|k IH]; [rewrite T0; apply inv_init|].
    destruct (TS k) as [H|H]; [eapply inv_trans; eauto | rewrite H; assumption].
  Qed.

  Lemma step_mono k : (cur (tr k) <= cur (tr (S k))) /\ incl (finished (tr k)) (finished (tr (S k))).
  Proof.
    destruct (TS k) as [[H|[j H]]|H].
    - unfold main_step in H. cbv zeta in H.
      destruct (ph (tr k)); repeat match type of H with
        | context [if ?b then _ else _] => destruct b
        | context [match nth_error ?l ?j with _ => _ end] => destruct (nth_error l j) as [[? ?]|]
        end; inversion H; cbn; split; try lia; apply incl_refl.
    - unfold finish_step in H. destruct (nth_error _ _) as [[t [|]]|]; inversion H; cbn. split; [lia|].
      apply incl_appl, incl_refl.
    - rewrite H. split; [lia|apply incl_refl].
  Qed.
  Lemma mono k k' : k <= k' -> cur (tr k) <= cur (tr k') /\ incl (finished (tr k)) (finished (tr k')).
  Proof.
    induction 1 as [|k' H [IH1 IH2]]; [split; [lia|apply incl_refl]|].
    destruct (step_mono k') as [S1 S2]. split; [lia|]. eapply incl_tran; eauto.
  Qed.

  (** The next statement of the calling thread, if it is not blocked. *)
  Lemma next_main k : main_step hw n (tr k) <> None ->
    exists k', k <= k' /\ sim (tr k) (tr k') /\ main_step hw n (tr k') = Some (tr (S k')).
  Proof.
    intros He. destruct (FM k) as (k' & Hk & Hf).
    assert (G : forall d k, k' - k = d -> k <= k' -> main_step hw n (tr k) <> None ->
       exists k'', k <= k'' /\ sim (tr k) (tr k'') /\ main_step hw n (tr k'') = Some (tr (S k''))).
    { induction d as [|d IH]; intros q Hd Hq Heq.
      - assert (q = k') by lia. subst q. exists k'. split; [lia|]. split; [apply sim_refl|].
        destruct Hf; [assumption|congruence].
      - assert (C : main_step hw n (tr q) = Some (tr (S q)) \/ sim (tr q) (tr (S q))).
        { destruct (TS q) as [[H|[j H]]|H]; [auto| right; eapply finish_sim; eauto | right; rewrite H; apply sim_refl]. }
        destruct C as [C|C].
        + exists q. split; [lia|]. split; [apply sim_refl|assumption].
        + destruct (IH (S q)) as (k'' & A & B & D); try lia; [eapply sim_enabled; eauto|].
          exists k''. split; [lia|]. split; [eapply sim_trans; eauto|assumption]. }
    eapply G; eauto.
  Qed.

  Lemma slot_started k j t b : nth_error (slots (tr k)) j = Some (t, b) -> In t (started (tr k)).
  Proof.
    intros H. pose proof (tr_inv k) as I. destruct b.
    - apply (Permutation_in _ (Permutation_sym (i_perm _ _ _ I))). apply in_or_app. left.
      eapply i_fin; eauto.
    - apply (Permutation_in _ (Permutation_sym (i_perm _ _ _ I))). apply in_or_app. right.
      unfold running. change t with (fst (t, false)). apply in_map. apply filter_In.
      split; [eapply nth_error_In; eauto|reflexivity].
  Qed.

  Lemma finished_not_running k j t : In t (finished (tr k)) -> nth_error (slots (tr k)) j <> Some (t, false).
  Proof.
    intros Hf Hs. pose proof (tr_inv k) as I.
    assert (ND : NoDup (finished (tr k) ++ running (slots (tr k)))).
    { eapply Permutation_NoDup; [apply (i_perm _ _ _ I)|]. rewrite (i_started _ _ _ I). apply seq_NoDup. }
    assert (Hr : In t (running (slots (tr k)))).
    { unfold running. change t with (fst (t, false)). apply in_map. apply filter_In.
      split; [eapply nth_error_In; eauto|reflexivity]. }
    clear -ND Hf Hr. induction (finished (tr k)) as [|x l IH]; [inversion Hf|].
    inversion ND; subst. destruct Hf as [->|Hf]; [apply H1, in_or_app; auto|auto].
  Qed.

  (** A future that runs a task now will be ready later, and still be the same future
      unless curTask has moved. *)
  Lemma slot_stable k k' j t b : k <= k' -> cur (tr k') = cur (tr k) ->
    nth_error (slots (tr k)) j = Some (t, b) -> exists b', nth_error (slots (tr k')) j = Some (t, b').
  Proof.
    intros Hk Hc H. revert Hc. induction Hk as [|k' Hk IH]; intros Hc; [eauto|].
    pose proof (proj1 (mono k k' Hk)). pose proof (proj1 (step_mono k')).
    destruct IH as (b' & Hb'); [lia|].
    destruct (TS k') as [[X|[i X]]|X].
    - unfold main_step in X. cbv zeta in X.
      destruct (ph (tr k')) as [| |i|i|]; repeat match type of X with
        | context [if ?b then _ else _] => destruct b
        | context [match nth_error ?l ?j with _ => _ end] => destruct (nth_error l j) as [[? ?]|]
        end; try discriminate X; inversion X as [Y]; rewrite <- Y in *; cbn [cur slots] in *; try lia; eauto.
    - apply finish_sim in X. destruct X as (_ & _ & _ & X). destruct (X _ _ _ Hb') as (b'' & ? & _). eauto.
    - rewrite X. eauto.
  Qed.

  Lemma slot_ready k j t b : nth_error (slots (tr k)) j = Some (t, b) ->
    exists k', k <= k' /\ (cur (tr k) < cur (tr k') \/
      (cur (tr k') = cur (tr k) /\ nth_error (slots (tr k')) j = Some (t, true))).
  Proof.
    intros H. destruct (FF k t (slot_started _ _ _ _ H)) as (q & Hq).
    set (k' := Nat.max k q). exists k'. split; [lia|].
    assert (Hf : In t (finished (tr k'))) by (apply (proj2 (mono q k' ltac:(lia))); assumption).
    pose proof (proj1 (mono k k' ltac:(lia))).
    destruct (Nat.eq_dec (cur (tr k')) (cur (tr k))) as [E|]; [right|left; lia].
    split; [assumption|]. destruct (slot_stable k k' j t b ltac:(lia) E H) as ([|] & Hb); [assumption|].
    exfalso. eapply finished_not_running; eauto.
  Qed.

  (** From anywhere before the waits the test of the while loop is reached again. *)
  Definition before_wait (s : state) : Prop := match ph s with Launch | While | Poll _ => True | _ => False end.

  Lemma launch_to_while : forall d k, ph (tr k) = Launch -> Nat.min hw n - length (slots (tr k)) = d ->
    exists k', k <= k' /\ ph (tr k') = While.
  Proof.
    induction d as [d IH] using lt_wf_ind. intros k Hp Hd.
    destruct (next_main k) as (q & Hq & (S1 & S2 & S3 & _) & HS).
    { unfold main_step. rewrite Hp. cbv zeta. destruct (_ <? _); discriminate. }
    unfold main_step in HS. rewrite S1, Hp in HS. cbv zeta in HS.
    destruct (Nat.ltb_spec (length (slots (tr q))) (Nat.min hw n)).
    - inversion HS as [Y].
      destruct (IH (Nat.min hw n - length (slots (tr (S q))))) with (k := S q) as (r & Hr & Er).
      + rewrite <- Y. cbn [slots]. rewrite app_length. cbn [length]. lia.
      + rewrite <- Y. reflexivity.
      + reflexivity.
      + exists r. split; [lia|assumption].
    - inversion HS as [Y]. exists (S q). split; [lia|]. rewrite <- Y. reflexivity.
  Qed.
  Lemma poll_to_while : forall d k j, ph (tr k) = Poll j -> Nat.min hw n - j = d ->
    exists k', k <= k' /\ ph (tr k') = While.
  Proof.
    induction d as [d IH] using lt_wf_ind. intros k j Hp Hd.
    assert (HL : forall q, ph (tr q) = Poll j -> length (slots (tr q)) = Nat.min hw n).
    { intros q Hq. apply (i_len _ _ _ (tr_inv q)). congruence. }
    destruct (next_main k) as (q & Hq & (S1 & S2 & S3 & _) & HS).
    { unfold main_step. rewrite Hp. cbv zeta. destruct (nth_error _ _) as [[? b]|]; [|discriminate].
      destruct (_ <=? _); [discriminate|]. destruct b; discriminate. }
    rewrite Hp in S1. unfold main_step in HS. rewrite S1 in HS. cbv zeta in HS.
    destruct (nth_error (slots (tr q)) j) as [[t b]|] eqn:En.
    - assert (Hj : j < Nat.min hw n) by (rewrite <- (HL q S1); apply nth_error_Some; congruence).
      destruct (n <=? cur (tr q)).
      + inversion HS as [Y]. exists (S q). split; [lia|]. rewrite <- Y. reflexivity.
      + assert (P : ph (tr (S q)) = Poll (S j)) by (destruct b; inversion HS as [Y]; reflexivity).
        destruct (IH (Nat.min hw n - S j)) with (k := S q) (j := S j) as (r & Hr & Er); [lia|assumption|reflexivity|].
        exists r. split; [lia|assumption].
    - inversion HS as [Y]. exists (S q). split; [lia|]. rewrite <- Y. reflexivity.
  Qed.
  Lemma to_while k : before_wait (tr k) -> exists k', k <= k' /\ ph (tr k') = While.
  Proof.
    unfold before_wait. destruct (ph (tr k)) eqn:E; try tauto; intros _.
    - eapply launch_to_while; eauto.
    - exists k. auto.
    - eapply poll_to_while; eauto.
  Qed.

  (** With work left, the thread is before the waits. *)
  Lemma work_left k : cur (tr k) < n -> before_wait (tr k).
  Proof.
    intros H. pose proof (tr_inv k) as I. unfold before_wait. destruct (ph (tr k)) eqn:E; auto.
    - pose proof (proj1 (i_wait _ _ _ I _ E)). lia.
    - pose proof (proj1 (i_done _ _ _ I E)). lia.
  Qed.

  Lemma loop_progress k : cur (tr k) < n -> exists k', k <= k' /\ cur (tr k) < cur (tr k').
  Proof.
    intros Hc. destruct (to_while k (work_left k Hc)) as (k1 & H1 & P1).
    pose proof (proj1 (mono k k1 H1)) as M1.
    destruct (Nat.eq_dec (cur (tr k1)) (cur (tr k))) as [E1|]; [|exists k1; split; lia].
    assert (L1 : length (slots (tr k1)) = Nat.min hw n) by (apply (i_len _ _ _ (tr_inv k1)); congruence).
    destruct (nth_error (slots (tr k1)) 0) as [[t b]|] eqn:En.
    2: { apply nth_error_None in En. lia. }
    destruct (slot_ready k1 0 t b En) as (k2 & H2 & [C|[C R]]).
    { exists k2. split; lia. }
    destruct (to_while k2) as (k3 & H3 & P3); [apply work_left; lia|].
    pose proof (proj1 (mono k2 k3 H3)) as M3.
    destruct (Nat.eq_dec (cur (tr k3)) (cur (tr k2))) as [E3|]; [|exists k3; split; lia].
    assert (R3 : nth_error (slots (tr k3)) 0 = Some (t, true)).
    { destruct (slot_stable k2 k3 0 t true H3 E3 R) as ([|] & Hb); [assumption|].
      exfalso. eapply finished_not_running; [|exact Hb].
      apply (proj2 (mono k2 k3 H3)). eapply i_fin; [apply tr_inv|eauto]. }
    destruct (next_main k3) as (k4 & H4 & (S1 & S2 & S3 & S4) & HS).
    { unfold main_step. rewrite P3. cbv zeta. destruct (_ <? _); discriminate. }
    unfold main_step in HS. rewrite S1, P3 in HS. cbv zeta in HS.
    destruct (Nat.ltb_spec (cur (tr k4)) n); [|lia]. inversion HS as [Y].
    assert (P5 : ph (tr (S k4)) = Poll 0) by (rewrite <- Y; reflexivity).
    assert (C5 : cur (tr (S k4)) = cur (tr k4)) by (rewrite <- Y; reflexivity).
    assert (R5 : nth_error (slots (tr (S k4))) 0 = Some (t, true)).
    { rewrite <- Y. cbn [slots]. destruct (S4 _ _ _ R3) as (b' & Hb & Ib). rewrite Ib in Hb by reflexivity. assumption. }
    destruct (next_main (S k4)) as (k6 & H6 & (Q1 & Q2 & Q3 & Q4) & HQ).
    { unfold main_step. rewrite P5, R5. cbv zeta. destruct (_ <=? _); discriminate. }
    destruct (Q4 _ _ _ R5) as (b' & Hb & Ib). rewrite Ib in Hb by reflexivity.
    unfold main_step in HQ. rewrite Q1, P5, Hb in HQ. cbv zeta in HQ.
    destruct (Nat.leb_spec n (cur (tr k6))); [lia|]. inversion HQ as [Z].
    exists (S k6). split; [lia|]. rewrite <- Z. cbn [cur]. lia.
  Qed.

  Lemma all_launched : forall d k, n - cur (tr k) = d -> exists k', k <= k' /\ cur (tr k') = n.
  Proof.
    induction d as [d IH] using lt_wf_ind. intros k Hd.
    pose proof (i_cur _ _ _ (tr_inv k)).
    destruct (Nat.eq_dec (cur (tr k)) n) as [E|E]; [exists k; auto|].
    destruct (loop_progress k) as (q & Hq & C); [lia|].
    destruct (IH (n - cur (tr q)) ltac:(lia) q eq_refl) as (r & Hr & Er). exists r. split; [lia|assumption].
  Qed.

  Lemma wait_done : forall d k j, ph (tr k) = Wait j -> Nat.min hw n - j = d -> exists k', ph (tr k') = Done.
  Proof.
    induction d as [d IH] using lt_wf_ind. intros k j Hp Hd.
    pose proof (tr_inv k) as I.
    assert (L : length (slots (tr k)) = Nat.min hw n) by (apply (i_len _ _ _ I); congruence).
    assert (Cn : cur (tr k) = n) by (apply (i_wait _ _ _ I j Hp)).
    destruct (nth_error (slots (tr k)) j) as [[t b]|] eqn:En.
    - assert (Hj : j < Nat.min hw n) by (rewrite <- L; apply nth_error_Some; congruence).
      destruct (slot_ready k j t b En) as (k2 & H2 & [C|[C R]]).
      { pose proof (i_cur _ _ _ (tr_inv k2)). lia. }
      (* the thread is still in Wait j, or has gone further *)
      assert (G : forall q, k <= q -> ph (tr q) = Wait j \/ (exists i, j < i /\ ph (tr q) = Wait i) \/ ph (tr q) = Done).
      { induction 1 as [|q Hq [IHq|[(i & Hi & IHq)|IHq]]]; [auto| | |].
        - destruct (TS q) as [[X|[x X]]|X].
          + unfold main_step in X. rewrite IHq in X. cbv zeta in X. destruct (nth_error (slots (tr q)) j) as [[? [|]]|]; try discriminate X; apply some_inj in X; rewrite <- X; cbn [ph].
            * right; left. exists (S j). split; [lia|reflexivity].
            * right; right. reflexivity.
          + apply finish_sim in X. destruct X as (X & _). left. congruence.
          + left. congruence.
        - destruct (TS q) as [[X|[x X]]|X].
          + unfold main_step in X. rewrite IHq in X. cbv zeta in X. destruct (nth_error (slots (tr q)) i) as [[? [|]]|]; try discriminate X; apply some_inj in X; rewrite <- X; cbn [ph].
            * right; left. exists (S i). split; [lia|reflexivity].
            * right; right. reflexivity.
          + apply finish_sim in X. destruct X as (X & _). right; left. exists i. split; [assumption|congruence].
          + right; left. exists i. split; [assumption|congruence].
        - destruct (TS q) as [[X|[x X]]|X].
          + unfold main_step in X. rewrite IHq in X. discriminate.
          + apply finish_sim in X. destruct X as (X & _). right; right. congruence.
          + right; right. congruence. }
      destruct (G k2 H2) as [P|[(i & Hi & P)|P]]; [|eapply IH; [|eauto|reflexivity]; lia|eauto].
      destruct (next_main k2) as (q & Hq & (S1 & S2 & S3 & S4) & HS).
      { unfold main_step. rewrite P, R. discriminate. }
      destruct (S4 _ _ _ R) as (b' & Hb & Ib). rewrite Ib in Hb by reflexivity.
      unfold main_step in HS. rewrite S1, P, Hb in HS. inversion HS as [Y].
      apply (IH (Nat.min hw n - S j)) with (k := S q) (j := S j); [lia| |reflexivity].
      rewrite <- Y. reflexivity.
    - destruct (next_main k) as (q & Hq & (S1 & S2 & S3 & S4) & HS).
      { unfold main_step. rewrite Hp, En. discriminate. }
      unfold main_step in HS. rewrite S1, Hp in HS.
      assert (E : nth_error (slots (tr q)) j = None) by (apply nth_error_None; apply nth_error_None in En; lia).
      rewrite E in HS. inversion HS as [Y]. exists (S q). rewrite <- Y. reflexivity.
  Qed.

  Lemma terminates : exists k, ph (tr k) = Done.
  Proof.
    destruct (all_launched _ 0 eq_refl) as (k & _ & Hk).
    destruct (ph (tr k)) as [| |j|j|] eqn:E.
    1,2,3: destruct (to_while k) as (k1 & H1 & P1);
      [unfold before_wait; rewrite E; exact I|];
      assert (C1 : cur (tr k1) = n) by (pose proof (proj1 (mono k k1 H1)); pose proof (i_cur _ _ _ (tr_inv k1)); lia);
      destruct (next_main k1) as (q & Hq & (S1 & S2 & S3 & S4) & HS);
      [unfold main_step; rewrite P1; cbv zeta; destruct (_ <? _); discriminate|];
      unfold main_step in HS; rewrite S1, P1 in HS; cbv zeta in HS;
      destruct (Nat.ltb_spec (cur (tr q)) n); [lia|]; inversion HS as [Y];
      apply (wait_done (Nat.min hw n - 0) (S q) 0); [rewrite <- Y; reflexivity|reflexivity].
    - eapply wait_done; eauto.
    - eauto.
  Qed.
End Live.
