From Verif Require Import Base Printer_Model Printer_Spec.
Local Open Scope nat_scope.

(** ** One thread's stream *)
Definition stream_ok (s : stream) : Prop := putp s <= length (content s).
Definition text_of (s : stream) : list Z := firstn (putp s) (content s).

Lemma put_ok s t : stream_ok s -> stream_ok (put s t) /\ text_of (put s t) = text_of s ++ t.
Proof.
  unfold stream_ok, text_of, put. cbn [putp content]. intros H.
  assert (L : length (firstn (putp s) (content s)) = putp s) by (rewrite firstn_length; lia).
  split.
  - rewrite !app_length, L. lia.
  - rewrite app_assoc. rewrite <- L at 1. rewrite <- app_length. apply firstn_app_exact.
Qed.

Lemma cstr_nul t r : cstr (t ++ 0%Z :: r) = Some (upto_nul t).
Proof.
  induction t as [|c t IH]; cbn; [reflexivity|]. destruct (Z.eqb c 0); [reflexivity|]. rewrite IH. reflexivity.
Qed.
Lemma firstn_prefix {A} n (l : list A) : n <= length l -> exists r, firstn (n + 1) l = firstn n l ++ r.
Proof.
  intros H. exists (firstn 1 (skipn n l)).
  revert l H. induction n as [|n IH]; intros l H; [reflexivity|].
  destruct l as [|x l]; cbn in H; [lia|]. cbn. f_equal. apply IH. lia.
Qed.

Lemma end_message p nl :
  stream_ok (ms p) ->
  exists p', do_op p (OEnd nl) = ([(cType p, Some (upto_nul (text_of (ms p) ++ if nl then [10%Z] else [])))], p') /\
    stream_ok (ms p') /\ text_of (ms p') = [] /\ cType p' = MSG.
Proof.
  intros H. unfold do_op.
  set (s1 := if nl then put (ms p) [10%Z] else ms p).
  assert (H1 : stream_ok s1 /\ text_of s1 = text_of (ms p) ++ if nl then [10%Z] else []).
  { unfold s1. destruct nl; [apply put_ok; assumption|]. rewrite app_nil_r. auto. }
  destruct H1 as [O1 T1]. destruct (put_ok s1 [0%Z] O1) as [O2 T2].
  set (s2 := put s1 [0%Z]) in *. unfold flush_all, flush_read. cbn [ms cType].
  assert (E : cstr (firstn (putp s2 + 1) (content s2)) = Some (upto_nul (text_of s1))).
  { destruct (firstn_prefix (putp s2) (content s2) O2) as [r Er]. rewrite Er.
    unfold text_of in T2. rewrite T2. rewrite <- app_assoc. cbn [app]. apply cstr_nul. }
  rewrite E, T1. eexists. split; [reflexivity|]. cbn [ms cType].
  destruct (2048 <? putp s2 + 1); unfold stream_ok, text_of; cbn; auto using Nat.le_0_l.
Qed.

Lemma do_ops_messages l : forall p, stream_ok (ms p) ->
  fst (do_ops p l) = map (fun m => (fst m, Some (snd m))) (messages (text_of (ms p)) (cType p) l).
Proof.
  induction l as [|o l IH]; intros p H; cbn [do_ops messages]; [reflexivity|].
  destruct o as [t|t|nl].
  - cbn [do_op]. destruct (put_ok (ms p) t H) as [O T].
    specialize (IH (Pr (put (ms p) t) (cType p)) O). cbn [ms cType] in IH. rewrite T in IH.
    destruct (do_ops _ l). cbn [fst app] in *. exact IH.
  - cbn [do_op]. specialize (IH (Pr (ms p) t) H). cbn [ms cType] in IH.
    destruct (do_ops _ l). cbn [fst app] in *. exact IH.
  - destruct (end_message p nl H) as (p' & E & O & T & C). rewrite E.
    specialize (IH p' O). rewrite T, C in IH. destruct (do_ops p' l). cbn [fst snd app map] in *.
    rewrite IH. reflexivity.
Qed.

(** ** Sinks *)
Lemma add_sink_nodup fs f c : NoDup (map fst fs) -> NoDup (map fst (add_sink fs f c)).
Proof.
  intros H. unfold add_sink. destruct (existsb _ fs) eqn:E; [assumption|].
  rewrite map_app. cbn. apply NoDup_Add with (a := f) (l := map fst fs).
  - rewrite <- (app_nil_r (map fst fs)) at 1. apply Add_app.
  - split; [assumption|]. intros Hin. apply in_map_iff in Hin. destruct Hin as (x & <- & Hx).
    rewrite <- not_true_iff_false in E. apply E. apply existsb_exists. exists x. split; [assumption|apply Nat.eqb_refl].
Qed.

Lemma received_app f a b : received f (a ++ b) = received f a ++ received f b.
Proof. unfold received. apply flat_map_app. Qed.
Lemma received_broadcast f fs p : (forall s, p <> Str s) -> received f (broadcast fs p) = [].
Proof.
  intros H. unfold received, broadcast. induction (filter snd fs) as [|c l IH]; [reflexivity|].
  cbn. rewrite IH. destruct (fst c =? f); [|reflexivity]. destruct p; try reflexivity. exfalso. eapply H; eauto.
Qed.

Definition one_sink (fs : list sink) (tid : option (list Z)) (ty : mptype) (text : list Z) (fc : sink) :=
  (match tid with
   | Some id => [(fst fc, Str thread_open); (fst fc, Str id); (fst fc, Str thread_close)]
   | None => [] end) ++
  (if snd fc then
     match ty with WRN => broadcast fs (Color 255 255 0) | ERR => broadcast fs (Color 255 0 0) | _ => [] end
   else []) ++
  (match ty with WRN => [(fst fc, Str s_warning)] | ERR => [(fst fc, Str s_error)] | _ => [] end) ++
  [(fst fc, Str text)] ++
  (if snd fc then match ty with MSG => [] | _ => broadcast fs Restore end else []).

Lemma one_sink_received fs tid ty text fc f :
  received f (one_sink fs tid ty text fc) = if fst fc =? f then rendering tid (ty, text) else [].
Proof.
  unfold one_sink. rewrite !received_app.
  assert (A : received f (if snd fc then match ty with WRN => broadcast fs (Color 255 255 0)
     | ERR => broadcast fs (Color 255 0 0) | _ => [] end else []) = []).
  { destruct (snd fc); [|reflexivity]. destruct ty; try reflexivity; apply received_broadcast; discriminate. }
  assert (B : received f (if snd fc then match ty with MSG => [] | _ => broadcast fs Restore end else []) = []).
  { destruct (snd fc); [|reflexivity]. destruct ty; try reflexivity; apply received_broadcast; discriminate. }
  rewrite A, B. unfold rendering. cbn [fst snd].
  destruct tid as [id|], ty; unfold received; cbn [flat_map fst snd app];
    destruct (fst fc =? f); reflexivity.
Qed.

Lemma sink_calls_received fs tid ty text f :
  NoDup (map fst fs) -> In f (map fst fs) ->
  received f (sink_calls fs tid ty text) = rendering tid (ty, text).
Proof.
  intros ND HI. change (sink_calls fs tid ty text) with (flat_map (one_sink fs tid ty text) fs).
  generalize fs at 1 as gs. intros gs. induction fs as [|c fs IH]; [destruct HI|].
  cbn [flat_map]. rewrite received_app, one_sink_received. cbn [map] in *. inversion ND; subst.
  destruct (Nat.eqb_spec (fst c) f) as [E|E].
  - assert (N : received f (flat_map (one_sink gs tid ty text) fs) = []).
    { clear -H1 E. rewrite E in H1. induction fs as [|d fs IH]; [reflexivity|].
      cbn [flat_map map] in *. rewrite received_app, one_sink_received.
      destruct (Nat.eqb_spec (fst d) f) as [X|X]; [exfalso; apply H1; left; assumption|].
      cbn [app]. apply IH. intros Y. apply H1. right. assumption. }
    rewrite N, app_nil_r. reflexivity.
  - cbn [app]. apply IH; [assumption|]. destruct HI as [HI|HI]; [congruence|assumption].
Qed.
Lemma sink_calls_stranger fs tid ty text f :
  ~ In f (map fst fs) -> received f (sink_calls fs tid ty text) = [].
Proof.
  intros HI. change (sink_calls fs tid ty text) with (flat_map (one_sink fs tid ty text) fs).
  generalize fs at 1 as gs. intros gs. induction fs as [|c fs IH]; [reflexivity|].
  cbn [flat_map map] in *. rewrite received_app, one_sink_received.
  destruct (Nat.eqb_spec (fst c) f) as [E|E]; [exfalso; apply HI; left; assumption|].
  cbn [app]. apply IH. intros Y. apply HI. right. assumption.
Qed.

(** ** Threads *)
Lemma set_thread_nth l i x j : i < length l ->
  nth_error (set_thread l i x) j = if j =? i then Some x else nth_error l j.
Proof.
  intros Hi. unfold set_thread. revert i j Hi.
  induction l as [|y l IH]; intros i j Hi; cbn [length] in Hi; [lia|].
  destruct i as [|i].
  - destruct j; reflexivity.
  - destruct j as [|j]; cbn [firstn app nth_error Nat.eqb skipn]; [reflexivity|]. apply IH. lia.
Qed.

Definition by_thread (i : nat) (l : list (nat * message)) : list message :=
  map snd (filter (fun x => fst x =? i) l).
Lemma by_thread_app i a b : by_thread i (a ++ b) = by_thread i a ++ by_thread i b.
Proof. unfold by_thread. rewrite filter_app, map_app. reflexivity. Qed.

Section Run.
  Variable fs : list sink.
  Variable tid : nat -> option (list Z).
  Variable progs : list (list message).
  Definition msg_calls (x : nat * message) := sink_calls fs (tid (fst x)) (fst (snd x)) (snd (snd x)).

  Record winv (w : world) : Prop := {
    w_len : length (threads w) = length progs;
    w_prog : forall i t p, nth_error (threads w) i = Some t -> nth_error progs i = Some p ->
       p = by_thread i (sent w) ++ todo t;
    w_free : owner w = None -> (forall i t, nth_error (threads w) i = Some t -> emitting t = None) /\
       calls w = concat (map msg_calls (sent w));
    w_held : forall o, owner w = Some o ->
       (forall i t, nth_error (threads w) i = Some t -> emitting t <> None -> i = o) /\
       exists t rem done m, nth_error (threads w) o = Some t /\ emitting t = Some rem /\
         sent w = done ++ [(o, m)] /\
         calls w ++ rem = concat (map msg_calls (sent w)) /\
         exists part, calls w = concat (map msg_calls done) ++ part /\ part ++ rem = msg_calls (o, m);
    w_sent : forall i m, In (i, m) (sent w) -> i < length progs
  }.

  Lemma winv0 : winv (world0 progs).
  Proof.
    constructor; cbn.
    - apply map_length.
    - intros i t p Ht Hp. rewrite nth_error_map, Hp in Ht. inversion Ht. reflexivity.
    - intros _. split; [|reflexivity]. intros i t Ht. rewrite nth_error_map in Ht.
      destruct (nth_error progs i); inversion Ht. reflexivity.
    - discriminate.
    - tauto.
  Qed.

  Lemma winv_step w w' i : winv w -> thread_step fs tid i w = Some w' -> winv w'.
  Proof.
    intros [WL WP WF WH WS] H. unfold thread_step in H.
    destruct (nth_error (threads w) i) as [t|] eqn:Ei; [|discriminate].
    assert (Hi : i < length (threads w)) by (apply nth_error_Some; congruence).
    assert (SL : forall x, length (set_thread (threads w) i x) = length (threads w)).
    { intros x. unfold set_thread. rewrite app_length, firstn_length. cbn [length]. rewrite skipn_length. lia. }
    destruct (emitting t) as [[|c rem]|] eqn:Ee.
    - (* release *)
      inversion H; subst w'; clear H.
      assert (Ho : owner w = Some i).
      { destruct (owner w) as [o|] eqn:Eo.
        - destruct (WH o eq_refl) as [A _]. f_equal. symmetry. apply (A i t Ei). congruence.
        - destruct (WF eq_refl) as [A _]. specialize (A i t Ei). congruence. }
      destruct (WH i Ho) as (A & t' & rem & dn & m & E1 & E2 & E3 & E4 & part & E5 & E6).
      rewrite Ei in E1. inversion E1; subst t'. rewrite Ee in E2. inversion E2; subst rem.
      constructor; cbn [owner threads calls sent].
      + rewrite SL. assumption.
      + intros j u p Hu Hp. rewrite set_thread_nth in Hu by assumption.
        destruct (Nat.eqb_spec j i) as [->|]; [inversion Hu; cbn [todo]|]; eauto.
      + intros _. split; [|rewrite <- E4, app_nil_r; reflexivity].
        intros j u Hu. rewrite set_thread_nth in Hu by assumption.
        destruct (Nat.eqb_spec j i) as [->|Hn]; [inversion Hu; reflexivity|].
        destruct (emitting u) eqn:Eu; [|reflexivity]. exfalso. apply Hn. apply (A j u Hu). congruence.
      + discriminate.
      + assumption.
    - (* one call *)
      inversion H; subst w'; clear H.
      assert (Ho : owner w = Some i).
      { destruct (owner w) as [o|] eqn:Eo.
        - destruct (WH o eq_refl) as [A _]. f_equal. symmetry. apply (A i t Ei). congruence.
        - destruct (WF eq_refl) as [A _]. specialize (A i t Ei). congruence. }
      destruct (WH i Ho) as (A & t' & rem' & dn & m & E1 & E2 & E3 & E4 & part & E5 & E6).
      rewrite Ei in E1. inversion E1; subst t'. rewrite Ee in E2. inversion E2; subst rem'.
      constructor; cbn [owner threads calls sent].
      + rewrite SL. assumption.
      + intros j u p Hu Hp. rewrite set_thread_nth in Hu by assumption.
        destruct (Nat.eqb_spec j i) as [->|]; [inversion Hu; cbn [todo]|]; eauto.
      + congruence.
      + intros o Ho'. assert (o = i) by congruence. subst o. split.
        * intros j u Hu Hn. rewrite set_thread_nth in Hu by assumption.
          destruct (Nat.eqb_spec j i) as [->|]; [reflexivity|eauto].
        * exists (Ts (todo t) (Some rem)), rem, dn, m.
          split; [rewrite set_thread_nth by assumption; rewrite Nat.eqb_refl; reflexivity|].
          split; [reflexivity|]. split; [assumption|].
          split; [rewrite <- app_assoc; exact E4|].
          exists (part ++ [c]). rewrite E5, <- app_assoc. split; [reflexivity|].
          rewrite <- app_assoc. exact E6.
      + assumption.
    - (* lock *)
      destruct (todo t) as [|m r] eqn:Et; [discriminate|].
      destruct (owner w) eqn:Eo; [discriminate|]. inversion H; subst w'; clear H.
      destruct (WF eq_refl) as [A C].
      constructor; cbn [owner threads calls sent].
      + rewrite SL. assumption.
      + intros j u p Hu Hp. rewrite set_thread_nth in Hu by assumption.
        rewrite by_thread_app. unfold by_thread at 2. cbn [filter fst].
        destruct (Nat.eqb_spec j i) as [->|Hn].
        * inversion Hu; subst u. cbn [todo]. rewrite Nat.eqb_refl. cbn [map snd].
          rewrite (WP i t p Ei Hp), Et, <- app_assoc. reflexivity.
        * destruct (Nat.eqb_spec i j); [congruence|]. cbn [map]. rewrite app_nil_r. eauto.
      + discriminate.
      + intros o Ho. inversion Ho; subst o. split.
        * intros j u Hu Hn. rewrite set_thread_nth in Hu by assumption.
          destruct (Nat.eqb_spec j i) as [->|]; [reflexivity|]. exfalso. apply Hn. eapply A; eauto.
        * exists (Ts r (Some (sink_calls fs (tid i) (fst m) (snd m)))), (sink_calls fs (tid i) (fst m) (snd m)), (sent w), m.
          split; [rewrite set_thread_nth by assumption; rewrite Nat.eqb_refl; reflexivity|].
          split; [reflexivity|]. split; [reflexivity|].
          split.
          -- rewrite C, map_app, concat_app. cbn. rewrite app_nil_r. reflexivity.
          -- exists []. rewrite app_nil_r. split; [assumption|reflexivity].
      + intros j m' Hj. apply in_app_or in Hj. destruct Hj as [Hj|[Hj|[]]]; [eauto|].
        inversion Hj; subst. lia.
  Qed.

  Lemma winv_runs w : runs fs tid (world0 progs) w -> winv w.
  Proof. induction 1; [apply winv0|eapply winv_step; eauto]. Qed.

  Lemma received_concat f l :
    NoDup (map fst fs) -> In f (map fst fs) ->
    received f (concat (map msg_calls l)) = concat (map (fun x => rendering (tid (fst x)) (snd x)) l).
  Proof.
    intros ND HI. induction l as [|[i [ty tx]] l IH]; [reflexivity|].
    cbn [map concat]. rewrite received_app, IH. f_equal. apply sink_calls_received; assumption.
  Qed.
  Lemma received_concat_stranger f l :
    ~ In f (map fst fs) -> received f (concat (map msg_calls l)) = [].
  Proof.
    intros HI. induction l as [|[i [ty tx]] l IH]; [reflexivity|].
    cbn [map concat]. rewrite received_app, IH, app_nil_r. apply sink_calls_stranger; assumption.
  Qed.
End Run.
