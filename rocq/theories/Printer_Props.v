(** C25: log messages. *)
From Verif Require Import Base Printer_Model Printer_Spec Printer_Proof.
Local Open Scope nat_scope.

(** What one thread hands to the sinks: exactly the messages it composed, each text cut at
    its first NUL, whatever earlier messages have left in the stream buffer and whether or
    not they exceeded the 2048-byte limit that resets it. *)
Theorem C25_thread_messages : forall ops,
  fst (do_ops fresh_printer ops) = map (fun m => (fst m, Some (snd m))) (messages [] MSG ops).
Proof. intros ops. apply (do_ops_messages ops fresh_printer). unfold stream_ok. cbn. lia. Qed.

(** Any number of threads, any interleaving. At every moment there is one order of
    messages (with the sending thread) such that: each thread's messages appear in it in
    that thread's own order and nothing else does; every registered sink has received
    exactly the renderings of all complete messages in that order, followed by a prefix
    of the one being printed; a function that is not registered has received nothing. *)
Theorem C25_every_moment : forall fs tid progs w,
  NoDup (map fst fs) -> runs fs tid (world0 progs) w ->
  exists (complete current : list (nat * message)),
    length current <= 1 /\
    (forall i p, nth_error progs i = Some p ->
       exists rest, p = by_thread i (complete ++ current) ++ rest) /\
    (forall i m, In (i, m) (complete ++ current) -> i < length progs) /\
    (forall f, In f (map fst fs) -> exists part unsent,
       received f (calls w) = concat (map (fun x => rendering (tid (fst x)) (snd x)) complete) ++ part /\
       part ++ unsent = concat (map (fun x => rendering (tid (fst x)) (snd x)) current)) /\
    (forall f, ~ In f (map fst fs) -> received f (calls w) = []).
Proof.
  intros fs tid progs w ND H. pose proof (winv_runs _ _ _ _ H) as I.
  assert (PR : forall i p, nth_error progs i = Some p -> exists rest, p = by_thread i (sent w) ++ rest).
  { intros i p Hp. destruct (nth_error (threads w) i) as [t|] eqn:Et.
    - exists (todo t). eapply w_prog; eauto.
    - apply nth_error_None in Et. rewrite (w_len _ _ _ _ I) in Et.
      assert (i < length progs) by (apply nth_error_Some; congruence). lia. }
  destruct (owner w) as [o|] eqn:Eo.
  - destruct (w_held _ _ _ _ I o Eo) as (A & t & rem & dn & m & E1 & E2 & E3 & E4 & part & E5 & E6).
    exists dn, [(o, m)]. rewrite <- E3. split; [cbn; lia|]. split; [assumption|].
    split; [apply I|]. split.
    + intros f Hf. exists (received f part), (received f rem). rewrite E5, received_app, received_concat by assumption.
      split; [reflexivity|]. rewrite <- received_app, E6. cbn [map concat]. rewrite app_nil_r.
      destruct m as [ty tx]. unfold msg_calls. cbn [fst snd]. apply sink_calls_received; assumption.
    + intros f Hf. rewrite E5, received_app, received_concat_stranger by assumption. cbn [app].
      assert (X : received f (part ++ rem) = []).
      { rewrite E6. destruct m as [ty tx]. apply sink_calls_stranger; assumption. }
      rewrite received_app in X. apply app_eq_nil in X. apply X.
  - destruct (w_free _ _ _ _ I Eo) as [A C].
    exists (sent w), []. rewrite app_nil_r. split; [cbn; lia|]. split; [assumption|].
    split; [apply I|]. rewrite C. split.
    + intros f Hf. exists [], []. rewrite received_concat by assumption. rewrite app_nil_r. auto.
    + intros f Hf. apply received_concat_stranger; assumption.
Qed.

Definition all_sent (w : world) : Prop :=
  forall i t, nth_error (threads w) i = Some t -> todo t = [] /\ emitting t = None.

(** When all threads are through, every registered sink has received every message of
    every thread exactly once, whole, and all sinks in the same order. *)
Theorem C25_at_the_end : forall fs tid progs w,
  NoDup (map fst fs) -> runs fs tid (world0 progs) w -> all_sent w ->
  exists order : list (nat * message),
    (forall i p, nth_error progs i = Some p -> by_thread i order = p) /\
    (forall i m, In (i, m) order -> i < length progs) /\
    forall f, In f (map fst fs) ->
      received f (calls w) = concat (map (fun x => rendering (tid (fst x)) (snd x)) order).
Proof.
  intros fs tid progs w ND H Hall. pose proof (winv_runs _ _ _ _ H) as I.
  assert (Eo : owner w = None).
  { destruct (owner w) as [o|] eqn:Eo; [|reflexivity].
    destruct (w_held _ _ _ _ I o Eo) as (A & t & rem & dn & m & E1 & E2 & _).
    destruct (Hall o t E1). congruence. }
  destruct (w_free _ _ _ _ I Eo) as [A C].
  exists (sent w). split; [|split; [apply I|]].
  - intros i p Hp. destruct (nth_error (threads w) i) as [t|] eqn:Et.
    + pose proof (w_prog _ _ _ _ I i t p Et Hp) as E. destruct (Hall i t Et) as [E0 _].
      rewrite E0, app_nil_r in E. congruence.
    + apply nth_error_None in Et. rewrite (w_len _ _ _ _ I) in Et.
      assert (i < length progs) by (apply nth_error_Some; congruence). lia.
  - intros f Hf. rewrite C. apply received_concat; assumption.
Qed.

(** The lock never wedges: unless all threads are through, one of them can go on. *)
Theorem C25_no_deadlock : forall fs tid progs w,
  runs fs tid (world0 progs) w -> ~ all_sent w -> exists i w', thread_step fs tid i w = Some w'.
Proof.
  intros fs tid progs w H Hn. pose proof (winv_runs _ _ _ _ H) as I.
  destruct (owner w) as [o|] eqn:Eo.
  - destruct (w_held _ _ _ _ I o Eo) as (A & t & rem & dn & m & E1 & E2 & _).
    exists o. unfold thread_step. rewrite E1, E2. destruct rem; eauto.
  - destruct (w_free _ _ _ _ I Eo) as [A _].
    assert (X : existsb (fun t => match todo t with [] => false | _ => true end) (threads w) = true).
    { destruct (existsb _ (threads w)) eqn:Ex; [reflexivity|]. exfalso. apply Hn. intros i t Ht.
      split; [|eauto]. destruct (todo t) eqn:Et; [reflexivity|]. rewrite <- not_true_iff_false in Ex.
      exfalso. apply Ex. apply existsb_exists. exists t. split; [eapply nth_error_In; eauto|]. rewrite Et. reflexivity. }
    apply existsb_exists in X. destruct X as (t & Ht & Et). apply In_nth_error in Ht. destruct Ht as [i Hi].
    exists i. unfold thread_step. rewrite Hi, (A i t Hi), Eo. destruct (todo t); [discriminate|]. eauto.
Qed.

(** Registration: a function is in the list at most once however often it is added, in
    the order of first registration, and with the colour setting given first. *)
Theorem C25_registration : forall l,
  NoDup (map fst (fold_left (fun fs c => add_sink fs (fst c) (snd c)) l [])) /\
  forall f, In f (map fst l) <-> In f (map fst (fold_left (fun fs c => add_sink fs (fst c) (snd c)) l [])).
Proof.
  intros l. assert (G : forall l fs, NoDup (map fst fs) ->
    NoDup (map fst (fold_left (fun fs c => add_sink fs (fst c) (snd c)) l fs)) /\
    forall f, In f (map fst fs) \/ In f (map fst l) <->
              In f (map fst (fold_left (fun fs c => add_sink fs (fst c) (snd c)) l fs))).
  { clear l. induction l as [|c l IH]; intros fs ND; cbn [fold_left].
    - split; [assumption|]. intros f. cbn. tauto.
    - destruct (IH (add_sink fs (fst c) (snd c)) (add_sink_nodup _ _ _ ND)) as [A B].
      split; [assumption|]. intros f. rewrite <- B. cbn [map].
      assert (X : In f (map fst (add_sink fs (fst c) (snd c))) <-> In f (map fst fs) \/ f = fst c).
      { unfold add_sink. destruct (existsb _ fs) eqn:E.
        - split; [auto|]. intros [?| ->]; [assumption|]. apply existsb_exists in E.
          destruct E as (x & Hx & E). apply Nat.eqb_eq in E. rewrite <- E. apply in_map. assumption.
        - rewrite map_app, in_app_iff. cbn. split; [intros [?|[?|[]]]; auto|intros [?| ->]; auto]. }
      rewrite X. cbn. split; intuition auto. }
  destruct (G l [] ltac:(constructor)) as [A B]. split; [assumption|]. intros f. rewrite <- B. cbn. tauto.
Qed.
Theorem C25_register_twice : forall fs f c c',
  add_sink (add_sink fs f c) f c' = add_sink fs f c.
Proof.
  intros fs f c c'. unfold add_sink at 1.
  assert (X : existsb (fun x => fst x =? f) (add_sink fs f c) = true).
  { unfold add_sink. destruct (existsb (fun x => fst x =? f) fs) eqn:E; [assumption|].
    rewrite existsb_app. cbn. rewrite Nat.eqb_refl. apply orb_true_r. }
  rewrite X. reflexivity.
Qed.

(** Colour escape sequences are not confined to the sink being printed to: the first of
    two colour sinks gets a second escape/restore pair after its own line. *)
Theorem C25_colour_broadcast_refuted : forall text,
  map snd (filter (fun c => fst c =? 1) (sink_calls [(1, true); (2, true)] None WRN text)) =
  [Color 255 255 0; Str s_warning; Str text; Restore; Color 255 255 0; Restore].
Proof. reflexivity. Qed.

(** In general: with k colour sinks, every one of them gets the colour of a warning or an error and the end of the colour k times each; other sinks,
    and ordinary messages, get none. *)
Theorem C25_colour_count_refuted : forall fs tid ty text f c, NoDup (map fst fs) -> In (f, c) fs ->
  let got := map snd (filter (fun x => fst x =? f) (sink_calls fs tid ty text)) in
  let k := if c then length (filter snd fs) else 0 in
  let colours := filter (fun p => match p with Color _ _ _ => true | _ => false end) got in
  let ends := filter (fun p => match p with Restore => true | _ => false end) got in
  match ty with
  | WRN => colours = repeat (Color 255 255 0) k /\ ends = repeat Restore k
  | ERR => colours = repeat (Color 255 0 0) k /\ ends = repeat Restore k
  | MSG => colours = [] /\ ends = []
  | _ => colours = [] /\ ends = repeat Restore k
  end.
Proof.
  intros fs tid ty text f c ND HI got k colours ends.
  assert (B : forall p, filter (fun x : nat * payload => fst x =? f) (broadcast fs p) = if c then [(f, p)] else []).
  { intros p. unfold broadcast. clear got k colours ends. induction fs as [|[g d] fs IH]; [destruct HI|]. cbn [map fst] in ND. inversion ND as [|? ? N1 N2]. subst.
    assert (Nf : ~ In f (map fst fs) -> filter (fun x : nat * payload => fst x =? f) (map (fun c => (fst c, p)) (filter snd fs)) = []).
    { clear. induction fs as [|[g d] fs IH]; [reflexivity|]. intros N. cbn [map fst In] in N. cbn [filter snd]. destruct d; cbn [map filter fst].
      - destruct (Nat.eqb_spec g f); [tauto|]. apply IH. tauto.
      - apply IH. tauto. }
    destruct HI as [E|HI].
    - injection E as -> ->. cbn [filter snd]. destruct c; cbn [map filter fst]; [rewrite Nat.eqb_refl|]; rewrite Nf by exact N1; reflexivity.
    - assert (g <> f) by (intros ->; apply N1, in_map_iff; exists (f, c); auto).
      cbn [filter snd]. destruct d; cbn [map filter fst]; [destruct (Nat.eqb_spec g f); [contradiction|]|]; apply IH; assumption. }
  assert (G : forall Q : payload -> bool, (forall s, Q (Str s) = false) ->
    filter Q got = concat (repeat ((match ty with WRN => if c then filter Q [Color 255 255 0] else [] | ERR => if c then filter Q [Color 255 0 0] else [] | _ => [] end)
       ++ (match ty with MSG => [] | _ => if c then filter Q [Restore] else [] end)) (length (filter snd fs)))).
  { intros Q HQ. unfold got, sink_calls. clear colours ends got k HI ND. match goal with |- filter Q (map snd (filter ?P (flat_map ?F fs))) = concat (repeat ?E (length (filter snd fs))) => enough (K : forall gs, filter Q (map snd (filter P (flat_map F gs))) = concat (repeat E (length (filter snd gs)))) by apply K end.
    intros gs. induction gs as [|[g d] gs IH]; [reflexivity|]. cbn [flat_map filter snd fst]. rewrite filter_app, map_app, filter_app, IH. clear IH.
    match goal with |- ?X ++ ?Y = ?Z => enough (E : X = if d then (match ty with WRN => if c then filter Q [Color 255 255 0] else [] | ERR => if c then filter Q [Color 255 0 0] else [] | _ => [] end)
       ++ (match ty with MSG => [] | _ => if c then filter Q [Restore] else [] end) else []) by (rewrite E; destruct d; cbn [length repeat concat]; reflexivity) end.
    rewrite !filter_app, !map_app, !filter_app.
    assert (S1 : forall l : list (nat * payload), Forall (fun x => exists s, snd x = Str s) l -> filter Q (map snd (filter (fun x => fst x =? f) l)) = []).
    { induction 1 as [|[h p] l [s E] _ IH]; [reflexivity|]. cbn [filter fst]. destruct (h =? f); [|exact IH]. cbn [map snd filter]. cbn [snd] in E. rewrite E, HQ. exact IH. }
    rewrite (S1 (match tid with Some _ => _ | None => _ end)) by (destruct tid; repeat (apply Forall_cons; [eexists; reflexivity|]); constructor).
    rewrite (S1 (match ty with WRN => [(g, Str s_warning)] | _ => _ end)) by (destruct ty; repeat (apply Forall_cons; [eexists; reflexivity|]); constructor).
    rewrite (S1 [(g, Str text)]) by (repeat (apply Forall_cons; [eexists; reflexivity|]); constructor).
    cbn [app]. destruct d; [|reflexivity]. destruct ty; cbn [app]; rewrite ?B; destruct c; reflexivity. }
  assert (R : forall (p : payload) n, concat (repeat [p] n) = repeat p n) by (intros p n; induction n as [|n IH]; [reflexivity|]; cbn [repeat concat app]; rewrite IH; reflexivity).
  assert (R0 : forall n, concat (repeat (@nil payload) n) = []) by (intros n; induction n as [|n IH]; [reflexivity|]; cbn [repeat concat app]; exact IH).
  unfold colours, ends. rewrite !G by reflexivity. unfold k. destruct ty, c; cbn [filter app]; rewrite ?R, ?R0; auto.
Qed.
Print Assumptions C25_colour_count_refuted.

(** FlushAll is public; called without [>>] it hands over a text with no terminator. *)
Theorem C25_bare_flush_refuted :
  snd (fst (flush_all (snd (do_ops fresh_printer [OText [104; 105]%Z])))) = None.
Proof. reflexivity. Qed.

(** Two threads, three sinks, thread ids on; a long first message. *)
Example C25_example :
  let fs := [(7, true); (8, false); (9, true)] in
  let tid i := Some [Z.of_nat i] in
  exists w, runs fs tid (world0 [[(ERR, [1%Z]); (MSG, [2%Z])]; [(WRN, [3%Z])]]) w /\ all_sent w /\
    received 8 (calls w) =
      [thread_open; [0%Z]; thread_close; s_error; [1%Z];
       thread_open; [1%Z]; thread_close; s_warning; [3%Z];
       thread_open; [0%Z]; thread_close; [2%Z]].
Proof.
  intros fs tid.
  set (go := fun w i => match w with Some w => thread_step fs tid i w | None => None end).
  destruct (fold_left go (repeat 0 25 ++ repeat 1 25 ++ repeat 0 14)
     (Some (world0 [[(ERR, [1%Z]); (MSG, [2%Z])]; [(WRN, [3%Z])]]))) as [w|] eqn:E.
  2: { vm_compute in E. discriminate. }
  exists w. split.
  - clear -E. revert w E. generalize (repeat 0 25 ++ repeat 1 25 ++ repeat 0 14) as l.
    induction l as [|i l IH] using rev_ind; intros w; cbn [fold_left].
    + intros E. inversion E. constructor.
    + rewrite fold_left_app. cbn [fold_left]. destruct (fold_left go l _) as [w1|]; [|discriminate].
      intros E. econstructor; [apply IH; reflexivity|exact E].
  - vm_compute in E. inversion E. split; [|reflexivity].
    intros [|[|[|i]]] t H; cbn in H; inversion H; split; reflexivity.
Qed.
Example C25_long_then_short :
  fst (do_ops fresh_printer [OType WRN; OText (repeat 65%Z 3000); OEnd true; OText [66%Z]; OEnd false]) =
  [(WRN, Some (repeat 65%Z 3000 ++ [10%Z])); (MSG, Some [66%Z])].
Proof. vm_compute. reflexivity. Qed.

Print Assumptions C25_thread_messages.
Print Assumptions C25_every_moment.
Print Assumptions C25_at_the_end.
Print Assumptions C25_no_deadlock.
Print Assumptions C25_registration.
Print Assumptions C25_register_twice.
Print Assumptions C25_colour_broadcast_refuted.
Print Assumptions C25_bare_flush_refuted.
