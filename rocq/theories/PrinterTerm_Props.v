(** C25 and C82: what terminals show of the messages of a log, whatever other printers there are. *)
From Coq Require Import Strings.Ascii Strings.String.
From Verif Require Import Base Flags_Model Reflector_Model Errors_Spec Errors_Props VecText_Props Console_Model Console_Spec Console_Props ConsoleTerm_Spec ConsoleTerm_Props
  Printer_Model Printer_Spec Printer_Proof Printer_Props.
Local Open Scope nat_scope.
Local Open Scope list_scope.

(** The bytes a print function is called with: master_printer_ix.inl:18-27. *)
Definition bytes_of (p : payload) : list Z :=
  match p with Str s => s | Color r g b => match set_ix r g b with Some t => t | None => [] end | Restore => restore_ix end.
(** Everything sink [f] got, in order. *)
Definition sent_to (f : nat) (calls : list (nat * payload)) : list Z :=
  flat_map (fun c => if fst c =? f then bytes_of (snd c) else []) calls.

(** A message on the screen: the thread's number in the standard colour; then a warning in yellow and an error in red if the printer takes colours. *)
Definition in_shade (s : shade) (t : list Z) : list (Z * shade) := map (fun c => (c, s)) t.
Definition shown (coloured : bool) (tid : option (list Z)) (m : message) : list (Z * shade) :=
  (match tid with Some id => in_shade Standard (chars "Thread[0x" ++ id ++ chars "] ") | None => [] end) ++
  match fst m with
  | WRN => in_shade (if coloured then Direct 255 255 0 else Standard) (chars "WARNING: " ++ snd m)
  | ERR => in_shade (if coloured then Direct 255 0 0 else Standard) (chars "ERROR: " ++ snd m)
  | _ => in_shade Standard (snd m)
  end.
Definition plain (t : list Z) : Prop := Forall (fun c => c <> 27%Z) t.
Definition cleared : terminal := Terminal Ground Standard [].

Lemma sent_app f a b : sent_to f (a ++ b) = sent_to f a ++ sent_to f b.
Proof. unfold sent_to. apply flat_map_app. Qed.
Lemma sent_other f g l : g <> f -> sent_to f (map (fun p => (g, p)) l) = [].
Proof.
  intros N. induction l as [|p l IH]; [reflexivity|]. cbn. destruct (Nat.eqb_spec g f); [contradiction|exact IH].
Qed.
Lemma sent_broadcast fs f c p : NoDup (map fst fs) -> In (f, c) fs -> sent_to f (broadcast fs p) = if c then bytes_of p else [].
Proof.
  unfold broadcast, sent_to. induction fs as [|[g d] fs IH]; [intros _ []|]. intros ND HI. cbn [map fst] in ND. inversion ND as [|? ? N1 N2]. subst.
  assert (Nf : forall fs, ~ In f (map fst fs) -> flat_map (fun c : nat * payload => if fst c =? f then bytes_of (snd c) else []) (map (fun c : sink => (fst c, p)) (filter snd fs)) = []).
  { clear. induction fs as [|[g d] fs IH]; [reflexivity|]. intros N. cbn [map fst In] in N. cbn [filter snd]. destruct d; cbn [map flat_map fst].
    - destruct (Nat.eqb_spec g f); [tauto|]. apply IH. tauto.
    - apply IH. tauto. }
  destruct HI as [E|HI].
  - injection E as -> ->. cbn [filter snd]. destruct c; cbn [map flat_map fst snd]; [rewrite Nat.eqb_refl|]; rewrite Nf by exact N1; [apply app_nil_r|reflexivity].
  - assert (g <> f) by (intros ->; apply N1, in_map_iff; exists (f, c); auto).
    cbn [filter snd]. destruct d; cbn [map flat_map fst]; [destruct (Nat.eqb_spec g f); [contradiction|]|]; apply IH; assumption.
Qed.
Lemma feed_plain t i s : plain t -> feed t (Terminal Ground i s) = Terminal Ground i (s ++ in_shade i t).
Proof. intros P. apply feed_text, P. Qed.
Lemma shade_app i a b : in_shade i (a ++ b) = in_shade i a ++ in_shade i b.
Proof. apply map_app. Qed.
Lemma feed_colour r g b i s : component r -> component g -> component b -> feed (bytes_of (Color r g b)) (Terminal Ground i s) = Terminal Ground (Direct r g b) s.
Proof.
  intros R G B. cbn [bytes_of]. rewrite set_fits by assumption. unfold component in *. rewrite feed_escape by (unfold is_int; lia).
  destruct (Z.leb_spec r 255); [|lia]. destruct (Z.leb_spec g 255); [|lia]. destruct (Z.leb_spec b 255); [|lia]. reflexivity.
Qed.
Lemma feed_restore i s : feed (bytes_of Restore) (Terminal Ground i s) = Terminal Ground Standard s.
Proof. reflexivity. Qed.
Lemma feed_nil t : feed [] t = t.
Proof. reflexivity. Qed.
Lemma plain_chars : plain thread_open /\ plain thread_close /\ plain s_warning /\ plain s_error.
Proof. unfold plain. repeat split; repeat (apply Forall_cons; [discriminate|]); constructor. Qed.
Lemma comp255 : component 255 /\ component 0.
Proof. unfold component. lia. Qed.

Lemma one_message fs tid ty text f c : NoDup (map fst fs) -> In (f, c) fs -> (forall id, tid = Some id -> plain id) -> plain text -> forall s,
  feed (sent_to f (sink_calls fs tid ty text)) (Terminal Ground Standard s) = Terminal Ground Standard (s ++ shown c tid (ty, text)).
Proof.
  intros ND HI Pid Pt. unfold sink_calls.
  match goal with |- forall s, feed (sent_to f (flat_map ?F fs)) _ = _ =>
    enough (K : forall gs, NoDup (map fst gs) -> (forall d, In (f, d) gs -> d = c) -> forall s, feed (sent_to f (flat_map F gs)) (Terminal Ground Standard s) =
      Terminal Ground Standard (s ++ if existsb (fun x => fst x =? f) gs then shown c tid (ty, text) else [])) end.
  { intros s. rewrite K.
    - destruct (existsb (fun x => fst x =? f) fs) eqn:E; [reflexivity|]. exfalso.
      assert (X : existsb (fun x : sink => fst x =? f) fs = true) by (apply existsb_exists; exists (f, c); split; [assumption|apply Nat.eqb_refl]). exact (Bool.diff_true_false (eq_trans (eq_sym X) E)).
    - assumption.
    - intros d D. clear -ND HI D. induction fs as [|[g e] fs IH]; [destruct HI|]. cbn [map fst] in ND. inversion ND as [|? ? N1 N2]. subst.
      destruct HI as [E1|HI], D as [E2|D]; try congruence.
      + injection E1 as -> ->. exfalso. apply N1, in_map_iff. exists (f, d). auto.
      + injection E2 as -> ->. exfalso. apply N1, in_map_iff. exists (f, c). auto.
      + apply IH; assumption. }
  destruct plain_chars as (P1 & P2 & P3 & P4). destruct comp255 as [C1 C0].
  assert (B : forall p, sent_to f (broadcast fs p) = if c then bytes_of p else []) by (intros p; apply sent_broadcast; assumption).
  induction gs as [|[g d] gs IH]; intros NG HG s; [cbn; rewrite app_nil_r; reflexivity|].
  cbn [map fst] in NG. inversion NG as [|? ? N1 N2]. subst. cbn [flat_map existsb fst snd]. rewrite sent_app, feed_app.
  assert (HG' : forall e, In (f, e) gs -> e = c) by (intros e E; apply HG; right; exact E).
  destruct (Nat.eqb_spec g f) as [->|N].
  - assert (d = c) by (apply HG; left; reflexivity). subst d. cbn [orb].
    assert (X : existsb (fun x : nat * bool => fst x =? f) gs = false).
    { destruct (existsb (fun x : nat * bool => fst x =? f) gs) eqn:E; [|reflexivity]. exfalso. apply existsb_exists in E. destruct E as [[h e] [E1 E2]]. apply Nat.eqb_eq in E2. cbn in E2. subst h.
      apply N1, in_map_iff. exists (f, e). auto. }
    specialize (IH N2 HG'). rewrite X in IH. 
    match goal with |- feed _ (feed ?T _) = _ => enough (M : feed T (Terminal Ground Standard s) = Terminal Ground Standard (s ++ shown c tid (ty, text)));
      [rewrite M, IH, app_nil_r; reflexivity|] end.
    assert (S1 : forall x, sent_to f [(f, Str x)] = x) by (intros x; cbn; rewrite Nat.eqb_refl, app_nil_r; reflexivity).
    assert (S3 : forall x y z, sent_to f [(f, Str x); (f, Str y); (f, Str z)] = x ++ y ++ z) by (intros x y z; cbn; rewrite Nat.eqb_refl, app_nil_r; reflexivity).
    assert (S0 : sent_to f [] = []) by reflexivity.
    rewrite !sent_app, !feed_app, S1.
    assert (T : feed (sent_to f (match tid with Some id => [(f, Str thread_open); (f, Str id); (f, Str thread_close)] | None => [] end)) (Terminal Ground Standard s) =
      Terminal Ground Standard (s ++ match tid with Some id => in_shade Standard (chars "Thread[0x" ++ id ++ chars "] ") | None => [] end)).
    { destruct tid as [id|]; [|rewrite S0, app_nil_r; reflexivity]. rewrite S3. rewrite feed_plain; [reflexivity|].
      unfold plain in *. apply Forall_app. split; [exact P1|]. apply Forall_app. split; [apply Pid; reflexivity|exact P2]. }
    rewrite T. clear T. unfold shown. cbn [fst snd].
    set (s' := s ++ match tid with Some id => _ | None => _ end). rewrite app_assoc. fold s'. clearbody s'.
    destruct ty, c; cbn [app]; rewrite ?S0, ?S1, ?B; repeat (first [rewrite feed_nil | rewrite feed_colour by assumption | rewrite feed_restore | rewrite feed_plain by assumption]);
      rewrite ?shade_app, ?app_assoc; reflexivity.
  - cbn [orb]. match goal with |- feed _ (feed ?T _) = _ => enough (M : feed T (Terminal Ground Standard s) = Terminal Ground Standard s); [rewrite M; apply IH; assumption|] end.
    assert (S1 : forall x, sent_to f [(g, Str x)] = []) by (intros x; cbn; destruct (Nat.eqb_spec g f); [contradiction|reflexivity]).
    assert (S0 : sent_to f [] = []) by reflexivity.
    assert (S3 : sent_to f (match tid with Some id => [(g, Str thread_open); (g, Str id); (g, Str thread_close)] | None => [] end) = []).
    { destruct tid; [|reflexivity]. cbn. destruct (Nat.eqb_spec g f); [contradiction|reflexivity]. }
    rewrite !sent_app, !feed_app, S3, S1.
    destruct ty, d, c; cbn [app]; rewrite ?S0, ?S1, ?B; repeat (first [rewrite feed_nil | rewrite feed_colour by assumption | rewrite feed_restore | rewrite feed_plain by assumption]); reflexivity.
Qed.

(** Whatever printers there are and however the threads' messages interleave, at the end each printer that is a terminal shows the messages of all threads,
    each whole, in one order common to all printers: warnings in yellow and errors in red where colours are wanted, everything else in the standard colour. *)
Theorem C82_log_on_terminals : forall fs tid progs w,
  NoDup (map fst fs) -> runs fs tid (world0 progs) w -> all_sent w ->
  (forall i id, tid i = Some id -> plain id) -> Forall (Forall (fun m => plain (snd m))) progs ->
  exists order : list (nat * message),
    (forall i p, nth_error progs i = Some p -> by_thread i order = p) /\
    (forall i m, In (i, m) order -> i < List.length progs) /\
    forall f c, In (f, c) fs ->
      feed (sent_to f (calls w)) cleared = Terminal Ground Standard (concat (map (fun x => shown c (tid (fst x)) (snd x)) order)).
Proof.
  intros fs tid progs w ND H Hall Pid Pm. pose proof (winv_runs _ _ _ _ H) as I.
  assert (Eo : owner w = None).
  { destruct (owner w) as [o|] eqn:Eo; [|reflexivity].
    destruct (w_held _ _ _ _ I o Eo) as (A & t & rem & dn & m & E1 & E2 & _).
    destruct (Hall o t E1). congruence. }
  destruct (w_free _ _ _ _ I Eo) as [A C].
  assert (W : forall i p, nth_error progs i = Some p -> by_thread i (sent w) = p).
  { intros i p Hp. destruct (nth_error (threads w) i) as [t|] eqn:Et.
    - pose proof (w_prog _ _ _ _ I i t p Et Hp) as E. destruct (Hall i t Et) as [E0 _].
      rewrite E0, app_nil_r in E. congruence.
    - apply nth_error_None in Et. rewrite (w_len _ _ _ _ I) in Et.
      assert (i < List.length progs) by (apply nth_error_Some; congruence). lia. }
  exists (sent w). split; [exact W|]. split; [apply I|]. intros f c HI. rewrite C.
  assert (P : Forall (fun x : nat * message => plain (snd (snd x))) (sent w)).
  { apply Forall_forall. intros [i m] HM. assert (L : i < List.length progs) by (eapply (w_sent _ _ _ _ I); exact HM).
    destruct (nth_error progs i) as [p|] eqn:Ep; [|apply nth_error_None in Ep; lia].
    pose proof (W i p Ep) as E. rewrite Forall_forall in Pm. specialize (Pm p (nth_error_In _ _ Ep)). rewrite Forall_forall in Pm. apply Pm. rewrite <- E.
    unfold by_thread. apply in_map_iff. exists (i, m). split; [reflexivity|]. apply filter_In. split; [assumption|]. cbn. apply Nat.eqb_refl. }
  unfold cleared. clear C A W I. revert P. generalize (sent w). intros l.
  enough (K : Forall (fun x : nat * message => plain (snd (snd x))) l -> forall s, feed (sent_to f (concat (map (msg_calls fs tid) l))) (Terminal Ground Standard s) =
     Terminal Ground Standard (s ++ concat (map (fun x => shown c (tid (fst x)) (snd x)) l))) by (intros P; apply (K P [])).
  induction 1 as [|[i [ty tx]] l P _ IH]; intros s; [cbn; rewrite app_nil_r; reflexivity|].
  cbn [map concat]. rewrite sent_app, feed_app. change (msg_calls fs tid (i, (ty, tx))) with (sink_calls fs (tid i) ty tx). cbn [fst snd]. rewrite (one_message fs (tid i) ty tx f c); [|assumption|assumption|apply Pid|exact P].
  rewrite IH, app_assoc. reflexivity.
Qed.
Print Assumptions C82_log_on_terminals.

(** Two terminals, one of which takes colours, a warning and an ordinary message. *)
Example C82_log_nonvacuous :
  NoDup (map fst [(1, true); (2, false); (3, true)]) /\ plain (chars "2A") /\ plain (chars "low") /\
  feed (sent_to 1 (sink_calls [(1, true); (2, false); (3, true)] (Some (chars "2A")) WRN (chars "low"))) cleared =
    Terminal Ground Standard (in_shade Standard (chars "Thread[0x2A] ") ++ in_shade (Direct 255 255 0) (chars "WARNING: low")) /\
  feed (sent_to 2 (sink_calls [(1, true); (2, false); (3, true)] None WRN (chars "low"))) cleared =
    Terminal Ground Standard (in_shade Standard (chars "WARNING: low")).
Proof.
  split; [repeat constructor; cbn; intuition discriminate|]. unfold plain. split; [repeat (apply Forall_cons; [discriminate|]); constructor|].
  split; [repeat (apply Forall_cons; [discriminate|]); constructor|]. split; vm_compute; reflexivity.
Qed.
