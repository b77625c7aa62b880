(** C82: what a terminal does with the sequences sent. *)
From Verif Require Import Base Flags_Model Reflector_Model Errors_Spec Errors_Props VecText_Props Console_Model Console_Spec Console_Props ConsoleTerm_Spec.

Lemma feed_app a b t : feed (a ++ b) t = feed b (feed a t).
Proof. unfold feed. apply fold_left_app. Qed.
Lemma feed_digits ds : Forall (fun d => 0 <= d < 10) ds -> forall ps n i s,
  feed (map digit_char ds) (Terminal (Params ps n) i s) = Terminal (Params ps (fold_left (fun a d => a * 10 + d) ds n)) i s.
Proof.
  induction 1 as [|d ds D _ IH]; intros ps n i s; [reflexivity|]. unfold feed in *. cbn [map fold_left].
  unfold receive at 2. cbn [at_ ink screen]. unfold digit_char at 2 3 4. destruct (Z.ltb_spec d 10); [|lia].
  destruct (Z.leb_spec 48 (48 + d)); [|lia]. destruct (Z.leb_spec (48 + d) 57); [|lia]. cbn [andb].
  rewrite IH. do 3 f_equal. lia.
Qed.
Lemma feed_number x : 0 <= x -> is_int x -> forall ps i s, feed (to_string x) (Terminal (Params ps 0) i s) = Terminal (Params ps x) i s.
Proof.
  intros X I ps i s. destruct (decimal_to_string x I) as [[_ (ds & -> & F & _ & _ & E)]|[N _]]; [|lia].
  rewrite feed_digits by assumption. rewrite E. reflexivity.
Qed.
Lemma feed_ignoring text i s : Forall (fun c => c < 64) text -> feed text (Terminal Ignoring i s) = Terminal Ignoring i s.
Proof.
  induction 1 as [|c text C _ IH]; [reflexivity|]. unfold feed in *. cbn [fold_left]. unfold receive at 2. cbn [at_].
  destruct (Z.leb_spec 64 c); [lia|]. cbn [andb]. exact IH.
Qed.
Lemma to_string_low x : Forall (fun c => c < 64) (to_string x).
Proof.
  unfold to_string. destruct (Z.ltb_spec x 0); [constructor; [lia|]|]; (eapply Forall_impl; [|apply dec_chars; lia]); cbn; intros; lia.
Qed.
Lemma feed_negative x : x < 0 -> is_int x -> forall ps i s, feed (to_string x) (Terminal (Params ps 0) i s) = Terminal Ignoring i s.
Proof.
  intros X I ps i s. unfold to_string. destruct (Z.ltb_spec x 0); [|lia].
  remember (dec_digits 20 (- x)) as D eqn:ED. unfold feed. cbn [fold_left]. unfold receive at 2. cbn.
  change (feed D (Terminal Ignoring i s) = Terminal Ignoring i s). subst D. apply feed_ignoring. (eapply Forall_impl; [|apply dec_chars; lia]); cbn; intros; lia.
Qed.
Lemma feed_text text i : Forall (fun c => c <> 27) text -> forall s, feed text (Terminal Ground i s) = Terminal Ground i (s ++ map (fun c => (c, i)) text).
Proof.
  induction 1 as [|c text C _ IH]; intros s; [cbn; rewrite app_nil_r; reflexivity|]. unfold feed in *. cbn [fold_left map]. unfold receive at 2. cbn [at_ ink screen].
  destruct (Z.eqb_spec c 27); [contradiction|]. rewrite IH. rewrite <- app_assoc. reflexivity.
Qed.
Lemma set_fits r g b : component r -> component g -> component b -> set_ix r g b = Some (escape r g b).
Proof.
  intros R G B. unfold set_ix. destruct (S _ <=? _)%nat eqn:E; [reflexivity|]. exfalso. apply Nat.leb_gt in E. unfold buffer_size, escape in E.
  rewrite !app_length in E. cbn [length] in E.
  assert (L : forall x, component x -> (length (to_string x) <= 3)%nat).
  { intros x X. unfold component in X. unfold to_string. destruct (Z.ltb_spec x 0); [lia|]. apply dec_len; [lia|]. change (10 ^ Z.of_nat 3) with 1000. lia. }
  pose proof (L r R). pose proof (L g G). pose proof (L b B). lia.
Qed.
Lemma feed_escape r g b i s : 0 <= r -> is_int r -> 0 <= g -> is_int g -> 0 <= b -> is_int b ->
  feed (escape r g b) (Terminal Ground i s) = Terminal Ground (if (r <=? 255) && (g <=? 255) && (b <=? 255) then Direct r g b else i) s.
Proof.
  intros. unfold escape. rewrite feed_app.
  replace (feed [27; 91; 51; 56; 59; 50; 59] (Terminal Ground i s)) with (Terminal (Params [2; 38] 0) i s) by reflexivity.
  rewrite feed_app, feed_number by assumption. rewrite feed_app.
  replace (feed [59] (Terminal (Params [2; 38] r) i s)) with (Terminal (Params [r; 2; 38] 0) i s) by reflexivity.
  rewrite feed_app, feed_number by assumption. rewrite feed_app.
  replace (feed [59] (Terminal (Params [r; 2; 38] g) i s)) with (Terminal (Params [g; r; 2; 38] 0) i s) by reflexivity.
  rewrite feed_app, feed_number by assumption. reflexivity.
Qed.

(** Text printed between setting a colour and restoring appears in that colour, whatever colour it was before, and nothing else appears;
    afterwards the colour is the standard one. *)
Theorem C82_terminal : forall r g b text t, component r -> component g -> component b -> at_ t = Ground -> Forall (fun c => c <> 27) text ->
  exists seq, set_ix r g b = Some seq /\
    feed (seq ++ text ++ restore_ix) t = Terminal Ground Standard (screen t ++ map (fun c => (c, Direct r g b)) text).
Proof.
  intros r g b text [a i s] R G B A F. cbn in A. subst a. exists (escape r g b). split; [apply set_fits; assumption|].
  unfold component in *. rewrite !feed_app. rewrite feed_escape by (unfold is_int; lia).
  destruct (Z.leb_spec r 255); [|lia]. destruct (Z.leb_spec g 255); [|lia]. destruct (Z.leb_spec b 255); [|lia]. cbn [andb].
  rewrite feed_text by assumption. reflexivity.
Qed.
Print Assumptions C82_terminal.

(** A colour that is none, one component below 0 or above 255, changes nothing on the terminal, provided the sequence fits the buffer. *)
Theorem C82_terminal_no_colour : forall r g b seq t, is_int r -> is_int g -> is_int b -> set_ix r g b = Some seq -> at_ t = Ground ->
  ~ (component r /\ component g /\ component b) -> feed seq t = t.
Proof.
  intros r g b seq [a i s] R G B E A N. cbn in A. subst a. unfold set_ix in E. destruct (S _ <=? _)%nat; [|discriminate E]. injection E as <-.
  unfold component in N.
  destruct (Z.ltb_spec r 0).
  { unfold escape. rewrite feed_app.
    replace (feed [27; 91; 51; 56; 59; 50; 59] (Terminal Ground i s)) with (Terminal (Params [2; 38] 0) i s) by reflexivity.
    rewrite feed_app, feed_negative by assumption.
    rewrite !app_assoc, feed_app, feed_ignoring by (repeat (apply Forall_app; split); first [apply to_string_low | (constructor; [lia|constructor])]).
    reflexivity. }
  destruct (Z.ltb_spec g 0).
  { unfold escape. rewrite feed_app.
    replace (feed [27; 91; 51; 56; 59; 50; 59] (Terminal Ground i s)) with (Terminal (Params [2; 38] 0) i s) by reflexivity.
    rewrite feed_app, feed_number by assumption. rewrite feed_app.
    replace (feed [59] (Terminal (Params [2; 38] r) i s)) with (Terminal (Params [r; 2; 38] 0) i s) by reflexivity.
    rewrite feed_app, feed_negative by assumption.
    rewrite !app_assoc, feed_app, feed_ignoring by (repeat (apply Forall_app; split); first [apply to_string_low | (constructor; [lia|constructor])]).
    reflexivity. }
  destruct (Z.ltb_spec b 0).
  { unfold escape. rewrite feed_app.
    replace (feed [27; 91; 51; 56; 59; 50; 59] (Terminal Ground i s)) with (Terminal (Params [2; 38] 0) i s) by reflexivity.
    rewrite feed_app, feed_number by assumption. rewrite feed_app.
    replace (feed [59] (Terminal (Params [2; 38] r) i s)) with (Terminal (Params [r; 2; 38] 0) i s) by reflexivity.
    rewrite feed_app, feed_number by assumption. rewrite feed_app.
    replace (feed [59] (Terminal (Params [r; 2; 38] g) i s)) with (Terminal (Params [g; r; 2; 38] 0) i s) by reflexivity.
    rewrite feed_app, feed_negative by assumption. reflexivity. }
  rewrite feed_escape by assumption.
  destruct (Z.leb_spec r 255); destruct (Z.leb_spec g 255); destruct (Z.leb_spec b 255); cbn [andb]; try reflexivity. exfalso. apply N. lia.
Qed.
Print Assumptions C82_terminal_no_colour.

(** the sequences of the standard are read as it says, and there are colours of both kinds *)
Example C82_terminal_nonvacuous :
  feed ([65; 27; 91; 51; 56; 59; 50; 59; 49; 59; 50; 59; 51; 109] ++ [66] ++ restore_ix ++ [67]) (Terminal Ground Standard []) =
    Terminal Ground Standard [(65, Standard); (66, Direct 1 2 3); (67, Standard)] /\
  set_ix 300 (-1) 0 <> None /\ is_int 300 /\ is_int (-1) /\ component 255.
Proof. split; [reflexivity|]. split; [discriminate|]. unfold is_int, component. lia. Qed.
