(** C64: the member lists of reflected classes and enumerations go through these loops. *)
From Verif Require Import Base MacroLoop_Model.

Lemma nargs_small {A} (args : list A) : (length args <= 89)%nat -> VA_NARGS args = option_map inr (nth_error counts (89 - length args)).
Proof. intros H. unfold VA_NARGS. rewrite nth_error_app2; rewrite map_length; [|exact H]. rewrite nth_error_map. reflexivity. Qed.
Lemma add_all {A} (args : list A) : StaticFor_ADD (length args) args = map Some args.
Proof. induction args as [|a r IH]; [reflexivity|]. cbn [length StaticFor_ADD hd_error tl map]. f_equal. destruct r; [reflexivity|exact IH]. Qed.
Lemma addid_all {A} (args : list A) : forall id, StaticForArgID_ADD (length args) id args = combine (seq id (length args)) (map Some args).
Proof.
  induction args as [|a r IH]; intros id; [reflexivity|]. cbn [length StaticForArgID_ADD hd_error tl map seq combine]. f_equal. destruct r; [reflexivity|].
  rewrite IH. rewrite Nat.add_1_r. reflexivity.
Qed.

(** From one to 86 arguments, and for 89: they are counted right, each is processed exactly once, in
    order, and the numbers handed out are the positions from 0. *)
Definition loops_right {A} (args : list A) : Prop :=
  VA_NARGS args = Some (inr (length args)) /\
  StaticFor args = Some (map Some args) /\
  StaticForArgID args = Some (combine (seq 0 (length args)) (map Some args)).
Theorem C64_loops : forall (A : Type) (args : list A), (1 <= length args <= 86 \/ length args = 89)%nat -> loops_right args.
Proof.
  intros A args H. assert (E : VA_NARGS args = Some (inr (length args))).
  { rewrite nargs_small by lia. set (k := length args) in *. clearbody k. 
    assert (S : forallb (fun k => match nth_error counts (89 - k) with Some n => Nat.eqb n k | None => false end) (seq 1 86 ++ [89%nat]) = true) by (vm_compute; reflexivity).
    rewrite forallb_forall in S. assert (I : In k (seq 1 86 ++ [89%nat])) by (apply in_app_iff; destruct H; [left; apply in_seq; lia|right; left; lia]).
    specialize (S k I). destruct (nth_error counts (89 - k)) as [n|]; [|discriminate]. apply Nat.eqb_eq in S. subst n. reflexivity. }
  split; [exact E|]. unfold StaticFor, StaticForArgID. rewrite E. replace (length args <=? 89)%nat with true by (symmetry; apply Nat.leb_le; lia).
  split; f_equal; [apply add_all|apply addid_all].
Qed.
Print Assumptions C64_loops.

(** 88 arguments: counted as 87, and the last one is silently left out of every list. *)
Theorem C64_last_lost_refuted : forall (A : Type) (args : list A), length args = 88%nat ->
  VA_NARGS args = Some (inr 87%nat) /\ StaticFor args = Some (map Some (firstn 87 args)) /\
  StaticForArgID args = Some (combine (seq 0 87) (map Some (firstn 87 args))).
Proof.
  intros A args H. assert (E : VA_NARGS args = Some (inr 87%nat)) by (rewrite nargs_small by lia; rewrite H; reflexivity).
  split; [exact E|]. unfold StaticFor, StaticForArgID. rewrite E. cbn [Nat.leb].
  do 88 (destruct args as [|? args]; [discriminate|]). destruct args; [|discriminate]. split; reflexivity.
Qed.
Print Assumptions C64_last_lost_refuted.

(** 87 arguments: counted as 88, and the loops run once more on an empty argument. *)
Theorem C64_extra_refuted : forall (A : Type) (args : list A), length args = 87%nat ->
  VA_NARGS args = Some (inr 88%nat) /\ StaticFor args = Some (map Some args ++ [None]) /\
  StaticForArgID args = Some (combine (seq 0 88) (map Some args ++ [None])).
Proof.
  intros A args H. assert (E : VA_NARGS args = Some (inr 88%nat)) by (rewrite nargs_small by lia; rewrite H; reflexivity).
  split; [exact E|]. unfold StaticFor, StaticForArgID. rewrite E. cbn [Nat.leb].
  do 87 (destruct args as [|? args]; [discriminate|]). destruct args; [|discriminate]. split; reflexivity.
Qed.
Print Assumptions C64_extra_refuted.

(** More than 89 arguments: what is pasted into the macro's name is the 90th argument, no loop runs. *)
Theorem C64_limit : forall (A : Type) (args : list A), (90 <= length args)%nat ->
  StaticFor args = None /\ StaticForArgID args = None /\ exists a, nth_error args 89 = Some a /\ VA_NARGS args = Some (inl a).
Proof.
  intros A args H. destruct (nth_error args 89) as [a|] eqn:E; [|apply nth_error_None in E; lia].
  assert (V : VA_NARGS args = Some (inl a)) by (unfold VA_NARGS; rewrite nth_error_app1 by (rewrite map_length; lia); rewrite nth_error_map, E; reflexivity).
  unfold StaticFor, StaticForArgID. rewrite V. split; [reflexivity|]. split; [reflexivity|]. exists a. auto.
Qed.
Print Assumptions C64_limit.

Example C64_case : StaticForArgID [7; 8; 9] = Some [(0%nat, Some 7); (1%nat, Some 8); (2%nat, Some 9)] /\ loops_right (repeat 5 86).
Proof. split; [reflexivity|]. apply C64_loops. rewrite repeat_length. lia. Qed.
