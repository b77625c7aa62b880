(** C24: the threaded queue. *)
From Verif Require Import Base ThreadQueue_Model ThreadQueue_Proof.
From Coq Require Import Permutation.
Local Open Scope nat_scope.

(** At every moment of every execution: fc has been called with 0, 1, 2, ... in this
    order, each at most once, with no argument outside the range; calls that finished
    were started, none finishes twice; and no more calls are under way than there are
    hardware threads (or tasks). *)
Theorem C24_always : forall hw n s,
  reachable hw n s ->
  (exists k, k <= n /\ started s = seq 0 k) /\
  NoDup (finished s) /\ incl (finished s) (started s) /\
  length (started s) - length (finished s) <= Nat.min hw n /\
  length (finished s) <= length (started s).
Proof.
  intros hw n s H. pose proof (inv_reachable _ _ _ H) as I.
  pose proof (i_perm _ _ _ I) as P. pose proof (Permutation_length P) as L. rewrite app_length in L.
  pose proof (running_length (slots s)) as R.
  assert (LS : length (slots s) <= Nat.min hw n).
  { destruct (ph s) eqn:E; try (rewrite (i_len _ _ _ I) by congruence; lia).
    destruct (i_launch _ _ _ I E). lia. }
  split; [exists (cur s); split; [apply I|apply I]|].
  assert (ND : NoDup (finished s ++ running (slots s))).
  { eapply Permutation_NoDup; [exact P|]. rewrite (i_started _ _ _ I). apply seq_NoDup. }
  split; [|split; [|lia]].
  - clear -ND. induction (finished s) as [|x l IH]; [constructor|].
    inversion ND; subst. constructor; [|auto]. intros X. apply H1, in_or_app; auto.
  - intros x Hx. apply (Permutation_in _ (Permutation_sym P)), in_or_app. auto.
Qed.

(** When RunThreadedQueue returns, every task has been called exactly once and every call
    has finished. *)
Theorem C24_on_return : forall hw n s,
  reachable hw n s -> ph s = Done ->
  started s = seq 0 n /\ Permutation (finished s) (seq 0 n).
Proof.
  intros hw n s H D. pose proof (inv_reachable _ _ _ H) as I.
  destruct (i_done _ _ _ I D) as [C F]. pose proof (i_perm _ _ _ I) as P.
  rewrite (running_none _ F), app_nil_r in P. rewrite (i_started _ _ _ I), C in *.
  split; [reflexivity|]. symmetry. exact P.
Qed.

(** An infinite run: consecutive states are related by a step of the caller, the end of a
    call, or nothing happening. *)
Definition run (hw n : nat) (tr : nat -> state) : Prop :=
  tr 0 = init /\ forall k, trans hw n (tr k) (tr (S k)) \/ tr (S k) = tr k.
(** The caller is not starved: again and again it executes a statement or is blocked. *)
Definition caller_runs (hw n : nat) (tr : nat -> state) : Prop :=
  forall k, exists k', k <= k' /\
    (main_step hw n (tr k') = Some (tr (S k')) \/ main_step hw n (tr k') = None).
(** Every call of fc that is started returns. *)
Definition calls_return (tr : nat -> state) : Prop :=
  forall k t, In t (started (tr k)) -> exists k', In t (finished (tr k')).

(** With at least one hardware thread RunThreadedQueue returns, whatever the schedule and
    the order in which calls finish. *)
Theorem C24_returns : forall hw n tr,
  1 <= hw -> run hw n tr -> caller_runs hw n tr -> calls_return tr ->
  exists k, ph (tr k) = Done.
Proof. intros hw n tr Hh [R0 RS] HM HF. exact (terminates hw n Hh tr R0 RS HM HF). Qed.

(** hardware_concurrency() may report 0. Then nothing is ever called and the function
    never returns although there is work. *)
Theorem C24_zero_hardware_threads_refuted : forall n s,
  1 <= n -> reachable 0 n s -> ph s <> Done /\ started s = [].
Proof.
  intros n s Hn H.
  assert (G : (ph s = Launch \/ ph s = While \/ exists j, ph s = Poll j) /\ cur s = 0 /\ slots s = [] /\ started s = []).
  { induction H as [|s s' H IH [T|[j T]]].
    - cbn. auto.
    - destruct IH as (P & C & L & S0). unfold main_step in T. cbv zeta in T. rewrite L, C, S0 in T.
      destruct P as [P|[P|[j P]]]; rewrite P in T.
      + cbn in T. inversion T; cbn; auto.
      + destruct (Nat.ltb_spec 0 n); [|lia]. inversion T; cbn; eauto 10.
      + replace (nth_error (@nil (nat * bool)) j) with (@None (nat * bool)) in T by (destruct j; reflexivity).
        inversion T; cbn; auto.
    - destruct IH as (P & C & L & S0). unfold finish_step in T. rewrite L in T. destruct j; discriminate. }
  destruct G as (P & _ & _ & S0). split; [|assumption].
  destruct P as [P|[P|[j P]]]; rewrite P; discriminate.
Qed.

(** Three tasks on two threads, second one finishing first: a complete execution. *)
Definition seq_steps (hw n : nat) (l : list (option nat)) : option state :=
  fold_left (fun s a => match s with
    | None => None
    | Some s => match a with None => main_step hw n s | Some j => finish_step j s end
    end) l (Some init).
Lemma seq_steps_reachable hw n l s : seq_steps hw n l = Some s -> reachable hw n s.
Proof.
  unfold seq_steps. revert s. induction l as [|a l IH] using rev_ind; intros s; cbn.
  - intros H. inversion H. constructor.
  - rewrite fold_left_app. cbn. destruct (fold_left _ l _) as [s0|]; [|discriminate].
    intros H. apply (reach_step _ _ s0); [apply IH; reflexivity|]. destruct a as [j|]; [right; eauto | left; assumption].
Qed.
Example C24_example : exists s, reachable 2 3 s /\ ph s = Done /\ finished s = [1; 0; 2].
Proof.
  destruct (seq_steps 2 3 [None; None; None; None; None; Some 1; None; None; None; Some 0; None; Some 1; None; None])
    as [s|] eqn:E; [|vm_compute in E; discriminate].
  exists s. split; [eapply seq_steps_reachable; eauto|].
  vm_compute in E. inversion E. split; reflexivity.
Qed.
(** And a fair infinite run exists: one task, one thread. *)
Definition one_run (k : nat) : state :=
  match k with
  | 0 => init
  | 1 => mk Launch 1 [(0, false)] [0] []
  | 2 => mk Launch 1 [(0, true)] [0] [0]
  | 3 => mk While 1 [(0, true)] [0] [0]
  | 4 => mk (Wait 0) 1 [(0, true)] [0] [0]
  | 5 => mk (Wait 1) 1 [(0, true)] [0] [0]
  | _ => mk Done 1 [(0, true)] [0] [0]
  end.
Example C24_fair_run : run 1 1 one_run /\ caller_runs 1 1 one_run /\ calls_return one_run.
Proof.
  split; [|split].
  - split; [reflexivity|]. intros k.
    do 6 (destruct k as [|k]; [left; first [left; reflexivity | right; exists 0; reflexivity]|]).
    right; reflexivity.
  - intros k. exists (6 + k). split; [lia|]. right. reflexivity.
  - intros k t H. exists 2. cbn. destruct k as [|k]; [destruct H|].
    do 6 (destruct k as [|k]; [exact H|]). exact H.
Qed.

Print Assumptions C24_always.
Print Assumptions C24_on_return.
Print Assumptions C24_returns.
Print Assumptions C24_zero_hardware_threads_refuted.
