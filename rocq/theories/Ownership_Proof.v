From Verif Require Import Base Ownership_Model Ownership_Spec.

Lemma block_eqb_eq a b : block_eqb a b = true <-> a = b.
Proof.
  destruct a, b; cbn; try (split; (discriminate || reflexivity)).
  rewrite Nat.eqb_eq. split; [intros ->; reflexivity|intros [= ->]; reflexivity].
Qed.

Lemma block_eqb_dec a b : block_eqb a b = if block_eq_dec a b then true else false.
Proof.
  destruct (block_eq_dec a b) as [E|E]; [apply block_eqb_eq; exact E|].
  destruct (block_eqb a b) eqn:F; [|reflexivity]. apply block_eqb_eq in F. contradiction.
Qed.

Lemma count_remove b l x : In b l ->
  (count_occ block_eq_dec (remove_one b l) x + (if block_eq_dec b x then 1 else 0) = count_occ block_eq_dec l x)%nat.
Proof.
  induction l as [|y l IH]; intros Hi; [destruct Hi|]. cbn [remove_one count_occ].
  rewrite block_eqb_dec. destruct (block_eq_dec y b) as [->|Hn].
  - destruct (block_eq_dec b x); lia.
  - destruct Hi as [Hi|Hi]; [congruence|]. specialize (IH Hi). cbn [count_occ].
    destruct (block_eq_dec y x); lia.
Qed.

Lemma existsb_in b l : existsb (fun x => block_eqb x b) l = true <-> In b l.
Proof.
  rewrite existsb_exists. split.
  - intros (x & Hx & E). apply block_eqb_eq in E. subst; exact Hx.
  - intros H. exists b. split; [exact H|]. apply block_eqb_eq. reflexivity.
Qed.

Definition one (n m : nat) : nat := if Nat.ltb n m then 1 else 0.

(** heap blocks: handed out exactly once, given back at most once, deleted exactly when given back *)
Record ainv (link0 : bool) (ops : list alloc_op) (s : alloc_state) : Prop := {
  ai_heap : forall n, (count_occ block_eq_dec (live s) (Heap n) + times_deleted (Heap n) s = one n (fresh s))%nat;
  ai_heap_ret : forall n, times_deleted (Heap n) s = times_returned (Heap n) ops;
  ai_linked : linked s = (link0 && Nat.eqb (times_returned External ops) 0);
  ai_ext : times_deleted External s = if link0 then (times_returned External ops - 1)%nat else times_returned External ops
}.

Lemma times_returned_app b l o : times_returned b (l ++ [o]) = (times_returned b l + if is_free_of b o then 1 else 0)%nat.
Proof.
  unfold times_returned. rewrite filter_app, app_length. cbn [filter]. destruct (is_free_of b o); reflexivity.
Qed.

Lemma ainv_step link0 ops s o s' : ainv link0 ops s -> alloc_step s o = Some s' -> ainv link0 (ops ++ [o]) s'.
Proof.
  intros [H1 H2 H3 H4] E. destruct o as [|b]; cbn [alloc_step] in E.
  - injection E as <-. unfold allocate. destruct (linked s) eqn:L; cbn [negb fst].
    + constructor; unfold times_deleted in *; cbn [live deleted fresh linked];
        intros; rewrite ?times_returned_app; cbn [is_free_of]; rewrite ?Nat.add_0_r; auto.
      cbn [count_occ]. destruct (block_eq_dec External (Heap n)); [discriminate|]. apply H1.
    + constructor; unfold times_deleted in *; cbn [live deleted fresh linked];
        intros; rewrite ?times_returned_app; cbn [is_free_of]; rewrite ?Nat.add_0_r; auto.
      cbn [count_occ]. specialize (H1 n). unfold one in *.
      destruct (block_eq_dec (Heap (fresh s)) (Heap n)) as [Eq|Ne].
      * injection Eq as <-. rewrite Nat.ltb_irrefl in H1. replace (Nat.ltb (fresh s) (S (fresh s))) with true by (symmetry; apply Nat.ltb_lt; lia). lia.
      * assert (n <> fresh s) by congruence.
        replace (Nat.ltb n (S (fresh s))) with (Nat.ltb n (fresh s)); [exact H1|].
        destruct (Nat.ltb_spec n (fresh s)), (Nat.ltb_spec n (S (fresh s))); lia || reflexivity.
  - destruct (existsb _ _) eqn:Ex; [|discriminate]. injection E as <-. apply existsb_in in Ex.
    pose proof (fun x => count_remove b (live s) x Ex) as CR.
    unfold deallocate. destruct (linked s && block_eqb External b) eqn:C.
    + apply andb_true_iff in C. destruct C as [L Eb]. apply block_eqb_eq in Eb. subst b.
      rewrite L in H3. destruct link0; [|discriminate]. cbn [andb] in H3.
      assert (T0 : times_returned External ops = 0%nat) by (apply Nat.eqb_eq; congruence).
      constructor; unfold times_deleted in *; cbn [live deleted fresh linked]; intros; rewrite ?times_returned_app; cbn [is_free_of block_eqb].
      * specialize (CR (Heap n)). destruct (block_eq_dec External (Heap n)); [discriminate|]. specialize (H1 n). lia.
      * rewrite Nat.add_0_r. apply H2.
      * rewrite T0. reflexivity.
      * rewrite H4, T0. reflexivity.
    + constructor; unfold times_deleted in *; cbn [live deleted fresh linked]; intros; rewrite ?times_returned_app; cbn [is_free_of];
        rewrite ?count_occ_app; cbn [count_occ].
      * specialize (CR (Heap n)). specialize (H1 n). destruct (block_eq_dec b (Heap n)); lia.
      * specialize (H2 n). rewrite block_eqb_dec. destruct (block_eq_dec b (Heap n)); lia.
      * rewrite block_eqb_dec. destruct (block_eq_dec b External) as [->|]; [|rewrite Nat.add_0_r; exact H3].
        cbn [block_eqb] in C. rewrite andb_true_r in C. rewrite C. destruct link0; [|reflexivity]. symmetry.
        apply andb_false_intro2. apply Nat.eqb_neq. lia.
      * rewrite block_eqb_dec. destruct (block_eq_dec b External) as [->|]; [|rewrite !Nat.add_0_r; exact H4].
        cbn [block_eqb] in C. rewrite andb_true_r in C. rewrite C in H3. rewrite H4. destruct link0; [|lia].
        cbn [andb] in H3. symmetry in H3. apply Nat.eqb_neq in H3. lia.
Qed.

Lemma ainv_run link0 : forall ops done s s', ainv link0 done s -> alloc_run s ops = Some s' -> ainv link0 (done ++ ops) s'.
Proof.
  induction ops as [|o ops IH]; intros done s s' H E; cbn [alloc_run] in E.
  - injection E as <-. rewrite app_nil_r. exact H.
  - destruct (alloc_step s o) as [s1|] eqn:E1; [|discriminate].
    replace (done ++ o :: ops) with ((done ++ [o]) ++ ops) by (rewrite <- app_assoc; reflexivity).
    eapply IH; [eapply ainv_step; eassumption|exact E].
Qed.

Lemma ainv_init link : ainv link [] (alloc_init link).
Proof.
  constructor; cbn; intros; try reflexivity.
  - destruct link; reflexivity.
  - destruct link; reflexivity.
Qed.

Lemma alloc_history link ops s : alloc_run (alloc_init link) ops = Some s ->
  (forall n, times_deleted (Heap n) s = times_returned (Heap n) ops /\ (times_deleted (Heap n) s <= 1)%nat /\
             (times_deleted (Heap n) s = 1%nat -> (n < fresh s)%nat)) /\
  (live s = [] -> forall n, (n < fresh s)%nat -> times_deleted (Heap n) s = 1%nat) /\
  times_deleted External s = (if link then times_returned External ops - 1 else times_returned External ops)%nat.
Proof.
  intros E. destruct (ainv_run link ops [] _ _ (ainv_init link) E) as [H1 H2 H3 H4]. cbn [app] in *.
  split; [|split].
  - intros n. split; [apply H2|]. specialize (H1 n). unfold one in H1. destruct (Nat.ltb_spec n (fresh s)); split; intros; lia.
  - intros Hl n Hn. specialize (H1 n). rewrite Hl in H1. cbn in H1. unfold one in H1.
    replace (Nat.ltb n (fresh s)) with true in H1 by (symmetry; apply Nat.ltb_lt; lia). lia.
  - exact H4.
Qed.

(** a container that holds at most one block at a time *)
Fixpoint one_at_a_time (held : bool) (ops : list alloc_op) : Prop :=
  match ops with
  | [] => True
  | Allocate :: r => held = false /\ one_at_a_time true r
  | Deallocate _ :: r => one_at_a_time false r
  end.

Lemma single_ext link : forall ops done s s', ainv link done s -> alloc_run s ops = Some s' ->
  (length (live s) <= 1)%nat ->
  one_at_a_time (match live s with [] => false | _ => true end) ops ->
  ((linked s = true -> times_deleted External s = 0%nat /\ times_returned External done = 0%nat) /\
   (linked s = false -> times_deleted External s = 0%nat /\ ~ In External (live s))) ->
  (link = true) ->
  times_deleted External s' = 0%nat.
Proof.
  induction ops as [|o ops IH]; intros done s s' HI E HL H1 H2 Hlk; cbn [alloc_run] in E.
  - injection E as <-. destruct H2 as [A B]. destruct (linked s); [apply A|apply B]; reflexivity.
  - destruct (alloc_step s o) as [s1|] eqn:E1; [|discriminate].
    pose proof (ainv_step _ _ _ _ _ HI E1) as HI1.
    eapply (IH (done ++ [o]) s1 s'); try eassumption; clear IH E.
    + destruct o as [|b]; cbn [alloc_step] in E1.
      * cbn [one_at_a_time] in H1. destruct H1 as [Hh _]. destruct (live s) eqn:El; [|discriminate].
        injection E1 as <-. unfold allocate. destruct (negb (linked s)); cbn [fst live length]; rewrite El; cbn; lia.
      * destruct (existsb _ _) eqn:Ex; [|discriminate]. injection E1 as <-.
        destruct (live s) as [|x [|]] eqn:El; cbn in HL; try lia; [discriminate|].
        unfold deallocate. destruct (linked s && block_eqb External b); cbn [live]; rewrite El; cbn [remove_one];
          destruct (block_eqb x b); cbn; lia.
    + destruct o as [|b]; cbn [alloc_step] in E1; cbn [one_at_a_time] in H1.
      * destruct H1 as [_ H1]. injection E1 as <-. unfold allocate. destruct (negb (linked s)); cbn [fst live]; exact H1.
      * destruct (existsb _ _) eqn:Ex; [|discriminate]. injection E1 as <-.
        destruct (live s) as [|x [|]] eqn:El; cbn in HL; try lia; [discriminate|].
        cbn [existsb] in Ex. rewrite orb_false_r in Ex.
        unfold deallocate. destruct (linked s && block_eqb External b); cbn [live]; rewrite El; cbn [remove_one]; rewrite Ex; exact H1.
    + destruct HI1 as [_ _ G3 G4]. rewrite Hlk in *. cbn [andb] in G3.
      destruct o as [|b]; cbn [alloc_step] in E1.
      * injection E1 as <-. unfold allocate in *. destruct (linked s) eqn:L; cbn [negb fst linked live deleted] in *.
        -- destruct H2 as [A _]. specialize (A eq_refl). unfold times_deleted in *. cbn [deleted]. split; [|discriminate].
           intros _. split; [apply A|]. rewrite times_returned_app. cbn. destruct A as [_ A]. lia.
        -- destruct H2 as [_ B]. specialize (B eq_refl). unfold times_deleted in *. cbn [deleted]. split; [discriminate|].
           intros _. split; [apply B|]. intros [Hx|Hx]; [discriminate|]. apply B; exact Hx.
      * destruct (existsb _ _) eqn:Ex; [|discriminate]. injection E1 as <-. apply existsb_in in Ex.
        destruct (live s) as [|x [|]] eqn:El; cbn in HL; try lia; [destruct Ex|].
        destruct Ex as [->|[]].
        unfold deallocate in *. destruct (linked s) eqn:L; cbn [andb] in *.
        -- destruct H2 as [A _]. specialize (A eq_refl). destruct (block_eqb External b) eqn:Eb; cbn [linked live deleted] in *.
           ++ split; [discriminate|]. intros _. rewrite El. cbn [remove_one]. rewrite (proj2 (block_eqb_eq b b) eq_refl). unfold times_deleted in *. cbn [deleted]. split; [apply A|intros []].
           ++ unfold times_deleted in *. cbn [deleted]. split; [|discriminate]. intros _. rewrite count_occ_app. cbn [count_occ].
              destruct (block_eq_dec b External) as [->|]; [discriminate|]. split; [destruct A; lia|]. rewrite times_returned_app. cbn [is_free_of].
              rewrite block_eqb_dec. destruct (block_eq_dec b External); [contradiction|]. destruct A; lia.
        -- destruct H2 as [_ B]. specialize (B eq_refl). cbn [linked live deleted]. unfold times_deleted in *. cbn [deleted]. split; [discriminate|].
           intros _. destruct B as [B1 B2]. rewrite count_occ_app. cbn [count_occ].
           destruct (block_eq_dec b External) as [->|]; [exfalso; apply B2; left; reflexivity|]. split; [lia|].
           rewrite El. cbn [remove_one]. rewrite (proj2 (block_eqb_eq b b) eq_refl). intros [].
Qed.

Lemma single_owner_safe ops s : one_at_a_time false ops -> alloc_run (alloc_init true) ops = Some s ->
  times_deleted External s = 0%nat.
Proof.
  intros H1 E. eapply (single_ext true ops [] (alloc_init true) s (ainv_init true) E); cbn; auto. 
Qed.

Lemma first_alloc_external : snd (allocate (alloc_init true)) = External.
Proof. reflexivity. Qed.

(** * Elements *)
Definition held_of (l : list element) : list object :=
  flat_map (fun e => match ptr e with Some o => [o] | None => [] end) l.

Definition ptr_count (o : object) (e : element) : nat :=
  match ptr e with Some x => if object_eq_dec x o then 1 else 0 | None => 0 end.

Lemma set_nth_length i e l : length (set_nth i e l) = length l.
Proof. revert i; induction l as [|x l IH]; intros [|i]; cbn; auto. Qed.

Lemma nth_set_same i e l d : (i < length l)%nat -> nth i (set_nth i e l) d = e.
Proof. revert i; induction l as [|x l IH]; intros [|i] H; cbn in *; try lia; auto. apply IH; lia. Qed.
Lemma nth_set_other i j e l d : i <> j -> nth j (set_nth i e l) d = nth j l d.
Proof. revert i j; induction l as [|x l IH]; intros [|i] [|j] H; cbn; auto; try lia. Qed.

Lemma held_set i e l o : (i < length l)%nat ->
  (times o (held_of (set_nth i e l)) + ptr_count o (nth i l empty_elem) = times o (held_of l) + ptr_count o e)%nat.
Proof.
  unfold times, held_of, ptr_count. revert i. induction l as [|x l IH]; intros [|i] H; cbn [length] in H; try lia; cbn [set_nth flat_map nth]; rewrite !count_occ_app.
  - destruct (ptr e), (ptr x); cbn [count_occ]; repeat destruct (object_eq_dec _ _); lia.
  - specialize (IH i ltac:(lia)). lia.
Qed.

Lemma Forall_set (P : element -> Prop) i e l : Forall P l -> P e -> Forall P (set_nth i e l).
Proof.
  intros H He. revert i. induction H as [|x l Hx Hl IH]; intros [|i]; cbn; auto.
Qed.

(** owning elements hold objects created here, observers hold foreign ones *)
Definition elem_ok (e : element) : Prop :=
  match ptr e with
  | None => True
  | Some (Mine _) => canDelete e = true
  | Some (Theirs _) => canDelete e = false
  end.

Record oinv (n : nat) (s : own_state) : Prop := {
  oi_len : length (slots s) = n;
  oi_ok : Forall elem_ok (slots s);
  oi_mine : forall k, (times (Mine k) (held_of (slots s)) + times (Mine k) (destroyed s) + times (Mine k) (given s) = one k (next s))%nat;
  oi_theirs : forall k, times (Theirs k) (destroyed s) = 0%nat
}.

Lemma get_ok n s i : oinv n s -> elem_ok (get_elem s i).
Proof.
  intros H. unfold get_elem. destruct (Nat.lt_ge_cases i (length (slots s))) as [L|L].
  - pose proof (oi_ok n s H) as HO. rewrite Forall_forall in HO. apply HO. apply nth_In; exact L.
  - rewrite nth_overflow by exact L. exact I.
Qed.

Lemma call_mine e d k : elem_ok e -> times (Mine k) (call_deleter e d) = (times (Mine k) d + ptr_count (Mine k) e)%nat.
Proof.
  unfold elem_ok, call_deleter, ptr_count, times. destruct (ptr e) as [[m|m]|]; intros H; [| |lia].
  - rewrite H, count_occ_app. cbn [count_occ]. destruct (object_eq_dec _ _); lia.
  - rewrite H. destruct (object_eq_dec _ _); [discriminate|lia].
Qed.
Lemma call_theirs e d k : elem_ok e -> times (Theirs k) (call_deleter e d) = times (Theirs k) d.
Proof.
  unfold elem_ok, call_deleter, times. destruct (ptr e) as [[m|m]|]; intros H; [| |lia].
  - rewrite H, count_occ_app. cbn [count_occ]. destruct (object_eq_dec _ _); [discriminate|lia].
  - rewrite H. reflexivity.
Qed.

Lemma oinv_step n s o : oinv n s -> op_in_range n o -> oinv n (own_step s o).
Proof.
  intros HI HR. pose proof HI as [HL HO HM HT].
  destruct o as [i|i m|i j|i j|i|i]; cbn [op_in_range] in HR; cbn [own_step]; unfold assign_from.
  - pose proof (get_ok n s i HI) as Ho. constructor; cbn [slots next destroyed given].
    + rewrite set_nth_length; exact HL.
    + apply Forall_set; [exact HO|]. reflexivity.
    + intros k. rewrite call_mine by exact Ho. specialize (HM k).
      pose proof (held_set i {| ptr := Some (Mine (next s)); canDelete := true |} (slots s) (Mine k) ltac:(lia)) as Hs.
      unfold get_elem in *. unfold one in *. unfold ptr_count in Hs at 2. cbn [ptr] in Hs.
      destruct (object_eq_dec (Mine (next s)) (Mine k)) as [E|E].
      * injection E as <-. rewrite Nat.ltb_irrefl in HM. replace (Nat.ltb (next s) (S (next s))) with true by (symmetry; apply Nat.ltb_lt; lia). lia.
      * assert (k <> next s) by congruence. replace (Nat.ltb k (S (next s))) with (Nat.ltb k (next s)); [lia|].
        destruct (Nat.ltb_spec k (next s)), (Nat.ltb_spec k (S (next s))); lia || reflexivity.
    + intros k. rewrite call_theirs by exact Ho. apply HT.
  - pose proof (get_ok n s i HI) as Ho. constructor; cbn [slots next destroyed given].
    + rewrite set_nth_length; exact HL.
    + apply Forall_set; [exact HO|]. reflexivity.
    + intros k. rewrite call_mine by exact Ho. specialize (HM k).
      pose proof (held_set i {| ptr := Some (Theirs m); canDelete := false |} (slots s) (Mine k) ltac:(lia)) as Hs.
      unfold get_elem in *. unfold ptr_count in Hs at 2. cbn [ptr] in Hs.
      destruct (object_eq_dec (Theirs m) (Mine k)); [discriminate|]. lia.
    + intros k. rewrite call_theirs by exact Ho. apply HT.
  - (* move *)
    set (src := get_elem s j). set (l1 := set_nth j {| ptr := None; canDelete := canDelete src |} (slots s)).
    set (s1 := {| slots := l1; next := next s; destroyed := destroyed s; given := given s |}).
    pose proof (get_ok n s j HI) as Hj. fold src in Hj.
    assert (L1 : length l1 = n) by (unfold l1; rewrite set_nth_length; exact HL).
    assert (O1 : Forall elem_ok l1) by (apply Forall_set; [exact HO|exact I]).
    assert (Ho : elem_ok (get_elem s1 i)).
    { unfold get_elem, s1. cbn [slots]. apply (proj1 (Forall_forall _ _) O1). apply nth_In. lia. }
    assert (C1 : forall o, (times o (held_of l1) + ptr_count o src = times o (held_of (slots s)))%nat).
    { intros o. pose proof (held_set j {| ptr := None; canDelete := canDelete src |} (slots s) o ltac:(lia)) as Hs.
      fold l1 in Hs. unfold src, get_elem. unfold ptr_count in Hs at 2. cbn [ptr] in Hs. lia. }
    constructor; cbn [slots next destroyed given s1].
    + rewrite set_nth_length; exact L1.
    + apply Forall_set; [exact O1|]. unfold elem_ok in *. cbn [ptr canDelete]. exact Hj.
    + intros k. rewrite call_mine by exact Ho. specialize (HM k). specialize (C1 (Mine k)).
      pose proof (held_set i {| ptr := ptr src; canDelete := canDelete src |} l1 (Mine k) ltac:(lia)) as Hs.
      unfold get_elem, s1. cbn [slots]. unfold ptr_count in Hs at 2. cbn [ptr] in Hs. unfold ptr_count in C1. lia.
    + intros k. rewrite call_theirs by exact Ho. apply HT.
  - (* swap *)
    set (a := get_elem s i). set (b := get_elem s j).
    pose proof (get_ok n s i HI) as Hi. pose proof (get_ok n s j HI) as Hj. fold a in Hi. fold b in Hj.
    constructor; cbn [slots next destroyed given].
    + rewrite !set_nth_length; exact HL.
    + apply Forall_set; [apply Forall_set; assumption|assumption].
    + intros k. specialize (HM k).
      pose proof (held_set i b (slots s) (Mine k) ltac:(lia)) as H1.
      pose proof (held_set j a (set_nth i b (slots s)) (Mine k) ltac:(rewrite set_nth_length; lia)) as H2.
      change (nth i (slots s) empty_elem) with a in H1.
      destruct (Nat.eq_dec i j) as [->|Hne].
      * rewrite nth_set_same in H2 by lia. assert (Eab : a = b) by reflexivity. rewrite Eab in *. lia.
      * rewrite nth_set_other in H2 by exact Hne. change (nth j (slots s) empty_elem) with b in H2. lia.
    + exact HT.
  - pose proof (get_ok n s i HI) as Ho. constructor; cbn [slots next destroyed given].
    + rewrite set_nth_length; exact HL.
    + apply Forall_set; [exact HO|]. exact I.
    + intros k. rewrite call_mine by exact Ho. specialize (HM k).
      pose proof (held_set i {| ptr := None; canDelete := canDelete (get_elem s i) |} (slots s) (Mine k) ltac:(lia)) as Hs.
      unfold get_elem in *. unfold ptr_count in Hs at 2. cbn [ptr] in Hs. lia.
    + intros k. rewrite call_theirs by exact Ho. apply HT.
  - pose proof (get_ok n s i HI) as Ho. constructor; cbn [slots next destroyed given].
    + rewrite set_nth_length; exact HL.
    + apply Forall_set; [exact HO|]. exact I.
    + intros k. specialize (HM k).
      pose proof (held_set i {| ptr := None; canDelete := canDelete (get_elem s i) |} (slots s) (Mine k) ltac:(lia)) as Hs.
      unfold get_elem in *. unfold ptr_count in Hs at 2. cbn [ptr] in Hs. unfold ptr_count in Hs.
      destruct (ptr (nth i (slots s) empty_elem)) as [x|]; [|lia].
      unfold times in *. rewrite count_occ_app. cbn [count_occ]. destruct (object_eq_dec x (Mine k)); lia.
    + exact HT.
Qed.

Lemma held_repeat n : held_of (repeat empty_elem n) = [].
Proof. induction n; cbn; auto. Qed.

Lemma oinv_run n ops : Forall (op_in_range n) ops -> oinv n (own_run n ops).
Proof.
  intros H. unfold own_run.
  assert (G : forall s, oinv n s -> oinv n (fold_left own_step ops s)).
  { induction H as [|o ops Ho Hops IH]; intros s Hs; cbn [fold_left]; [exact Hs|]. apply IH. apply oinv_step; assumption. }
  apply G. constructor; cbn [slots next destroyed given].
  - apply repeat_length.
  - clear. induction n; cbn; constructor; auto. exact I.
  - intros k. rewrite held_repeat. reflexivity.
  - reflexivity.
Qed.

Lemma ownership n ops : Forall (op_in_range n) ops ->
  let s := own_run n ops in
  (forall k, (times (Mine k) (destroyed s) <= 1)%nat /\
             (times (Mine k) (destroyed s) = 1%nat -> ~ In (Mine k) (held s) /\ ~ In (Mine k) (given s)) /\
             ((k < next s)%nat -> times (Mine k) (destroyed s) = 0%nat -> In (Mine k) (held s) \/ In (Mine k) (given s))) /\
  (forall k, ~ In (Theirs k) (destroyed s)) /\
  (held s = [] -> given s = [] -> forall k, (k < next s)%nat -> times (Mine k) (destroyed s) = 1%nat).
Proof.
  intros H. cbv zeta. destruct (oinv_run n ops H) as [HL HO HM HT]. set (s := own_run n ops) in *.
  change (held_of (slots s)) with (held s) in HM. unfold times in *. unfold one in HM.
  split; [|split].
  - intros k. specialize (HM k). split; [destruct (Nat.ltb _ _); lia|]. split.
    + intros E. rewrite !(count_occ_not_In object_eq_dec). destruct (Nat.ltb _ _); lia.
    + intros Hk E. replace (Nat.ltb k (next s)) with true in HM by (symmetry; apply Nat.ltb_lt; lia).
      rewrite !(count_occ_In object_eq_dec). lia.
  - intros k. apply (count_occ_not_In object_eq_dec). apply HT.
  - intros Hh Hg k Hk. specialize (HM k). rewrite Hh, Hg in HM. cbn [count_occ] in HM.
    replace (Nat.ltb k (next s)) with true in HM by (symmetry; apply Nat.ltb_lt; lia). lia.
Qed.
