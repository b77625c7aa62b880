(** C13 hybrid allocator, C14 hybrid deleter. *)
From Verif Require Import Base Ownership_Model Ownership_Spec Ownership_Proof.

(** C13: in every history in which the container returns only blocks it holds,
    heap blocks are deleted exactly when returned, at most once, never unless
    they were allocated, and none is lost once everything is returned.  The
    external buffer is passed to delete once for every return but the first. *)
Theorem C13_alloc_history : forall link ops s, alloc_run (alloc_init link) ops = Some s ->
  (forall n, times_deleted (Heap n) s = times_returned (Heap n) ops /\ (times_deleted (Heap n) s <= 1)%nat /\
             (times_deleted (Heap n) s = 1%nat -> (n < fresh s)%nat)) /\
  (live s = [] -> forall n, (n < fresh s)%nat -> times_deleted (Heap n) s = 1%nat) /\
  times_deleted External s = (if link then times_returned External ops - 1 else times_returned External ops)%nat.
Proof. exact alloc_history. Qed.
Print Assumptions C13_alloc_history.

Theorem C13_first_allocation_is_external : snd (allocate (alloc_init true)) = External.
Proof. exact first_alloc_external. Qed.
Print Assumptions C13_first_allocation_is_external.

(** A container that returns its block before asking for another never has the
    external buffer deleted ... *)
Theorem C13_external_never_deleted : forall ops s,
  one_at_a_time false ops -> alloc_run (alloc_init true) ops = Some s -> times_deleted External s = 0%nat.
Proof. exact single_owner_safe. Qed.
Print Assumptions C13_external_never_deleted.

(** ... but a growing container (allocate the new block, then return the old
    one) is handed the external buffer twice and finally deletes it. *)
Theorem C13_growth_refuted : exists s,
  alloc_run (alloc_init true) [Allocate; Allocate; Deallocate External; Deallocate External] = Some s /\
  times_deleted External s = 1%nat.
Proof. eexists. split; vm_compute; reflexivity. Qed.
Print Assumptions C13_growth_refuted.

(** Copying a linked container hands the same buffer to the copy. *)
Theorem C13_copy_aliases_refuted : forall s, linked s = true ->
  snd (allocate s) = External /\ snd (allocate (alloc_copy s)) = External.
Proof. intros s H. unfold allocate, alloc_copy. cbn [linked]. rewrite H. split; reflexivity. Qed.
Print Assumptions C13_copy_aliases_refuted.

(** C14: any history over any number of elements. *)
Theorem C14_ownership : forall n ops, Forall (op_in_range n) ops ->
  let s := own_run n ops in
  (forall k, (times (Mine k) (destroyed s) <= 1)%nat /\
             (times (Mine k) (destroyed s) = 1%nat -> ~ In (Mine k) (held s) /\ ~ In (Mine k) (given s)) /\
             ((k < next s)%nat -> times (Mine k) (destroyed s) = 0%nat -> In (Mine k) (held s) \/ In (Mine k) (given s))) /\
  (forall k, ~ In (Theirs k) (destroyed s)) /\
  (held s = [] -> given s = [] -> forall k, (k < next s)%nat -> times (Mine k) (destroyed s) = 1%nat).
Proof. exact ownership. Qed.
Print Assumptions C14_ownership.

Example C13_case : exists s,
  alloc_run (alloc_init true) [Allocate; Deallocate External; Allocate; Deallocate (Heap 0); Allocate] = Some s /\
  deleted s = [Heap 0] /\ one_at_a_time false [Allocate; Deallocate External; Allocate; Deallocate (Heap 0); Allocate].
Proof. eexists. split; [vm_compute; reflexivity|]. split; [reflexivity|]. cbn. tauto. Qed.

Example C14_case :
  let s := own_run 3 [MakeOwning 0; MakeObserver 1 7; MoveAssign 2 0; MoveAssign 2 1; MakeOwning 0; SwapElems 0 1; Reset 1; Reset 2] in
  destroyed s = [Mine 0; Mine 1] /\ held s = [] /\ next s = 2%nat.
Proof. vm_compute. repeat split; reflexivity. Qed.
