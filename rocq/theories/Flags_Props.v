(** C06: flag sets.  [w] is the width of the store; [None] = undefined behaviour. *)
From Verif Require Import Base Flags_Model Flags_Spec Flags_Proof.

(** Any history of Set/+=/-= on indices below the width: each query answers
    what the last operation on that index said, or the initial state. *)
Theorem C06_flags_history : forall w ops, w = 8 \/ w = 16 \/ w = 32 \/ w = 64 ->
  forall v, 0 <= v < 2 ^ w -> Forall (fun o => 0 <= fst o < w) ops ->
  exists v', Flags_run w v ops = Some v' /\
    forall p, 0 <= p < w -> exists b0,
      Flags_get w v p = Some b0 /\ Flags_get w v' p = Some (last_op ops p b0).
Proof. exact run_spec_from_get. Qed.
Print Assumptions C06_flags_history.

(** Querying reads exactly the bit of that index in the stored integer. *)
Theorem C06_flags_query_bit : forall w v p, w = 8 \/ w = 16 \/ w = 32 \/ w = 64 ->
  0 <= p < w -> Flags_get w v p = Some (Z.testbit v p).
Proof. exact get_testbit. Qed.
Print Assumptions C06_flags_query_bit.

(** Construction from a list of flags (optionally on top of a copy). *)
Theorem C06_flags_construct : forall w l, w = 8 \/ w = 16 \/ w = 32 \/ w = 64 ->
  forall init, 0 <= init < 2 ^ w -> Forall (fun p => 0 <= p < w) l ->
  exists v, Flags_unpack w init l = Some v /\ 0 <= v < 2 ^ w /\
    forall p, 0 <= p < w ->
      (Flags_get w v p = Some true <-> (Flags_get w init p = Some true \/ In p l)).
Proof. exact unpack_spec. Qed.
Print Assumptions C06_flags_construct.

(** Equality of flag sets is equality of membership. *)
Theorem C06_flags_equality : forall w a b, w = 8 \/ w = 16 \/ w = 32 \/ w = 64 ->
  0 <= a < 2 ^ w -> 0 <= b < 2 ^ w ->
  (Flags_eq a b = true <-> forall p, 0 <= p < w -> Flags_get w a p = Flags_get w b p).
Proof. exact eq_spec. Qed.
Print Assumptions C06_flags_equality.

(** Outside the stated domain: an index past a narrow store is silently ignored. *)
Theorem C06_flags_index_past_store_ignored : forall w v p,
  (w = 8 \/ w = 16) -> w <= p < 32 -> 0 <= v < 2 ^ w -> Flags_set w v p true = Some v.
Proof. exact narrow_dropped. Qed.
Print Assumptions C06_flags_index_past_store_ignored.

Example C06_nonvacuous :
  Flags_run 16 0x10 [(3, true); (15, true); (4, false); (3, false)] = Some 0x8000 /\
  Flags_unpack 64 0 [63; 0] = Some (2 ^ 63 + 1) /\
  last_op [(3, true); (15, true); (4, false); (3, false)] 15 false = true.
Proof. vm_compute. repeat split; reflexivity. Qed.
