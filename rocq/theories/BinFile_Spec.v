(** C81: when an object stands for a file. *)
From Verif Require Import Base BinFile_Model.
Local Open Scope nat_scope.

Section Spec.
  Context (k : kind) (allowed : name -> bool).
  Definition after (fs : name -> option (list Z)) (l : list op) : world := run k allowed (empty_world fs) l.
  (** Call [o] opened file [n] with object [i], by the constructor or by Open; the next object made has the number
      [length (objs w)] *)
  Definition opens (w : world) (o : op) (i : nat) (n : name) : Prop :=
    (o = Open i n \/ (o = CreateOpen n /\ i = length (objs w))) /\ fst (step k allowed w o) = Ok.
  Definition opened_before (fs : name -> option (list Z)) (l : list op) (i : nat) (n : name) : Prop :=
    exists a o b, l = a ++ o :: b /\ opens (after fs a) o i n.
  Definition alive (w : world) (i : nat) : Prop := the w i <> None.
  (** the system can open it: a reader's file must exist *)
  Definition can_open (fs : name -> option (list Z)) (n : name) : Prop := allowed n = true /\ (k = Reader -> fs n <> None).
  Definition no_moves (l : list op) : Prop := forall i, ~ In (MoveFrom i) l.
  Definition leaves (i : nat) (o : op) : Prop := o <> Destroy i /\ forall n, o <> Open i n.
End Spec.
