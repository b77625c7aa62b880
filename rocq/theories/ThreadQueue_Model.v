(** Model of datas/multi_thread.hpp, RunThreadedQueue, as a transition system: the calling
    thread executes the function statement by statement while started calls finish at
    arbitrary moments in between.

    Simplifications: std::async never fails to create a thread; a call of fc is atomic
    except for its start and its end; what fc returns or throws stays in its future and is
    never looked at (the code never calls get()). *)
From Verif Require Import Base.
Local Open Scope nat_scope.

(** Where the calling thread is. *)
Inductive phase :=
| Launch            (* multi_thread.hpp:33-36, the first range-for *)
| While             (* :38, about to test [curTask < numTasks] *)
| Poll (j : nat)    (* :39-49, range-for over workingThreads, at element j *)
| Wait (j : nat)    (* :52-54, at element j *)
| Done.             (* returned *)

(** A future in workingThreads: the task it runs and whether that call has finished. *)
Record state := mk {
  ph : phase;
  cur : nat;                       (* curTask *)
  slots : list (nat * bool);       (* the futures assigned so far *)
  started : list nat;              (* arguments fc has been called with, oldest first *)
  finished : list nat              (* calls that have returned, oldest first *)
}.

(** multi_thread.hpp:26-31 *)
Definition init : state := mk Launch 0 [] [] [].

Definition set_slot (l : list (nat * bool)) (j : nat) (x : nat * bool) : list (nat * bool) :=
  firstn j l ++ x :: skipn (S j) l.

(** One statement of the calling thread; [None]: it has returned or is blocked in wait().
    [hw] is std::thread::hardware_concurrency(), [n] is numTasks (:26-27). *)
Definition main_step (hw n : nat) (s : state) : option state :=
  let m := Nat.min hw n in
  match ph s with
  | Launch =>
      if length (slots s) <? m then
        (* :34 wt = std::async(std::launch::async, fc, curTask); curTask++; *)
        Some (mk Launch (S (cur s)) (slots s ++ [(cur s, false)]) (started s ++ [cur s]) (finished s))
      else Some (mk While (cur s) (slots s) (started s) (finished s))
  | While =>
      if cur s <? n then Some (mk (Poll 0) (cur s) (slots s) (started s) (finished s))
      else Some (mk (Wait 0) (cur s) (slots s) (started s) (finished s))
  | Poll j =>
      match nth_error (slots s) j with
      | None => Some (mk While (cur s) (slots s) (started s) (finished s))
      | Some (t, fin) =>
          if n <=? cur s then (* :40-42 break *)
            Some (mk While (cur s) (slots s) (started s) (finished s))
          else if fin then (* :44-47 ready: assign a new call to this future *)
            Some (mk (Poll (S j)) (S (cur s)) (set_slot (slots s) j (cur s, false))
                    (started s ++ [cur s]) (finished s))
          else (* timed out *)
            Some (mk (Poll (S j)) (cur s) (slots s) (started s) (finished s))
      end
  | Wait j =>
      match nth_error (slots s) j with
      | None => Some (mk Done (cur s) (slots s) (started s) (finished s))
      | Some (t, fin) =>
          if fin then Some (mk (Wait (S j)) (cur s) (slots s) (started s) (finished s)) else None
      end
  | Done => None
  end.

(** The call running in future [j] returns. *)
Definition finish_step (j : nat) (s : state) : option state :=
  match nth_error (slots s) j with
  | Some (t, false) =>
      Some (mk (ph s) (cur s) (set_slot (slots s) j (t, true)) (started s) (finished s ++ [t]))
  | _ => None
  end.

Definition trans (hw n : nat) (s s' : state) : Prop :=
  main_step hw n s = Some s' \/ exists j, finish_step j s = Some s'.

Inductive reachable (hw n : nat) : state -> Prop :=
| reach_init : reachable hw n init
| reach_step s s' : reachable hw n s -> trans hw n s s' -> reachable hw n s'.
