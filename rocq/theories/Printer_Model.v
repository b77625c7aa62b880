(** Model of datas/master_printer.hpp, master_printer.cpp and
    datas/internal/master_printer_ix.inl. Characters are byte values. *)
From Verif Require Import Base.
Local Open Scope nat_scope.

(** master_printer.hpp:27 *)
Inductive mptype := MSG | WRN | ERR | INF.

(** A std::stringstream: its buffer and put position. The get position is 0 whenever
    FlushAll reads (master_printer.cpp:74 puts it there at the end of each call). *)
Record stream := St { content : list Z; putp : nat }.
Definition empty_stream : stream := St [] 0.

(** operator<< of text: overwrite at the put position, extending the buffer. *)
Definition put (s : stream) (t : list Z) : stream :=
  St (firstn (putp s) (content s) ++ t ++ skipn (putp s + length t) (content s)) (putp s + length t).

(** Per-thread object (master_printer.hpp:29-32). *)
Record printer := Pr { ms : stream; cType : mptype }.
Definition fresh_printer : printer := Pr empty_stream MSG.

(** The C string starting at the front of a buffer of known bytes; [None]: no terminator
    among them, so a reader runs into memory nobody wrote. *)
Fixpoint cstr (l : list Z) : option (list Z) :=
  match l with
  | [] => None
  | c :: r => if Z.eqb c 0 then Some [] else match cstr r with Some s => Some (c :: s) | None => None end
  end.

(** master_printer.cpp:62-74, the thread-local half of FlushAll: the bytes read into
    tempOut and the stream left behind (maximumStreamSize is 2048, master_printer.hpp:31). *)
Definition flush_read (s : stream) : list Z * stream :=
  let buffsize := putp s + 1 in
  let tempOut := firstn buffsize (content s) in
  (tempOut, if 2048 <? buffsize then empty_stream else St (content s) 0).

(** What a caller can do with its printer. *)
Inductive op :=
| OText (t : list Z)     (* printer << text, master_printer.hpp:37-40 *)
| OType (t : mptype)     (* printer << MPType, master_printer.hpp:56-61 *)
| OEnd (newline : bool). (* printer >> 1 or >> 0, master_printer.cpp:115-121 *)

(** FlushAll (master_printer.cpp:61-113) seen by one thread: the message handed to the
    sinks, and the printer afterwards (:111 resets the type). *)
Definition flush_all (p : printer) : mptype * option (list Z) * printer :=
  let '(buf, s) := flush_read (ms p) in
  (cType p, cstr buf, Pr s MSG).

(** One operation: the messages it hands over (at most one) and the new printer. *)
Definition do_op (p : printer) (o : op) : list (mptype * option (list Z)) * printer :=
  match o with
  | OText t => ([], Pr (put (ms p) t) (cType p))
  | OType t => ([], Pr (ms p) t)
  | OEnd nl =>
      let s := if nl then put (ms p) [10%Z] else ms p in
      let s := put s [0%Z] in
      let '(ty, txt, p') := flush_all (Pr s (cType p)) in
      ([(ty, txt)], p')
  end.
Fixpoint do_ops (p : printer) (l : list op) : list (mptype * option (list Z)) * printer :=
  match l with
  | [] => ([], p)
  | o :: r => let '(a, p1) := do_op p o in let '(b, p2) := do_ops p1 r in (a ++ b, p2)
  end.

(** What a sink's print_func is called with. *)
Inductive payload :=
| Str (s : list Z)
| Color (r g b : Z)      (* master_printer_ix.inl:18-23, the escape sequence *)
| Restore.               (* master_printer_ix.inl:25-27 *)

(** A registered sink: identity of the function, useColor (master_printer.cpp:34-40). *)
Definition sink := (nat * bool)%type.

(** master_printer.cpp:54-59, AddPrinterFunction *)
Definition add_sink (fs : list sink) (f : nat) (useColor : bool) : list sink :=
  if existsb (fun c => fst c =? f) fs then fs else fs ++ [(f, useColor)].

(** master_printer_ix.inl:29-36 and 38-45: both escape helpers address every colour sink *)
Definition broadcast (fs : list sink) (p : payload) : list (nat * payload) :=
  map (fun c => (fst c, p)) (filter snd fs).

Definition thread_open : list Z := [84;104;114;101;97;100;91;48;120]%Z.  (* Thread[0x *)
Definition thread_close : list Z := [93;32]%Z.                           (* ]  *)
Definition s_warning : list Z := [87;65;82;78;73;78;71;58;32]%Z.         (* WARNING:  *)
Definition s_error : list Z := [69;82;82;79;82;58;32]%Z.                 (* ERROR:  *)

(** master_printer.cpp:78-109, the locked half of FlushAll: every call made to a sink, in
    order. [tid] is the text of the thread id when printThreadID is on. *)
Definition sink_calls (fs : list sink) (tid : option (list Z)) (ty : mptype) (text : list Z)
  : list (nat * payload) :=
  flat_map (fun fc : sink =>
    (match tid with
     | Some id => [(fst fc, Str thread_open); (fst fc, Str id); (fst fc, Str thread_close)]
     | None => [] end) ++
    (if snd fc then
       match ty with
       | WRN => broadcast fs (Color 255 255 0)
       | ERR => broadcast fs (Color 255 0 0)
       | _ => [] end
     else []) ++
    (match ty with WRN => [(fst fc, Str s_warning)] | ERR => [(fst fc, Str s_error)] | _ => [] end) ++
    [(fst fc, Str text)] ++
    (if snd fc then match ty with MSG => [] | _ => broadcast fs Restore end else [])) fs.

(** Threads. Each has messages still to send; the lock_guard (master_printer.cpp:76) makes
    its calls a critical section. [T] identifies a thread, [text] may be anything. *)
Definition message := (mptype * list Z)%type.
Record tstate := Ts { todo : list message; emitting : option (list (nat * payload)) }.
Record world := W {
  owner : option nat;                       (* holder of _mutexPrint *)
  threads : list tstate;
  calls : list (nat * payload);             (* all sink calls so far *)
  sent : list (nat * message)               (* ghost: messages in lock order, with thread *)
}.

Definition set_thread (l : list tstate) (i : nat) (x : tstate) : list tstate :=
  firstn i l ++ x :: skipn (S i) l.

(** One step of thread [i]: take the lock (if free), one sink call, or release. *)
Definition thread_step (fs : list sink) (tid : nat -> option (list Z)) (i : nat) (w : world)
  : option world :=
  match nth_error (threads w) i with
  | None => None
  | Some t =>
      match emitting t with
      | None =>
          match todo t, owner w with
          | m :: r, None =>
              Some (W (Some i) (set_thread (threads w) i (Ts r (Some (sink_calls fs (tid i) (fst m) (snd m)))))
                      (calls w) (sent w ++ [(i, m)]))
          | _, _ => None
          end
      | Some [] => Some (W None (set_thread (threads w) i (Ts (todo t) None)) (calls w) (sent w))
      | Some (c :: r) =>
          Some (W (owner w) (set_thread (threads w) i (Ts (todo t) (Some r))) (calls w ++ [c]) (sent w))
      end
  end.

Inductive runs (fs : list sink) (tid : nat -> option (list Z)) (w0 : world) : world -> Prop :=
| runs_refl : runs fs tid w0 w0
| runs_step w w' i : runs fs tid w0 w -> thread_step fs tid i w = Some w' -> runs fs tid w0 w'.

Definition world0 (progs : list (list message)) : world :=
  W None (map (fun p => Ts p None) progs) [] [].
