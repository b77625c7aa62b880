(** What a user expects of the log printer, without reference to streams or locks. *)
From Coq Require Import Strings.Ascii Strings.String.
From Verif Require Import Base Printer_Model.
Local Open Scope nat_scope.
Local Open Scope list_scope.

(** Text up to its first NUL character. *)
Fixpoint upto_nul (l : list Z) : list Z :=
  match l with
  | [] => []
  | c :: r => if Z.eqb c 0 then [] else c :: upto_nul r
  end.

(** The messages a sequence of operations denotes: text written since the previous
    message, plus a newline if asked for; the last type given since then, MSG by default. *)
Fixpoint messages (text : list Z) (ty : mptype) (l : list op) : list message :=
  match l with
  | [] => []
  | OText t :: r => messages (text ++ t) ty r
  | OType ty' :: r => messages text ty' r
  | OEnd nl :: r => (ty, upto_nul (text ++ if nl then [10%Z] else [])) :: messages [] MSG r
  end.

(** The characters of a literal. *)
Definition chars (s : string) : list Z := map (fun c => Z.of_N (N_of_ascii c)) (list_ascii_of_string s).
(** What one message looks like on one sink, colour sequences aside. *)
Definition rendering (tid : option (list Z)) (m : message) : list (list Z) :=
  (match tid with Some id => [chars "Thread[0x"; id; chars "] "] | None => [] end) ++
  (match fst m with WRN => [chars "WARNING: "] | ERR => [chars "ERROR: "] | _ => [] end) ++ [snd m].

(** The strings sink [f] was called with, in order. *)
Definition received (f : nat) (calls : list (nat * payload)) : list (list Z) :=
  flat_map (fun c => if fst c =? f then match snd c with Str s => [s] | _ => [] end else []) calls.
