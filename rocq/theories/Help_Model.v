(** Model of datas/settings_manager.hpp: GetHelp and the text CreateLog writes.  Characters as ASCII codes. *)
From Coq Require Import Strings.Ascii Strings.String.
From Verif Require Import Base Reflector_Model RefAccess_Model.
Definition ascii (s : string) : list Z := map (fun c => Z.of_nat (nat_of_ascii c)) (list_ascii_of_string s).

(** What was written to the stream, and how the call ended: [Throws] is std::out_of_range of the registry's at(),
    [Crash] a null pointer dereferenced, [TooDeep] an exhausted stack (the bound of this model). *)
Inductive ending := Done | Throws | Crash | TooDeep.
Definition out := (list Z * ending)%type.
Definition followed (a : out) (b : out) : out :=
  match a with (t, Done) => (t ++ fst b, snd b)%list | _ => a end.
Definition writes (t : list Z) : out := (t, Done).

(** fillIndent: settings_manager.hpp:73-79 *)
Definition fillIndent (level : nat) : list Z := repeat 9 level.

(** REFSubClassStorage, REFEnumStorage *)
Record registry := mkRegistry { rClasses : Z -> option info; rEnums : Z -> option (list (list Z)) }.

(** settings_manager.hpp:92-95 *)
Definition nested (t : reflType) : bool :=
  is_class (type t) || ((ref_eqb (type t) RArray || ref_eqb (type t) RArrayClass) && is_class (subType t)).

(** One member: settings_manager.hpp:82-105 *)
Definition help_member (r : registry) (rec : info -> nat -> out) (c : info) (level i : nat) (t : reflType) : out :=
  match iNames c, iDescs c with
  | Some ns, Some ds =>
    match nth_error ns i, nth_error ds i with
    | Some elName, Some elDesc =>
      followed (writes (fillIndent level ++ elName ++ [10]))
      (followed (match fst elDesc with [] => writes [] | d => writes (fillIndent (level + 1) ++ d ++ [10]) end)
      (if nested t then
         match rClasses r (typeHash t) with None => ([], Throws) | Some s => rec s (level + 1)%nat end
       else if ref_eqb (type t) REnum then
         match rEnums r (typeHash t) with
         | None => ([], Throws)
         | Some names => writes (fillIndent (level + 1) ++ ascii "Values: " ++ flat_map (fun n => n ++ ascii ", ") names ++ [10])
         end
       else writes []))
    | _, _ => ([], Crash)
    end
  | _, _ => ([], Crash)
  end%list.
(** settings_manager.hpp:71-108 *)
Fixpoint help_members (r : registry) (rec : info -> nat -> out) (c : info) (level i : nat) (ts : list reflType) : out :=
  match ts with
  | [] => writes []
  | t :: rest => followed (help_member r rec c level i t) (help_members r rec c level (S i) rest)
  end.
Fixpoint GetHelp (r : registry) (fuel : nat) (c : info) (level : nat) : out :=
  match fuel with
  | O => ([], TooDeep)
  | S f => help_members r (GetHelp r f) c level 0 (iTypes c)
  end.
(** settings_manager.hpp:110-114 *)
Definition GetHelpAll (r : registry) (fuel : nat) (className : list Z) (c : info) : out :=
  followed (writes (className ++ ascii " settings." ++ [10])) (GetHelp r fuel c 1).

(** CreateLog after the file was opened: settings_manager.hpp:53-68; [time] is the formatted time, [threads] the number in decimal.
    A value is written as a C string. *)
Fixpoint c_str (s : list Z) : list Z := match s with [] => [] | c :: r => if c =? 0 then [] else c :: c_str r end.
Fixpoint log_lines (c : info) (value : Z -> list Z) (i n : nat) : out :=
  match n with
  | O => writes []
  | S n' =>
    match GetReflectedPair c value (Z.of_nat i) true false with
    | None => ([], Crash)
    | Some (name, v) => followed (writes ([9] ++ name ++ ascii ": " ++ c_str v ++ [10])) (log_lines c value (S i) n')
    end
  end%list.
Definition CreateLog (time threads : list Z) (c : info) (value : Z -> list Z) : out :=
  followed (writes (ascii "Current time: " ++ time ++ [10] ++ ascii "Number of concurrent threads: " ++ threads ++ [10] ++ ascii "Configuration:" ++ [10]))
  (followed (log_lines c value 0 (length (iTypes c))) (writes [10])).
