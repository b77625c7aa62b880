(** Model of the exceptions of datas/except.hpp: the text what() returns.  Characters as ASCII codes;
    [None]: the constructor's behaviour is undefined. *)
From Verif Require Import Base Supercore_Model Reflector_Model.
From Coq Require Import Strings.Ascii Strings.String.
Definition ascii (s : string) : list Z := map (fun c => Z.of_nat (nat_of_ascii c)) (list_ascii_of_string s).

(** except.hpp:26-33 *)
Definition FileNotFoundError (fileName : option (list Z)) : list Z :=
  match fileName with None => ascii "Couldn't open file." | Some n => (ascii "Couldn't open file: " ++ n)%list end.
(** except.hpp:35-42 *)
Definition FileInvalidAccessError (fileName : option (list Z)) : list Z :=
  match fileName with None => ascii "Couldn't access file." | Some n => (ascii "Couldn't access file: " ++ n)%list end.
(** except.hpp:75-80.  An integer argument of any type is converted to size_t (a negative one is sign extended); [size] is
    sizeof(T) unless given. *)
Inductive header_arg := NoArg | Text (s : list Z) | Magic (v : Z) (size : nat).
Definition InvalidHeaderError (a : header_arg) : option (list Z) :=
  match a with
  | NoArg => Some (ascii "Invalid format.")
  | Text s => Some (ascii "Invalid format: " ++ s)%list
  | Magic v size => option_map (fun t => ascii "Invalid format: " ++ t)%list (DecompileFourCC (u64 v) size)
  end.
(** except.hpp:83-90 *)
Definition InvalidVersionError (version : option Z) : list Z :=
  match version with None => ascii "Invalid version." | Some v => (ascii "Invalid version: " ++ to_string (u64 v))%list end.
(** except.hpp:92-97 *)
Definition UnexpectedEOS : list Z := ascii "Unexpected end of stream.".
