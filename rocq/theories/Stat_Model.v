(** Model of FileType, datas/internal/stat_ix.inl (POSIX) and stat_win.inl (Windows), and IsHelp of datas/tchar.hpp. *)
From Coq Require Import Strings.Ascii Strings.String.
From Verif Require Import Base StringView_Model.

(** stat.hpp:24-29 *)
Inductive FileType_e := Error | Invalid | Directory | File.

(** sys/stat.h of Linux *)
Definition S_IFDIR := 0x4000.
Definition S_IFREG := 0x8000.
(** stat_ix.inl:20-33; [st_mode] is None when stat fails *)
Definition FileType_ix (st_mode : option Z) : FileType_e :=
  match st_mode with
  | Some m => if negb (Z.land m S_IFDIR =? 0) then Directory else if negb (Z.land m S_IFREG =? 0) then File else Invalid
  | None => Error
  end.
(** stat_win.inl:39-57; [flags] is the result of GetFileAttributes *)
Definition INVALID_FILE_ATTRIBUTES := 0xFFFFFFFF.
Definition FILE_ATTRIBUTE_DIRECTORY := 0x10.
Definition FileType_win (flags : Z) : FileType_e :=
  if flags =? INVALID_FILE_ATTRIBUTES then Invalid
  else if negb (Z.land flags FILE_ATTRIBUTE_DIRECTORY =? 0) then Directory else File.

Definition ascii (s : string) : list Z := map (fun c => Z.of_nat (nat_of_ascii c)) (list_ascii_of_string s).
(** tchar.hpp:73-76 *)
Definition IsHelp (data : list Z) : bool :=
  sv_eq data (ascii "-h") || sv_eq data (ascii "-?") || sv_eq data (ascii "/?") || sv_eq data (ascii "--help").
