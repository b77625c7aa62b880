(** pugixml's own numbers, from its manual (1.9 to 1.11): parsing options, formatting options, encodings, statuses. *)
From Coq Require Import Strings.Ascii Strings.String.
From Verif Require Import Base.
Local Open Scope string_scope.
Local Open Scope Z_scope.
Local Open Scope list_scope.
Definition pugi_parse : list (string * Z) :=
  [("PI", 0x1); ("Comments", 0x2); ("CDATA", 0x4); ("WhiteSpacePCDATA", 0x8); ("Escapes", 0x10); ("EOL", 0x20); ("WConvAttribute", 0x40);
   ("WNormAttribute", 0x80); ("Declaration", 0x100); ("DocType", 0x200); ("WhiteSpavePCDATASingle", 0x400); ("TrimPCDATA", 0x800);
   ("Fragment", 0x1000); ("EmbedPCDATA", 0x2000)].
Definition pugi_format : list (string * Z) :=
  [("Indent", 0x1); ("WriteBOM", 0x2); ("Raw", 0x4); ("NoDeclaration", 0x8); ("NoEscapes", 0x10); ("SaveFileText", 0x20); ("IndentAttributes", 0x40);
   ("NoEmptyElementTaggs", 0x80); ("SkipControlChars", 0x100)].
(** parse_default is parse_cdata, parse_escapes, parse_wconv_attribute and parse_eol; format_default is format_indent *)
Definition pugi_parse_default := 0x74.
Definition pugi_format_default := 0x1.
Definition pugi_encoding : list (string * Z) :=
  [("Auto", 0); ("UTF8", 1); ("UTF16_LE", 2); ("UTF16_BE", 3); ("UFT16", 4); ("UTF32_LE", 5); ("UTF32_be", 6); ("UTF32", 7); ("Wchar", 8); ("Latin1", 9)].
(** what loading reports, other than no error, file not found and no document element *)
Definition pugi_status : list (Z * string) :=
  [(2, "status_io_error"); (3, "status_out_of_memory"); (4, "status_internal_error"); (5, "status_unrecognized_tag"); (6, "status_bad_pi");
   (7, "status_bad_comment"); (8, "status_bad_cdata"); (9, "status_bad_doctype"); (10, "status_bad_pcdata"); (11, "status_bad_start_element");
   (12, "status_bad_attribute"); (13, "status_bad_end_element"); (14, "status_end_element_mismatch"); (15, "status_append_invalid_root")].
Definition value (n : string) (l : list (string * Z)) : Z := match find (fun c => String.eqb (fst c) n) l with Some c => snd c | None => 0 end.
(** the options named, together *)
Definition together (l : list (string * Z)) (ns : list string) : Z := fold_right (fun n x => Z.lor (value n l) x) 0 ns.
