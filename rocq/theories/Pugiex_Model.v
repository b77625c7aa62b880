(** Model of datas/pugiex.hpp.  Characters as ASCII codes; of pugixml: the tree of XmlRefl_Model, and what
    load_file and save_file report. *)
From Coq Require Import Strings.Ascii Strings.String.
From Verif Require Import Base Flags_Model Reflector_Model XmlRefl_Model Errors_Model StringView_Model.
Local Open Scope string_scope.
Local Open Scope Z_scope.
Local Open Scope list_scope.

(** pugiex.hpp:29-71; [item] is what REFLECTOR_CREATE stringifies *)
Definition XMLError : list string :=
  ["status_ok"; "status_file_not_found"; "status_io_error"; "status_out_of_memory"; "status_internal_error"; "status_unrecognized_tag";
   "status_bad_pi"; "status_bad_comment"; "status_bad_cdata"; "status_bad_doctype"; "status_bad_pcdata"; "status_bad_start_element";
   "status_bad_attribute"; "status_bad_end_element"; "status_end_element_mismatch"; "status_append_invalid_root"; "status_no_document_element"].
(** pugiex.hpp:73-120, 129-140, 142-166: enumerators without values count from 0 *)
Definition XMLParseFlag : list string :=
  ["PI"; "Comments"; "CDATA"; "WhiteSpacePCDATA"; "Escapes"; "EOL"; "WConvAttribute"; "WNormAttribute"; "Declaration"; "DocType";
   "WhiteSpavePCDATASingle"; "TrimPCDATA"; "Fragment"; "EmbedPCDATA"].
Definition XMLEncoding : list string := ["Auto"; "UTF8"; "UTF16_LE"; "UTF16_BE"; "UFT16"; "UTF32_LE"; "UTF32_be"; "UTF32"; "Wchar"; "Latin1"].
Definition XMLFormatFlag : list string :=
  ["Indent"; "WriteBOM"; "Raw"; "NoDeclaration"; "NoEscapes"; "SaveFileText"; "IndentAttributes"; "NoEmptyElementTaggs"; "SkipControlChars"].
Fixpoint position (n : string) (l : list string) : option Z :=
  match l with [] => None | m :: r => if String.eqb m n then Some 0 else option_map (Z.add 1) (position n r) end.
Fixpoint positions (ns : list string) (l : list string) : option (list Z) :=
  match ns with
  | [] => Some []
  | n :: r => match position n l, positions r l with Some p, Some ps => Some (p :: ps) | _, _ => None end
  end.
(** es::Flags over a uint32 enumeration, constructed from enumerators *)
Definition flags_of (l ns : list string) : option Z := match positions ns l with Some ps => Flags_unpack 32 0 ps | None => None end.
(** pugiex.hpp:124-127 and 170 *)
Definition XMLDefaultParseFlags : option Z := flags_of XMLParseFlag ["CDATA"; "Escapes"; "WConvAttribute"; "EOL"].
Definition XMLDefaultFormatFlags : option Z := flags_of XMLFormatFlag ["Indent"].

(** XMLCollectChildren: 206-216 *)
Definition XMLCollectChildren (node : xml) (childName : list Z) : list xml :=
  filter (fun item => match childName with [] => true | _ => sv_eq (xname item) childName end) (xkids node).

(** XMLFromFile: 218-246.  load_file gives a status number, the offset of an error and the document *)
Inductive outcome (A : Type) :=
| Returns (a : A) | NotFound (what : list Z) | BadHeader (what : list Z) | Access (what : list Z) | Runtime (what : list Z) | Undefined.
Arguments Returns {A}. Arguments NotFound {A}. Arguments BadHeader {A}. Arguments Access {A}. Arguments Runtime {A}. Arguments Undefined {A}.
Definition XMLFromFile (fileName : list Z) (load : Z * Z * xml) : outcome xml :=
  let '(status, offset, doc) := load in
  if status =? 0 then Returns doc
  else if status =? 1 then NotFound (FileNotFoundError (Some fileName))
  else if status =? 16 then match InvalidHeaderError NoArg with Some t => BadHeader t | None => Undefined end
  else match nth_error (REnumInitializer (map ascii XMLError)) (Z.to_nat status) with
       | Some (name, _) => Runtime (ascii "Couldn't load XML file <" ++ fileName ++ ascii ">[" ++ name ++ ascii "] at offset " ++ to_string offset)
       | None => Undefined
       end.
(** XMLToFile: 248-262; [saved] is what save_file returns *)
Definition XMLToFile (fileName : list Z) (saved : bool) : outcome unit :=
  if saved then Returns tt else Access (FileInvalidAccessError (Some fileName)).

(** XMLBaseException: 172-186 and the classes made of it, 188-204.  [at_] is the offset of the node's name
    in the parsed text, [first] that of the first child of the document (pugixml parses in place, so the
    names are pointers into it); the sum is a size_t *)
Definition Generate_ (name : list Z) (at_ first : Z) : list Z :=
  ascii "XML node " ++ name ++ ascii " at offset " ++ to_string (u64 (at_ - first + 25)) ++ ascii ": ".
Definition XMLBaseException (expr name : list Z) (at_ first : Z) : list Z := Generate_ name at_ first ++ expr.
Definition XMLMissingNodeException (nodeName : list Z) := XMLBaseException (ascii "Missing child " ++ nodeName).
Definition XMLMissingNodeAttributeException (attrName : list Z) := XMLBaseException (ascii "Missing attribute " ++ attrName).
Definition XMLEmptyData := XMLBaseException (ascii "Missing data").
