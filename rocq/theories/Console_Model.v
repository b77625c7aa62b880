(** Model of SetConsoleTextColor and RestoreConsoleTextColor, datas/internal/master_printer_ix.inl and
    datas/internal/master_printer_win.inl.  Characters as ASCII codes; int arguments as integers. *)
From Verif Require Import Base Flags_Model Reflector_Model.

(** master_printer_ix.inl:18-23: sprintf of an escape sequence, ESC [38;2;r;g;bm, into 32 bytes; [None]: it writes beyond them.
    %i writes what std::to_string does. *)
Definition escape (red green blue : Z) : list Z :=
  [27; 91; 51; 56; 59; 50; 59] ++ to_string red ++ [59] ++ to_string green ++ [59] ++ to_string blue ++ [109].
Definition buffer_size : nat := 32.
Definition set_ix (red green blue : Z) : option (list Z) :=
  if (S (length (escape red green blue)) <=? buffer_size)%nat then Some (escape red green blue) else None.
(** master_printer_ix.inl:25-27: ESC [0m *)
Definition restore_ix : list Z := [27; 91; 48; 109].

(** master_printer.cpp:24-29 *)
Definition MSC_Text_Blue := 0.
Definition MSC_Text_Green := 1.
Definition MSC_Text_Red := 2.
Definition MSC_Text_Intensify := 3.
(** master_printer_win.inl:20-39: the attribute given to SetConsoleTextAttribute, from the saved attribute.  ValueType is uint32
    (TypeFromSize of an int enumeration); the Windows call takes the low 16 bits. *)
Definition win_attribute (saved red green blue : Z) : option Z :=
  let intesify := Z.lor (Z.lor red green) blue >? 128 in
  let sub x := if intesify then x - 127 else x in
  match Flags_set 32 saved MSC_Text_Intensify intesify with
  | None => None
  | Some f1 =>
    match Flags_set 32 f1 MSC_Text_Red (sub red >? 0) with
    | None => None
    | Some f2 =>
      match Flags_set 32 f2 MSC_Text_Green (sub green >? 0) with
      | None => None
      | Some f3 => option_map (wrap 16) (Flags_set 32 f3 MSC_Text_Blue (sub blue >? 0))
      end
    end
  end.
(** The console's attribute word and the saved one, __MasterPrinter.consoleColorAttr (zero before any printer is made) *)
Record console := Console { attr : Z; saved : Z }.
(** MasterPrinterThread(), master_printer_win.inl:55-61 *)
Definition make_printer (c : console) : console := Console (attr c) (Z.land (attr c) 15).
Definition set_win (red green blue : Z) (c : console) : option console :=
  option_map (fun a => Console a (saved c)) (win_attribute (saved c) red green blue).
(** master_printer_win.inl:51-53, the one without arguments: the other, :41-45, is never called *)
Definition restore_win (c : console) : option console := set_win 31 31 31 c.
Inductive call := MakePrinter | SetColor (red green blue : Z) | Restore.
Definition do_call (c : call) (s : console) : option console :=
  match c with MakePrinter => Some (make_printer s) | SetColor r g b => set_win r g b s | Restore => restore_win s end.
Fixpoint run (l : list call) (s : console) : option console :=
  match l with [] => Some s | c :: r => match do_call c s with None => None | Some s' => run r s' end end.
