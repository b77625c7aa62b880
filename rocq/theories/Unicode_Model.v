(** String conversions: datas/unicode.hpp (and the to_string / to_wstring wrappers of datas/tchar.hpp).
    The conversions call std::wstring_convert; the standard codecvt facets are modelled after libstdc++ 13:
    malformed input throws std::range_error, an incomplete sequence at the very end of the input is
    dropped without an error.  [strict]: the library rejects surrogate code points in UTF-8 and UTF-32
    (recent releases) or lets them through (older ones).  Strings are lists of code units; a pointer
    argument is the memory from there on, up to and beyond its terminator. *)
From Verif Require Import Base.

Inductive result := Text (l : list Z) | Throws | Undefined.

Definition is_surrogate (c : Z) : bool := (0xD800 <=? c) && (c <=? 0xDFFF).

(** libstdc++ write_utf8_code_point *)
Definition put_utf8 (c : Z) : list Z :=
  if c <? 0x80 then [c]
  else if c <=? 0x7FF then [Z.shiftr c 6 + 0xC0; Z.land c 0x3F + 0x80]
  else if c <=? 0xFFFF then [Z.shiftr c 12 + 0xE0; Z.land (Z.shiftr c 6) 0x3F + 0x80; Z.land c 0x3F + 0x80]
  else [Z.shiftr c 18 + 0xF0; Z.land (Z.shiftr c 12) 0x3F + 0x80; Z.land (Z.shiftr c 6) 0x3F + 0x80; Z.land c 0x3F + 0x80].

(** libstdc++ read_utf8_code_point *)
Inductive read := Got (c : Z) (rest : list Z) | Incomplete | Invalid.
Definition cont (c : Z) : bool := Z.land c 0xC0 =? 0x80.
Definition read_utf8 (strict : bool) (from : list Z) : read :=
  match from with
  | [] => Incomplete
  | c1 :: r1 =>
    if c1 <? 0x80 then Got c1 r1
    else if c1 <? 0xC2 then Invalid
    else match r1 with
    | [] => if c1 <? 0xF5 then Incomplete else Invalid
    | c2 :: r2 =>
      if c1 <? 0xE0 then
        if negb (cont c2) then Invalid else Got (Z.shiftl c1 6 + c2 - 0x3080) r2
      else if c1 <? 0xF0 then
        if negb (cont c2) then Invalid
        else if (c1 =? 0xE0) && (c2 <? 0xA0) then Invalid
        else if strict && (c1 =? 0xED) && (c2 >=? 0xA0) then Invalid
        else match r2 with
        | [] => Incomplete
        | c3 :: r3 => if negb (cont c3) then Invalid else Got (Z.shiftl c1 12 + Z.shiftl c2 6 + c3 - 0xE2080) r3
        end
      else if c1 <? 0xF5 then
        if negb (cont c2) then Invalid
        else if (c1 =? 0xF0) && (c2 <? 0x90) then Invalid
        else if (c1 =? 0xF4) && (c2 >=? 0x90) then Invalid
        else match r2 with
        | [] => Incomplete
        | c3 :: r3 =>
          if negb (cont c3) then Invalid
          else match r3 with
          | [] => Incomplete
          | c4 :: r4 => if negb (cont c4) then Invalid else Got (Z.shiftl c1 18 + Z.shiftl c2 12 + Z.shiftl c3 6 + c4 - 0x3C82080) r4
          end
        end
      else Invalid
    end
  end.

(** libstdc++ write_utf16_code_point into a wide string *)
Definition put_utf16 (c : Z) : list Z :=
  if c <=? 0xFFFF then [c]
  else [0xD800 - Z.shiftr 0x10000 10 + Z.shiftr c 10; 0xDC00 + Z.land c 0x3FF].

(** wstring_convert of codecvt_utf8_utf16, from_bytes: every code point read is written as UTF-16 *)
Fixpoint utf8_to_utf16 (strict : bool) (fuel : nat) (from : list Z) : result :=
  match fuel with
  | O => Text []
  | S fuel =>
    match from with
    | [] => Text []
    | _ =>
      match read_utf8 strict from with
      | Incomplete => Text []
      | Invalid => Throws
      | Got c rest =>
        match utf8_to_utf16 strict fuel rest with Text l => Text (put_utf16 c ++ l) | r => r end
      end
    end
  end.

(** wstring_convert of codecvt_utf8_utf16, to_bytes: a lone high surrogate at the end is dropped *)
Fixpoint utf16_to_utf8 (from : list Z) : result :=
  match from with
  | [] => Text []
  | c :: r =>
    if (0xD800 <=? c) && (c <=? 0xDBFF) then
      match r with
      | [] => Text []
      | c2 :: r2 =>
        if (0xDC00 <=? c2) && (c2 <=? 0xDFFF) then
          match utf16_to_utf8 r2 with
          | Text l => Text (put_utf8 (Z.shiftl c 10 + c2 - 0x35FDC00) ++ l)
          | x => x
          end
        else Throws
      end
    else if (0xDC00 <=? c) && (c <=? 0xDFFF) then Throws
    else match utf16_to_utf8 r with Text l => Text (put_utf8 c ++ l) | x => x end
  end.

(** wstring_convert of codecvt_utf8 over char32_t, to_bytes *)
Fixpoint utf32_to_utf8 (strict : bool) (from : list Z) : result :=
  match from with
  | [] => Text []
  | c :: r =>
    if 0x10FFFF <? c then Throws
    else if strict && is_surrogate c then Throws
    else match utf32_to_utf8 strict r with Text l => Text (put_utf8 c ++ l) | x => x end
  end.

(** the characters before the terminator (string_view.hpp, char_traits::length; C20-C23) *)
Fixpoint c_str (mem : list Z) : list Z :=
  match mem with [] => [] | c :: r => if c =? 0 then [] else c :: c_str r end.

(** _utf8cvt of 2-byte and of 4-byte characters, the basic_string overload: 44-49, 61-66.  The address of
    the last element is formed through prev(end()), which for an empty string lies before its storage *)
Definition Cvt (strict : bool) (size : Z) (input : list Z) : result :=
  match input with
  | [] => Undefined
  | _ => if size =? 2 then utf16_to_utf8 input else utf32_to_utf8 strict input
  end.
(** the pointer overload: 36-42, 53-59 *)
Definition Cvt_ptr (strict : bool) (size : Z) (mem : list Z) : result := Cvt strict size (c_str mem).

(** ToUTF8: 74-80; [size] is the size of the character type *)
Definition ToUTF8 := Cvt.
Definition ToUTF8_ptr := Cvt_ptr.
(** ToUTF1632: 87-90, and the pointer overload 82-85; the wide string holds UTF-16 units whatever the
    size of wchar_t *)
Definition ToUTF1632 (strict : bool) (input : list Z) : result := utf8_to_utf16 strict (length input) input.
Definition ToUTF1632_ptr (strict : bool) (mem : list Z) : result := ToUTF1632 strict (c_str mem).

(** std::to_string(wstring), std::to_wstring(string): tchar.hpp 44-54; wchar_t has 4 bytes on Linux, 2 on Windows *)
Definition to_string (strict : bool) (wchar_size : Z) (s : list Z) : result := ToUTF8 strict wchar_size s.
Definition to_wstring (strict : bool) (s : list Z) : result := ToUTF1632 strict s.
