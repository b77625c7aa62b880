(** The Unicode encoding forms (The Unicode Standard, table 3-6 and definition D91). *)
From Verif Require Import Base.

(** scalar values: the code points that are characters *)
Definition scalar (c : Z) : Prop := 0 <= c < 0x110000 /\ ~ 0xD800 <= c < 0xE000.
(** a continuation byte *)
Definition tail (b : Z) : Prop := 0x80 <= b < 0xC0.
(** UTF-8: the bytes of a code point, shortest form *)
Inductive utf8 : Z -> list Z -> Prop :=
  | utf8_1 c : 0 <= c < 0x80 -> utf8 c [c]
  | utf8_2 a b : 0xC0 <= a < 0xE0 -> tail b -> let c := (a - 0xC0) * 64 + (b - 0x80) in 0x80 <= c -> utf8 c [a; b]
  | utf8_3 a b d : 0xE0 <= a < 0xF0 -> tail b -> tail d ->
      let c := ((a - 0xE0) * 64 + (b - 0x80)) * 64 + (d - 0x80) in 0x800 <= c -> utf8 c [a; b; d]
  | utf8_4 a b d e : 0xF0 <= a < 0xF8 -> tail b -> tail d -> tail e ->
      let c := (((a - 0xF0) * 64 + (b - 0x80)) * 64 + (d - 0x80)) * 64 + (e - 0x80) in 0x10000 <= c -> utf8 c [a; b; d; e].
(** UTF-16: one unit, or a surrogate pair *)
Inductive utf16 : Z -> list Z -> Prop :=
  | utf16_1 c : 0 <= c < 0x10000 -> utf16 c [c]
  | utf16_2 h l : 0xD800 <= h < 0xDC00 -> 0xDC00 <= l < 0xE000 -> utf16 (0x10000 + (h - 0xD800) * 1024 + (l - 0xDC00)) [h; l].
(** a text in an encoding form: the sequences of its characters one after the other *)
Definition spells (form : Z -> list Z -> Prop) (text : list Z) (units : list Z) : Prop :=
  Forall scalar text /\ exists parts, Forall2 form text parts /\ units = concat parts.
