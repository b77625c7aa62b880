(** Model of datas/supercore.hpp and InvalidHeaderError::DecompileFourCC.
    [None] = undefined behaviour (a read outside the object). *)
From Verif Require Import Base.

(** datas/supercore.hpp:50-55, GetPadding; size_t is 64 bits. *)
Definition GetPadding (value alignment : Z) : Z :=
  let mask := u64 (alignment - 1) in
  let result := Z.land value mask in
  if result =? 0 then 0 else u64 (alignment - result).

(** datas/supercore.hpp:84-86, IsPow2 instantiated at a w-bit unsigned type. *)
Definition IsPow2 (w input : Z) : bool := Z.land input (wrap w (input - 1)) =? 0.

(** datas/supercore.hpp:96-114.  A view is its characters plus what the memory
    holds just before and just after it ([None]: nothing readable there).
    [input[0]] of an empty view is the character just after it, [back()] of an
    empty view the one just before it; both are evaluated before [empty()].
    After characters have been removed, the neighbour on the other side is
    irrelevant to the loop that removes on this side. *)
Definition is_blank (nl : bool) (c : Z) : bool :=
  (c =? 32) || (c =? 9) || (nl && (c =? 10)).

Fixpoint SkipStartWhitespace (nl : bool) (input : list Z) (after : option Z) : option (list Z) :=
  match input with
  | [] => match after with None => None | Some _ => Some [] end
  | c :: r => if is_blank nl c then SkipStartWhitespace nl r after else Some input
  end.

(** The same loop from the other end: on the reversed characters. *)
Definition SkipEndWhitespace (nl : bool) (input : list Z) (before : option Z) : option (list Z) :=
  option_map (@rev Z) (SkipStartWhitespace nl (rev input) before).

(** datas/supercore.hpp:116-119.  The view handed to the second loop starts
    inside the original buffer, so the character before it is the last one
    skipped, or the original neighbour. *)
Definition TrimWhitespace (input : list Z) (before after : option Z) : option (list Z) :=
  match SkipStartWhitespace false input after with
  | None => None
  | Some r =>
      let skipped := firstn (length input - length r) input in
      let before' := match rev skipped with [] => before | c :: _ => Some c end in
      SkipEndWhitespace false r before'
  end.

(** datas/supercore.hpp:38-46, CompileFourCC on a literal whose first four
    characters are [s]; [char] is signed, so widening it to uint32 sign-extends. *)
Definition fourcc_step (acc : Z) (i : Z) (c : Z) : Z :=
  Z.lor acc (u32 (u32 (sgn 8 c) * 2 ^ (8 * i))).
Definition CompileFourCC (s : list Z) : option Z :=
  match s with
  | a :: b :: c :: d :: _ =>
      Some (fourcc_step (fourcc_step (fourcc_step (fourcc_step 0 0 a) 1 b) 2 c) 3 d)
  | _ => None (* shorter literals: out-of-bounds constant expression *)
  end.

(** traits_type::length over the object bytes of [magic] (except.hpp:48-50):
    scanning past the object is undefined behaviour. *)
Fixpoint c_strlen (l : list Z) : option nat :=
  match l with
  | [] => None
  | c :: r => if c =? 0 then Some O else option_map S (c_strlen r)
  end.

(** isalnum in the "C" locale; negative arguments other than EOF (-1) are
    undefined behaviour (the argument is a plain, signed char). *)
Definition c_isalnum (c : Z) : option bool :=
  if c <? 128 then
    Some (((48 <=? c) && (c <=? 57)) || ((65 <=? c) && (c <=? 90)) || ((97 <=? c) && (c <=? 122)))
  else if c =? 255 then Some false else None.

(** the first loop of except.hpp:53-58 *)
Fixpoint all_alnum (l : list Z) : option bool :=
  match l with
  | [] => Some true
  | c :: r => match c_isalnum c with
              | None => None
              | Some false => Some false
              | Some true => all_alnum r
              end
  end.

Definition hex_digit (d : Z) : Z := if d <? 10 then 48 + d else 55 + d.
(** snprintf "0x%X " of one byte (except.hpp:66-68) *)
Definition hex_byte (b : Z) : list Z :=
  [48; 120] ++ (if b <? 16 then [hex_digit b] else [hex_digit (b / 16); hex_digit (b mod 16)]) ++ [32].

(** datas/except.hpp:47-73 *)
Definition DecompileFourCC (magic : Z) (size : nat) : option (list Z) :=
  let rMagic := le_bytes 8 magic in
  match c_strlen rMagic with
  | None => None
  | Some len =>
      let capSize := Nat.min size len in
      let cs := firstn capSize rMagic in
      match all_alnum cs with
      | None => None
      | Some true => Some cs
      | Some false => Some (flat_map hex_byte cs)
      end
  end.
