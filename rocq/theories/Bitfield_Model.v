(** Model of datas/bitfield.hpp and datas/internal/bitfield.inl.
    [w] is the number of bits of the unsigned storage type (8, 16, 32, 64); a
    layout is the list of member sizes.  [None] is undefined behaviour (a shift
    by at least the width of the promoted operand) or code that does not compile. *)
From Verif Require Import Base Endian_Model.

(** Width of the type in which a w-bit operand is shifted (integral promotion). *)
Definition promoted (w : Z) : Z := Z.max w 32.
Definition shift_ok (w amount : Z) : bool := (0 <=? amount) && (amount <? promoted w).

(** BitMember { position, size }, datas/bitfield.hpp:26-28. *)
Definition member : Type := Z * Z.

(** BitMember::GetMask, datas/bitfield.hpp:30-35. *)
Definition GetMask (w : Z) (m : member) : option Z :=
  let (position, size) := m in
  let init := 2 ^ w - 1 in
  if shift_ok w (w - size) && shift_ok w position
  then Some (wrap w (Z.shiftl (Z.shiftr init (w - size)) position))
  else None.

(** BitMember::GetMirrorMask, datas/bitfield.hpp:37-42. *)
Definition GetMirrorMask (w : Z) (m : member) : option Z :=
  let (position, size) := m in
  let init := 2 ^ w - 1 in
  if shift_ok w (w - size) && shift_ok w (w - position - size)
  then Some (wrap w (Z.shiftl (Z.shiftr init (w - size)) (w - position - size)))
  else None.

(** BitField::totalSize, datas/bitfield.hpp:49,75. *)
Fixpoint totalSize (l : list Z) : Z :=
  match l with [] => 0 | h :: t => h + totalSize t end.

(** BitField::Get_, datas/bitfield.hpp:64-70 (more members) and :77-79 (last
    member, whatever the index). *)
Fixpoint BF_Get_ (l : list Z) (index : nat) (size : Z) : option member :=
  match l with
  | [] => None
  | [h] => Some (size - totalSize [h], h)
  | h :: t =>
    match index with
    | O => Some (size - totalSize l, h)
    | S i => BF_Get_ t i size
    end
  end.

(** BitField::Get, datas/bitfield.hpp:51-57 (a one-member BitField has no Get). *)
Definition BF_Get (l : list Z) (index : nat) : option member :=
  match l with
  | [] | [_] => None
  | h :: t =>
    match index with
    | O => Some (0, h)
    | S i => BF_Get_ t i (totalSize l)
    end
  end.

(** BitFieldType::Get, datas/bitfield.hpp:91-95. *)
Definition BFT_Get (w : Z) (l : list Z) (index : nat) (value : Z) : option Z :=
  match BF_Get l index with
  | None => None
  | Some item =>
    match GetMask w item with
    | None => None
    | Some mask => Some (Z.shiftr (Z.land value mask) (fst item))
    end
  end.

(** BitFieldType::Set, datas/bitfield.hpp:97-102; returns the new value. *)
Definition BFT_Set (w : Z) (l : list Z) (index : nat) (value input : Z) : option Z :=
  match BF_Get l index with
  | None => None
  | Some item =>
    match GetMask w item with
    | None => None
    | Some mask =>
      let value1 := wrap w (Z.land value (Z.lnot mask)) in
      Some (wrap w (Z.lor value1 (Z.land (Z.shiftl input (fst item)) mask)))
    end
  end.

(** The two loops of SwapBitField, datas/internal/bitfield.inl:40-46 and 52-58. *)
Fixpoint swap_in_loop (w : Z) (ms : list member) (input newVal : Z) : option Z :=
  match ms with
  | [] => Some newVal
  | (position, size) as m :: r =>
    match GetMirrorMask w m with
    | None => None
    | Some mask =>
      let masked := Z.land input mask in
      swap_in_loop w r input
        (wrap w (Z.lor newVal (Z.shiftl (Z.shiftr masked (w - position - size)) position)))
    end
  end.

Fixpoint swap_out_loop (w : Z) (ms : list member) (input newVal : Z) : option Z :=
  match ms with
  | [] => Some newVal
  | (position, size) as m :: r =>
    match GetMask w m with
    | None => None
    | Some mask =>
      let masked := Z.land input mask in
      swap_out_loop w r input
        (wrap w (Z.lor newVal (Z.shiftl (Z.shiftr masked position) (w - position - size))))
    end
  end.

(** FByteswapper(input) guarded by sizeof(type) > 1, bitfield.inl:37-39, 62-64. *)
Definition swap_if_wide (w : Z) (x : Z) : option Z :=
  if 1 <? w / 8 then FByteswapper (w / 8) x else Some x.

(** SwapBitField, datas/internal/bitfield.inl:32-66. *)
Definition SwapBitField (w : Z) (outWay : bool) (ms : list member) (input : Z) : option Z :=
  if outWay then
    match swap_out_loop w ms input 0 with
    | None => None
    | Some x => swap_if_wide w x
    end
  else
    match swap_if_wide w input with
    | None => None
    | Some x => swap_in_loop w ms x 0
    end.

(** Members fetched one by one through [GetMember = parent::Get]. *)
Fixpoint get_all (f : nat -> option member) (n : nat) (i : nat) : option (list member) :=
  match n with
  | O => Some []
  | S n' => match f i, get_all f n' (S i) with
            | Some m, Some r => Some (m :: r)
            | _, _ => None
            end
  end.

(** BitFieldType::SwapEndian, datas/bitfield.hpp:104-107. *)
Definition BFT_SwapEndian (w : Z) (l : list Z) (outWay : bool) (value : Z) : option Z :=
  match get_all (BF_Get l) (length l) 0 with
  | None => None
  | Some ms => SwapBitField w outWay ms value
  end.
