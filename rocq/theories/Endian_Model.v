(** Model of datas/endian.hpp. *)
From Verif Require Import Base.

(** _fbswap<uint16>, datas/endian.hpp:30-32 (promoted to int, result truncated). *)
Definition fbswap16 (input : Z) : Z :=
  u16 (Z.lor (Z.shiftl (Z.land input 0xFF) 8) (Z.shiftr (Z.land input 0xFF00) 8)).

(** _fbswap<uint32>, datas/endian.hpp:34-37. *)
Definition fbswap32 (input : Z) : Z :=
  Z.lor (Z.lor (Z.lor (u32 (Z.shiftl (Z.land input 0xFF) 24))
                      (u32 (Z.shiftl (Z.land input 0xFF00) 8)))
               (Z.shiftr (Z.land input 0xFF0000) 8))
        (Z.shiftr (Z.land input 0xFF000000) 24).

(** _fbswap<uint64>, datas/endian.hpp:39-46. *)
Definition fbswap64 (input : Z) : Z :=
  Z.lor (Z.lor (Z.lor (Z.lor (Z.lor (Z.lor (Z.lor
    (u64 (Z.shiftl (Z.land input 0xFF) 56))
    (u64 (Z.shiftl (Z.land input 0xFF00) 40)))
    (u64 (Z.shiftl (Z.land input 0xFF0000) 24)))
    (u64 (Z.shiftl (Z.land input 0xFF000000) 8)))
    (Z.shiftr (Z.land input 0xFF00000000) 8))
    (Z.shiftr (Z.land input 0xFF0000000000) 24))
    (Z.shiftr (Z.land input 0xFF000000000000) 40))
    (Z.shiftr (Z.land input 0xFF00000000000000) 56).

(** FByteswapper for a scalar of [sz] bytes, datas/endian.hpp:26-28 and 64-73,
    with es::TypeFromSize (datas/supercore.hpp:123-127): sizes 2, 4, 8 swap the
    bit pattern; size 1 reaches the primary template, which throws ([None]).
    Other sizes do not compile; they are [None] as well. *)
Definition FByteswapper (sz : Z) (pattern : Z) : option Z :=
  if sz =? 2 then Some (fbswap16 pattern)
  else if sz =? 4 then Some (fbswap32 pattern)
  else if sz =? 8 then Some (fbswap64 pattern)
  else None.

(** FByteswapper on a C array (datas/endian.hpp:75-79) and FArraySwapper
    (:81-87): every element in turn; an exception stops the loop. *)
Fixpoint FArraySwapper (sz : Z) (items : list Z) : option (list Z) :=
  match items with
  | [] => Some []
  | a :: r =>
    match FByteswapper sz a with
    | None => None
    | Some a' => match FArraySwapper sz r with
                 | None => None
                 | Some r' => Some (a' :: r')
                 end
    end
  end.
