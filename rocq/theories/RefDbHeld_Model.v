(** Loading a reflection database into an object that already holds classes: ReflectorIO::Load,
    datas/reflector_io.cpp:85-210, where RefDb_Model follows it for an empty object. *)
From Coq Require Import String Ascii.
From Verif Require Import Base Dds_Model RefDb_Model.
Local Open Scope Z_scope.

Section Held.
(** bufferStart; every address is a distance from it.  [size]: how far the memory the program may touch reaches *)
Variables (base size : Z).
(** the loop :104-182 over the records held before (AddClass, reflector_io.hpp:32-35, or an earlier Load); they come first in the vector, the records
    of the file are pushed behind them, :101-102 *)
Fixpoint load_held (qs : list Z) (m : mem) : option mem :=
  match qs with [] => Some m | q :: r => m' <- load_class base size q m ;; load_held r m' end.
(** Load into an object holding the classes at [held]; [outer]: the memory outside the buffer.
    Simplification: no enumerations are held; see LoadIntoEnums. *)
Definition LoadInto (outer : mem) (held : list Z) (file : list Z) : option loaded :=
  if (length file <? 32)%nat then None
  else if negb (field file 0 =? ID) then Some (Refused 1)
  else if VERSION <? field file 1 then Some (Refused 2)
  else
    let s := field file 6 in
    let m := fun x => if (0 <=? x) && (x <? s) then to_mem (firstn (Z.to_nat s) (skipn 32 file)) x else outer x in
    m <- load_held held m ;;
    m <- load_classes base size (Z.to_nat (field file 2)) 0 m ;;
    r <- load_enums size m (Z.to_nat (field file 3)) (field file 5) ;;
    m <- expand (ptr base) size (snd r) (field file 4) (Z.to_nat (field file 4)) 0 m ;;
    es <- name_enums base size m (fst r) (snd r) ;;
    Some (Loaded size m (Z.to_nat (field file 2)) es).
(** Load into an object holding enumerations and no classes: the naming loop :203-210 goes over all of them, the held ones
    (hash, number of names, where the values are) first *)
Definition LoadIntoEnums (held : list (Z * Z * Z)) (file : list Z) : option loaded :=
  if (length file <? 32)%nat then None
  else if negb (field file 0 =? ID) then Some (Refused 1)
  else if VERSION <? field file 1 then Some (Refused 2)
  else
    let s := field file 6 in
    let m := to_mem (firstn (Z.to_nat s) (skipn 32 file)) in
    m <- load_classes base s (Z.to_nat (field file 2)) 0 m ;;
    r <- load_enums s m (Z.to_nat (field file 3)) (field file 5) ;;
    m <- expand (ptr base) s (snd r) (field file 4) (Z.to_nat (field file 4)) 0 m ;;
    es <- name_enums base s m (held ++ fst r) (snd r) ;;
    Some (Loaded s m (Z.to_nat (field file 2)) es).
End Held.

(** Save, :212-416, into a stream that ends behind [before]: the header goes there, with what the three members not yet set hold
    ([garbage], the constructor sets id, version and reserved only, :82); everything behind it, offsets included, is relative to its end (:216); then
    ResetRelativeOrigin (:404, internal/bincore_navi.hpp:51-53) goes to the start of the stream, where the complete header is written. *)
Definition SaveAt (before garbage : list Z) (d : db) : option (list Z) :=
  file <- Save d ;;
  let first := flat_map u32b [ID; VERSION; Z.of_nat (length (classes d)); Z.of_nat (length (enums d))] ++ garbage ++ u32b 0 in
  let stream := before ++ first ++ skipn 32 file in
  Some (firstn 32 file ++ skipn 32 stream).
