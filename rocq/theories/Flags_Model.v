(** Model of es::Flags, datas/flags.hpp.  [w]: bits of ValueType (8/16/32/64).
    [None]: shift by at least the promoted width (undefined behaviour). *)
From Verif Require Import Base Bitfield_Model.

(** MakeMask_, datas/flags.hpp:78-80 (1 has the promoted type; the result is
    converted back to ValueType). *)
Definition MakeMask_ (w at_ : Z) : option Z :=
  if shift_ok w at_ then Some (wrap w (Z.shiftl 1 at_)) else None.

(** operator[], datas/flags.hpp:44-46. *)
Definition Flags_get (w value pos : Z) : option bool :=
  match MakeMask_ w pos with
  | None => None
  | Some m => Some (negb (Z.land value m =? 0))
  end.

(** Set, datas/flags.hpp:48-50; += and -= (:51-58) call it. *)
Definition Flags_set (w value pos : Z) (val : bool) : option Z :=
  match MakeMask_ w pos with
  | None => None
  | Some m => Some (if val then wrap w (Z.lor value m) else wrap w (Z.land value (Z.lnot m)))
  end.

(** Constructor Flags(inputs...) / Flags(const Flags &, inputs...) through
    unpack_, datas/flags.hpp:30-40, 82-88: [init] is 0 or the copied value. *)
Fixpoint Flags_unpack (w init : Z) (inputs : list Z) : option Z :=
  match inputs with
  | [] => Some init
  | i :: r => match MakeMask_ w i with
              | None => None
              | Some m => Flags_unpack w (Z.lor init m) r
              end
  end.

(** A history of Set calls. *)
Fixpoint Flags_run (w value : Z) (ops : list (Z * bool)) : option Z :=
  match ops with
  | [] => Some value
  | (p, b) :: r => match Flags_set w value p b with
                   | None => None
                   | Some v => Flags_run w v r
                   end
  end.

(** operator==(Flags), datas/flags.hpp:60-62. *)
Definition Flags_eq (a b : Z) : bool := a =? b.
