(** Vocabulary for C39: what a class layout consists of and what restored means. *)
From Verif Require Import Base Reflector_Model Reflector_Spec BinDump_Model.

Definition is_text (t : reflType) : Prop := type t = RString.
Definition is_array_kind (t : reflType) : Prop :=
  type t = RArray \/ type t = RArrayClass \/ type t = RVector.
(** Single values: integers, enums and flags of up to eight bytes, booleans and floats, strings. *)
Definition single (t : reflType) : Prop :=
  match type t with
  | RInteger | REnum | RUnsigned | REnumFlags | RBitClass => 1 <= subSize t <= 8
  | RBool | RFloat => 0 <= subSize t
  | RString => True
  | _ => False
  end.

(** A member without sub-classes: a single value, or an array nested at most [n] deep of such. *)
Fixpoint flat (n : nat) (t : reflType) : Prop :=
  single t \/
  match n with
  | O => False
  | S n' => is_array_kind t /\ forall i, (i < Z.to_nat (numItems t))%nat -> flat n' (elem t i)
  end.

(** A member that may in addition hold reflected objects (or arrays of them) whose own members
    hold none. *)
Fixpoint one_level (sub : storage) (own : inst) (n : nat) (t : reflType) : Prop :=
  flat n t \/
  match n with
  | O => False
  | S n' =>
    (type t = RClass /\ exists k, SubClass sub own (ID t) (numItems t) = Some k /\
        Forall (flat n') (cTypes (fst k)) /\ NoDup (map nameHash (cTypes (fst k))) /\
        Forall (fun m => 0 <= nameHash m < 2 ^ 32) (cTypes (fst k)) /\
        Z.of_nat (length (cTypes (fst k))) < 2 ^ 32)
    \/ (is_array_kind t /\ forall i, (i < Z.to_nat (numItems t))%nat -> one_level sub own n' (elem t i))
  end.

(** [Value sub own t addr x k]: the member t of the object [own], stored at addr, contains a
    single value described by k at address x. *)
Inductive Value (sub : storage) : inst -> reflType -> nat -> nat -> reflType -> Prop :=
| value_single own t addr : single t -> Value sub own t addr addr t
| value_elem own t addr i x k :
    is_array_kind t -> (i < Z.to_nat (numItems t))%nat ->
    Value sub own (elem t i) (addr + Z.to_nat (subSize t) * i)%nat x k ->
    Value sub own t addr x k
| value_class own t addr c base m x k :
    type t = RClass -> SubClass sub own (ID t) (numItems t) = Some (c, base) ->
    In m (cTypes c) -> Value sub (c, base) m (base + nat_offset m)%nat x k ->
    Value sub own t addr x k.

(** A value of object [a] that the dump format can hold: inside the object; if it is signed, not
    below -2^55; a text shorter than 2^32. *)
Definition dumpable (a : obj) (x : nat) (k : reflType) : Prop :=
  match type k with
  | RString => Z.of_nat (length (os a x)) < 2 ^ 32
  | RInteger | REnum =>
    inside x (Z.to_nat (subSize k)) (ob a) /\
    - 2 ^ 55 <= sgn (8 * subSize k) (le_value (bytes_at x (Z.to_nat (subSize k)) (ob a)))
  | _ => inside x (Z.to_nat (subSize k)) (ob a)
  end.

(** [b'] is [b] with the values of [a] listed by [V] copied over it: nothing else changes. *)
Definition restored (V : nat -> reflType -> Prop) (a b b' : obj) : Prop :=
  length (ob b') = length (ob b) /\
  (forall x k, V x k -> ~ is_text k ->
     bytes_at x (Z.to_nat (subSize k)) (ob b') = bytes_at x (Z.to_nat (subSize k)) (ob a)) /\
  (forall x k, V x k -> is_text k -> os b' x = os a x) /\
  (forall i, (forall x k, V x k -> ~ is_text k -> ~ (x <= i < x + Z.to_nat (subSize k))%nat) ->
     nth_error (ob b') i = nth_error (ob b) i) /\
  (forall i, (forall k, V i k -> ~ is_text k) -> os b' i = os b i).

(** The values of a whole object. *)
Definition values (sub : storage) (c : cls) (x : nat) (k : reflType) : Prop :=
  exists m, In m (cTypes c) /\ Value sub (c, 0%nat) m (nat_offset m) x k.
