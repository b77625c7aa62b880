(** What C67 and C68 mean, without the code that walks the members. *)
From Verif Require Import Base Reflector_Model Reflector_Spec XmlRefl_Model.

(** Bit [k] of a memory, counted from its first byte, least significant bit first. *)
Definition bit (mem : list Z) (k : nat) : bool := Z.testbit (nth (k / 8) mem 0) (Z.of_nat (k mod 8)).
(** [b'] has the bits in [R] from [a] and all others from [b]. *)
Definition copied (R : nat -> Prop) (a b b' : list Z) : Prop :=
  length b' = length b /\
  forall k, (R k /\ bit b' k = bit a k) \/ (~ R k /\ bit b' k = bit b k).

Definition object_kind (k : REFType) : Prop := k = RClass \/ k = RBitClass.
(** a member that is an object, or an array of objects *)
Definition is_object (t : reflType) : Prop := object_kind (type t).
Definition is_object_array (t : reflType) : Prop := (type t = RArray \/ type t = RArrayClass) /\ object_kind (subType t).

(** [o] is the object in member [t] of [own], or one of the objects in it. *)
Definition child (reg : registry) (own : xinst) (t : reflType) (o : xinst) : Prop :=
  reg (typeHash t) = Some (fst o) /\
  ((is_object t /\ Z.of_nat (snd o) = Z.of_nat (snd own) + offset t) \/
   (is_object_array t /\ exists s, 0 <= s < numItems t /\ Z.of_nat (snd o) = Z.of_nat (snd own) + offset t + s * subSize t)).

(** The bits a member that is not an object takes in its object. *)
Definition member_bits (t : reflType) (k : nat) : Prop :=
  match type t with
  | RBitMember => offset t <= Z.of_nat k < offset t + subSize t
  | RArray | RVector | RArrayClass => 8 * offset t <= Z.of_nat k < 8 * (offset t + numItems t * subSize t)
  | _ => 8 * offset t <= Z.of_nat k < 8 * (offset t + subSize t)
  end.
(** All bits of an object that are in some member, at any depth. *)
Inductive Bits (reg : registry) : xinst -> nat -> Prop :=
| bits_member own t k : In t (xTypes (fst own)) -> ~ is_object t -> ~ is_object_array t -> member_bits t k ->
    Bits reg own (8 * snd own + k)
| bits_child own t o k : In t (xTypes (fst own)) -> child reg own t o -> Bits reg o k -> Bits reg own k.
(** The bits of one member of [own], at any depth. *)
Definition part_bits (reg : registry) (own : xinst) (t : reflType) (k : nat) : Prop :=
  (~ is_object t /\ ~ is_object_array t /\ exists k', k = (8 * snd own + k')%nat /\ member_bits t k') \/
  exists o, child reg own t o /\ Bits reg o k.

(** ** Values whose text says it all *)
Definition word (n : list Z) : Prop :=
  n <> [] /\ Forall (fun c => 48 <= c <= 57 \/ 65 <= c <= 90 \/ c = 95 \/ 97 <= c <= 122) n.
Definition value_at (addr n : nat) (mem : list Z) : Z := le_value (bytes_at addr n mem).
(** A single value of type [t] at [addr]. *)
Definition single_value (e : env) (t : reflType) (addr : nat) (a : list Z) : Prop :=
  let n := Z.to_nat (subSize t) in
  inside addr n a /\
  match type t with
  | RInteger | RUnsigned => subSize t = 1 \/ subSize t = 2 \/ subSize t = 4 \/ subSize t = 8
  | RBool => subSize t = 1 /\ (value_at addr 1 a = 0 \/ value_at addr 1 a = 1)
  | REnum => 0 <= subSize t <= 8 /\
      exists tab, enums e (typeHash t) = Some tab /\ NoDup (map fst tab) /\ Forall word (map fst tab) /\
        In (value_at addr n a) (map snd tab)                    (* the value has a name *)
  | REnumFlags => 0 <= subSize t <= 8 /\
      exists tab, enums e (typeHash t) = Some tab /\ NoDup (map fst tab) /\ Forall word (map fst tab) /\
        ~ In [78; 85; 76; 76] (map fst tab) /\                  (* NULL *)
        forall i, 0 <= i < 8 * subSize t -> Z.testbit (value_at addr n a) i = true -> In i (map snd tab)
  | RFloat => (subSize t = 4 \/ subSize t = 8) /\
      (* the C library prints enough digits of this number *)
      let s := print_float e n (bytes_at addr n a) in
      plain_element s /\ Forall (fun c => 32 <= c <= 126 /\ c <> 60 /\ c <> 38) s /\
      forall old, length old = n -> snd (parse_float e n s old) = bytes_at addr n a
  | _ => False
  end.
(** the elements of an array or vector *)
Definition element_of (t : reflType) : reflType :=
  match subType t with
  | RVector => mkRefl RVector (dec_type (typeHash t)) (dec_size (typeHash t)) (ID t) (dec_num (typeHash t)) (offset t) (nameHash t) (typeHash t)
  | k => mkRefl k k (subSize t) (ID t) (numItems t) (offset t) (nameHash t) (typeHash t)
  end.
Definition listing (t : reflType) : Prop := type t = RArray \/ type t = RVector \/ type t = RArrayClass.
Definition element_addr (addr : nat) (t : reflType) (i : nat) : nat := (addr + Z.to_nat (subSize t * Z.of_nat i))%nat.
(** A list of single values, or of vectors of single values. *)
Definition value_list (e : env) (t : reflType) (addr : nat) (a : list Z) : Prop :=
  listing t /\ 0 < numItems t /\ 0 <= subSize t /\ inside addr (Z.to_nat (numItems t * subSize t)) a /\
  ((subType t <> RVector /\ forall i, (i < Z.to_nat (numItems t))%nat -> single_value e (element_of t) (element_addr addr t i) a) \/
   (subType t = RVector /\ dec_type (typeHash t) <> RVector /\
    0 < dec_num (typeHash t) /\ subSize t = dec_num (typeHash t) * dec_size (typeHash t) /\
    forall i j, (i < Z.to_nat (numItems t))%nat -> (j < Z.to_nat (dec_num (typeHash t)))%nat ->
      single_value e (element_of (element_of t)) (element_addr (element_addr addr t i) (element_of t) j) a)).
(** The member [t] of the object that starts at the first byte of [a]. *)
Definition textual (e : env) (t : reflType) (a : list Z) : Prop :=
  0 <= offset t /\
  (single_value e t (Z.to_nat (offset t)) a \/ value_list e t (Z.to_nat (offset t)) a \/
   (* an unsigned bit field *)
   (type t = RBitMember /\ subType t = RUnsigned /\ 1 <= subSize t <= 30 /\ offset t + subSize t <= 64 /\ inside 0 8 a)).

(** ** Classes *)
(** Members are numbered and named: either every member has a name of its own, and the hash is that of the name,
    or there are no names.  No two hashes are equal, and no alias is used. *)
Definition described (c : xcls) : Prop :=
  NoDup (map nameHash (xTypes c)) /\
  (forall i t, nth_error (xTypes c) i = Some t -> ID t = Z.of_nat i /\ 0 <= nameHash t < 2 ^ 32) /\
  Z.of_nat (length (xTypes c)) < 2 ^ 64 /\
  match xNames c with
  | None => True
  | Some ns => length ns = length (xTypes c) /\ Forall word ns /\ map (Jenkins_Model.jenkins 64) ns = map nameHash (xTypes c)
  end.
(** An object all of whose values have a text, objects in it included, not nested deeper than [n].  An
    array has fewer than 2^63 objects. *)
Fixpoint writable (n : nat) (e : env) (reg : registry) (own : xinst) (a : list Z) : Prop :=
  match n with
  | O => False
  | S n' =>
    described (fst own) /\ (snd own <= length a)%nat /\
    forall t, In t (xTypes (fst own)) ->
      (is_object t \/ is_object_array t -> 0 <= offset t /\ 0 <= subSize t /\ 0 <= numItems t < 2 ^ 63 /\ reg (typeHash t) <> None /\
         forall o, child reg own t o -> writable n' e reg o a) /\
      (~ is_object t -> ~ is_object_array t -> textual e t (skipn (snd own) a) /\
         forall s, GetReflectedValue e [t] 0 (skipn (snd own) a) = Some s -> Z.of_nat (length s) < 2 ^ 64)
  end.
