(** What C88 means: as XmlAgain_Spec, for objects written as attributes and elements. *)
From Verif Require Import Base Reflector_Model Reflector_Spec XmlRefl_Model XmlRefl_Spec XmlRefl2_Spec XmlAgain_Spec.

(** No flag is number 31 or higher, unless it does not fit the member anyway. *)
Definition low_flags (e : env) (t : reflType) : Prop :=
  forall tab, enums e (typeHash t) = Some tab -> tab <> [] /\ Forall (fun v => v < 31 \/ 8 * subSize t <= v) (map snd tab).
(** The single values in a member that is not an object: the member itself, the components of a vector, the elements of
    an array, or the components of the vectors in an array.  [V] is asked of each, with the start of the object, its
    type and its distance from there.  Unsigned bit fields are not values of their own. *)
Definition values2 (V : nat -> reflType -> nat -> Prop) (e : env) (len base : nat) (t : reflType) : Prop :=
  let addr := Z.to_nat (offset t) in
  0 <= offset t /\
  ((type t <> REnumFlags /\ V base t addr) \/
   (type t = REnumFlags /\ V base t addr /\ low_flags e t) \/
   (type t = RBitMember /\ subType t = RUnsigned /\ 1 <= subSize t <= 30 /\ offset t + subSize t <= 64 /\ (base + 8 <= len)%nat) \/
   (type t = RVector /\ dec_num (typeHash t) = numItems t /\ 0 < numItems t <= 4 /\ 0 <= subSize t /\
    forall i, (i < Z.to_nat (numItems t))%nat -> V base (element_of t) (element_addr addr t i)) \/
   (0 <= numItems t < 2 ^ 63 /\ 0 <= subSize t /\
    ((an_array t /\ subType t <> REnumFlags /\ In (subType t) [RBool; REnum; RFloat; RInteger; RUnsigned] /\
      forall i, (i < Z.to_nat (numItems t))%nat -> V base (element_of t) (element_addr addr t i)) \/
     (type t = RArray /\ subType t = REnumFlags /\ enums e (typeHash t) <> None /\
      forall i, (i < Z.to_nat (numItems t))%nat -> V base (element_of t) (element_addr addr t i) /\ low_flags e (element_of t)) \/
     (type t = RArray /\ subType t = RVector /\ 0 < dec_num (typeHash t) <= 4 /\ dec_num (typeHash t) <= dec_size (typeHash t) /\
      subSize t = dec_num (typeHash t) * dec_size (typeHash t) /\
      forall i j, (i < Z.to_nat (numItems t))%nat -> (j < Z.to_nat (dec_num (typeHash t)))%nat ->
        V base (element_of (element_of t)) (element_addr (element_addr addr t i) (element_of t) j))))).
(** An object, not nested deeper than [n], all of whose values are in [V] and members in [M]. *)
Fixpoint object2_of (V : nat -> reflType -> nat -> Prop) (M : nat -> reflType -> Prop) (n : nat) (e : env) (reg : registry) (own : xinst) (len : nat) : Prop :=
  match n with
  | O => False
  | S n' =>
    described (fst own) /\ (xNames (fst own) = None -> forall t, In t (xTypes (fst own)) -> ~ an_array t) /\
    (forall ns, xNames (fst own) = Some ns -> Forall (fun nm => Z.of_nat (length nm) < 2 ^ 63) ns) /\
    (snd own <= len)%nat /\
    forall t, In t (xTypes (fst own)) ->
      (is_object t \/ is_object_array t -> 0 <= offset t /\ 0 <= subSize t /\ 0 <= numItems t < 2 ^ 63 /\ reg (typeHash t) <> None /\
         forall o, child reg own t o -> object2_of V M n' e reg o len) /\
      (~ is_object t -> ~ is_object_array t -> values2 V e len (snd own) t /\ M (snd own) t)
  end.
(** [a'] is what reading the texts of [a] gives: only floats may differ, and only if they have the same text *)
Definition settled2 (n : nat) (e : env) (reg : registry) (own : xinst) (a a' : list Z) : Prop :=
  object2_of (fun base t addr => settled_value e t addr (skipn base a) (skipn base a'))
    (fun base t => type t = RBitMember -> forall k, member_bits t k -> bit (skipn base a') k = bit (skipn base a) k) n e reg own (length a).
