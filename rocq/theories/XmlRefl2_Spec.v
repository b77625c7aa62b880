(** Which objects C68 speaks about.  The effect of loading is described by [copied] and [Bits] of XmlRefl_Spec. *)
From Verif Require Import Base Reflector_Model Reflector_Spec XmlRefl_Model XmlRefl_Spec.

(** A set of flags each of which is written by itself.  No flag is number 31 or higher, unless it does not fit
    the member anyway. *)
Definition flag_value (e : env) (t : reflType) (addr : nat) (a : list Z) : Prop :=
  type t = REnumFlags /\ single_value e t addr a /\
  forall tab, enums e (typeHash t) = Some tab -> tab <> [] /\ Forall (fun v => v < 31 \/ 8 * subSize t <= v) (map snd tab).
Definition simple_value (e : env) (t : reflType) (addr : nat) (a : list Z) : Prop :=
  type t <> REnumFlags /\ single_value e t addr a.
(** an unsigned bit field of the object *)
Definition bit_field (t : reflType) (a : list Z) : Prop :=
  type t = RBitMember /\ subType t = RUnsigned /\ 1 <= subSize t <= 30 /\ offset t + subSize t <= 64 /\ inside 0 8 a.
(** a vector of up to four components *)
Definition vector_value (e : env) (t : reflType) (addr : nat) (a : list Z) : Prop :=
  type t = RVector /\ dec_num (typeHash t) = numItems t /\ 0 < numItems t <= 4 /\ 0 <= subSize t /\
  forall i, (i < Z.to_nat (numItems t))%nat -> single_value e (element_of t) (element_addr addr t i) a.
Definition an_array (t : reflType) : Prop := type t = RArray \/ type t = RArrayClass.
Definition array_value (e : env) (t : reflType) (addr : nat) (a : list Z) : Prop :=
  0 <= numItems t < 2 ^ 63 /\ 0 <= subSize t /\
  ((* of simple values *)
   (an_array t /\ subType t <> REnumFlags /\ In (subType t) [RBool; REnum; RFloat; RInteger; RUnsigned] /\
    forall i, (i < Z.to_nat (numItems t))%nat -> single_value e (element_of t) (element_addr addr t i) a) \/
   (* of flags *)
   (type t = RArray /\ subType t = REnumFlags /\ enums e (typeHash t) <> None /\
    forall i, (i < Z.to_nat (numItems t))%nat -> flag_value e (element_of t) (element_addr addr t i) a) \/
   (* of vectors; a component takes at least as many bytes as there are components *)
   (type t = RArray /\ subType t = RVector /\ 0 < dec_num (typeHash t) <= 4 /\ dec_num (typeHash t) <= dec_size (typeHash t) /\
    subSize t = dec_num (typeHash t) * dec_size (typeHash t) /\
    forall i j, (i < Z.to_nat (numItems t))%nat -> (j < Z.to_nat (dec_num (typeHash t)))%nat ->
      single_value e (element_of (element_of t)) (element_addr (element_addr addr t i) (element_of t) j) a)).
(** The member [t] of the object that starts at the first byte of [a]. *)
Definition textual2 (e : env) (t : reflType) (a : list Z) : Prop :=
  0 <= offset t /\
  (simple_value e t (Z.to_nat (offset t)) a \/ flag_value e t (Z.to_nat (offset t)) a \/ bit_field t a \/
   vector_value e t (Z.to_nat (offset t)) a \/ array_value e t (Z.to_nat (offset t)) a).

(** As [writable]; a class without names must not have arrays, and names are shorter than 2^63. *)
Fixpoint writable2 (n : nat) (e : env) (reg : registry) (own : xinst) (a : list Z) : Prop :=
  match n with
  | O => False
  | S n' =>
    described (fst own) /\ (xNames (fst own) = None -> forall t, In t (xTypes (fst own)) -> ~ an_array t) /\
    (forall ns, xNames (fst own) = Some ns -> Forall (fun nm => Z.of_nat (length nm) < 2 ^ 63) ns) /\
    (snd own <= length a)%nat /\
    forall t, In t (xTypes (fst own)) ->
      (is_object t \/ is_object_array t -> 0 <= offset t /\ 0 <= subSize t /\ 0 <= numItems t < 2 ^ 63 /\ reg (typeHash t) <> None /\
         forall o, child reg own t o -> writable2 n' e reg o a) /\
      (~ is_object t -> ~ is_object_array t -> textual2 e t (skipn (snd own) a))
  end.
