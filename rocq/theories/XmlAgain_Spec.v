(** What C87 means: objects whose floats need not survive their text unchanged. *)
From Verif Require Import Base Reflector_Model Reflector_Spec XmlRefl_Model XmlRefl_Spec.

(** The single values in a member that is not an object: the member itself, the elements of a list, or the
    components of the vectors in a list.  [V base t addr] is what is asked of a value of type [t] that is [addr]
    bytes into the object at [base]; the memory has [len] bytes.  Unsigned bit fields are not values of their own. *)
Definition values (V : nat -> reflType -> nat -> Prop) (len base : nat) (t : reflType) : Prop :=
  let addr := Z.to_nat (offset t) in
  0 <= offset t /\
  (V base t addr \/
   (listing t /\ 0 < numItems t /\ 0 <= subSize t /\ (base + (addr + Z.to_nat (numItems t * subSize t)) <= len)%nat /\
    ((subType t <> RVector /\ forall i, (i < Z.to_nat (numItems t))%nat -> V base (element_of t) (element_addr addr t i)) \/
     (subType t = RVector /\ dec_type (typeHash t) <> RVector /\
      0 < dec_num (typeHash t) /\ subSize t = dec_num (typeHash t) * dec_size (typeHash t) /\
      forall i j, (i < Z.to_nat (numItems t))%nat -> (j < Z.to_nat (dec_num (typeHash t)))%nat ->
        V base (element_of (element_of t)) (element_addr (element_addr addr t i) (element_of t) j)))) \/
   (type t = RBitMember /\ subType t = RUnsigned /\ 1 <= subSize t <= 30 /\ offset t + subSize t <= 64 /\ (base + 8 <= len)%nat)).
(** An object, not nested deeper than [n], all of whose values are in [V] and members in [M]. *)
Fixpoint object_of (V : nat -> reflType -> nat -> Prop) (M : nat -> reflType -> Prop) (n : nat) (reg : registry) (own : xinst) (len : nat) : Prop :=
  match n with
  | O => False
  | S n' =>
    described (fst own) /\ (snd own <= len)%nat /\
    forall t, In t (xTypes (fst own)) ->
      (is_object t \/ is_object_array t -> 0 <= offset t /\ 0 <= subSize t /\ 0 <= numItems t < 2 ^ 63 /\ reg (typeHash t) <> None /\
         forall o, child reg own t o -> object_of V M n' reg o len) /\
      (~ is_object t -> ~ is_object_array t -> values V len (snd own) t /\ M (snd own) t)
  end.

(** the text of the member [t] of the object at [base] is not longer than a string can be *)
Definition short_text (e : env) (a : list Z) (base : nat) (t : reflType) : Prop :=
  forall s, GetReflectedValue e [t] 0 (skipn base a) = Some s -> Z.of_nat (length s) < 2 ^ 64.

(** [a'] holds at [addr] what reading the text of the value in [a] gives.  A float may be another one, but one with
    the same text; any other value is the same. *)
Definition settled_value (e : env) (t : reflType) (addr : nat) (a a' : list Z) : Prop :=
  let n := Z.to_nat (subSize t) in
  match type t with
  | RFloat => (subSize t = 4 \/ subSize t = 8) /\ inside addr n a /\
      let s := print_float e n (bytes_at addr n a) in
      plain_element s /\ Forall (fun c => 32 <= c <= 126 /\ c <> 60 /\ c <> 38) s /\
      (forall old, length old = n -> snd (parse_float e n s old) = bytes_at addr n a') /\
      print_float e n (bytes_at addr n a') = s
  | _ => single_value e t addr a /\ bytes_at addr n a' = bytes_at addr n a
  end.
Definition settled (n : nat) (e : env) (reg : registry) (own : xinst) (a a' : list Z) : Prop :=
  object_of (fun base t addr => settled_value e t addr (skipn base a) (skipn base a'))
    (fun base t => short_text e a base t /\
       (type t = RBitMember -> forall k, member_bits t k -> bit (skipn base a') k = bit (skipn base a) k)) n reg own (length a).

(** ** Floats *)
(** places in memory (address, size) that have no byte in common *)
Definition apart (p q : nat * nat) : Prop := (fst p + snd p <= fst q)%nat \/ (fst q + snd q <= fst p)%nat.
(** A value of the object is one of the floats at [places], which are inspected separately, or one whose text says it
    all that has no byte in common with them. *)
Definition float_or_exact (e : env) (places : list (nat * nat)) (a : list Z) (base : nat) (t : reflType) (addr : nat) : Prop :=
  let n := Z.to_nat (subSize t) in
  (type t = RFloat /\ (subSize t = 4 \/ subSize t = 8) /\ In ((base + addr)%nat, n) places) \/
  (single_value e t addr (skipn base a) /\ Forall (apart ((base + addr)%nat, n)) places).
(** no bit of the bit field [t] in the object at [base] is in one of them *)
Definition field_apart (places : list (nat * nat)) (base : nat) (t : reflType) : Prop :=
  type t = RBitMember -> forall k p, member_bits t k -> In p places -> ~ (8 * fst p <= 8 * base + k < 8 * (fst p + snd p))%nat.
(** [a'] differs from [a] only at these places *)
Definition differ_at (places : list (nat * nat)) (a a' : list Z) : Prop :=
  length a' = length a /\ forall i, (forall p, In p places -> ~ (fst p <= i < fst p + snd p)%nat) -> nth_error a' i = nth_error a i.
