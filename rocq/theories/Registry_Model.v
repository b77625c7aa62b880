(** Model of the registry of reflected classes and enumerations: datas/internal/reflector_reg.hpp, and the hashes under which
    types are registered and looked up. *)
From Verif Require Import Base Jenkins_Model.

(** A reflected C++ type: which one it is, and how it was declared.  REFLECTOR_CREATE of a class without flags
    (_REFLECTOR_START_VER0_) gives it no name; with VARNAMES, TEMPLATE or EXTENDED it has the name spelled in the macro. *)
Inductive declared := Unnamed | Named (name : list Z) | Enumeration (name : list Z).
Record ctype := mkType { which : nat; how : declared }.

(** ReflectorType<C>::Hash(): reflector_class_reg.hpp:33, reflector_class.hpp:105-106; _EnumWrap<E>::GetHash(): reflector_enum.hpp:66.
    JenHash() is 0: jenkinshash.hpp:49 *)
Definition class_hash (t : ctype) : Z := match how t with Named n => jenkins 64 n | _ => 0 end.
Definition enum_hash (t : ctype) : Z := match how t with Enumeration n => jenkins 64 n | _ => 0 end.
Definition is_enum (t : ctype) : bool := match how t with Enumeration _ => true | _ => false end.
(** the typeHash of a member of this type, or of an array of it: reflector_type.hpp:82-87, 104-110 *)
Definition member_hash (t : ctype) : Z := u32 (enum_hash t + class_hash t).

(** REFSubClassStorage, REFEnumStorage: reflector_reg.hpp:24-27.  std::map with a strict order on the hash value *)
Record storage := mkStorage { classes : list (Z * ctype); enums : list (Z * ctype) }.
Definition empty : storage := mkStorage [] [].
(** map[key] = value *)
Fixpoint assign (key : Z) (v : ctype) (m : list (Z * ctype)) : list (Z * ctype) :=
  match m with
  | [] => [(key, v)]
  | (k, w) :: r => if k =? key then (key, v) :: r else (k, w) :: assign key v r
  end.
Definition at_key (m : list (Z * ctype)) (key : Z) : option ctype := option_map snd (find (fun p => fst p =? key) m).

(** RegisterRefClass: reflector_reg.hpp:30-41 *)
Definition RegisterRefClass (s : storage) (t : ctype) : storage :=
  if is_enum t then mkStorage (classes s) (assign (enum_hash t) t (enums s))
  else mkStorage (assign (class_hash t) t (classes s)) (enums s).
(** RegisterReflectedTypes<C...>: the bases are constructed in order, reflector_reg.hpp:48-49 *)
Definition RegisterReflectedTypes (s : storage) (ts : list ctype) : storage := fold_left RegisterRefClass ts s.

(** What a member of type [t] finds: reflector.cpp:1010-1013, 1039-1042 (classes), 203, 662 (enumerations) *)
Definition found_for (s : storage) (t : ctype) : option ctype :=
  at_key (if is_enum t then enums s else classes s) (member_hash t).
