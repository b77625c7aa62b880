(** How the description of a reflected member is built and how members are found:
    datas/internal/reflector_type.hpp, reflector_class.hpp, reflector.inl, datas/{vectors,flags,refl_array}.hpp,
    datas/internal/bitfield.inl, datas/reflector.cpp.  GetReflectedSubClass is [SubClass] of BinDump_Model. *)
From Verif Require Import Base Reflector_Model BinDump_Model.

(** The C++ type of a member.  The hash of an enumeration or class is that of its name. *)
Inductive cxx :=
| TInt (signed : bool) (size : Z) | TFloat (size : Z) | TBool | TCString | TString
| TEnum (hash size : Z) | TClass (hash size : Z)
| TFlags (hash size : Z)                 (* es::Flags over an enumeration *)
| TBits (hash size : Z)                  (* BitFieldType *)
| TVec (n : Z) (scalar : cxx)            (* t_Vector2, t_Vector, t_Vector4_: n is 2, 3, 4 *)
| TArr (n : Z) (item : cxx).             (* C array or std::array *)

(** sizeof; std::string and pointers as on x86-64 *)
Fixpoint sizeof (T : cxx) : Z :=
  match T with
  | TInt _ s | TFloat s | TEnum _ s | TClass _ s | TFlags _ s | TBits _ s => s
  | TBool => 1 | TCString => 8 | TString => 32
  | TVec n e | TArr n e => n * sizeof e
  end.

(** _getType<T>::TYPE: reflector_type.hpp 53-111, vectors.hpp 465-491, flags.hpp 94-100, refl_array.hpp 22-29, bitfield.inl 68-75 *)
Definition TYPE (T : cxx) : REFType :=
  match T with
  | TInt true _ => RInteger | TInt false _ => RUnsigned | TFloat _ => RFloat | TBool => RBool
  | TCString => RCString | TString => RString | TEnum _ _ => REnum | TClass _ _ => RClass
  | TFlags _ _ => REnumFlags | TBits _ _ => RBitClass | TVec _ _ => RVector | TArr _ _ => RArray
  end.
Definition SUBTYPE (T : cxx) : REFType := match T with TVec _ e | TArr _ e => TYPE e | _ => RNone end.
(** static constexpr uint8 SUBSIZE: sizeof converted to 8 bits *)
Definition SUBSIZE (T : cxx) : Z :=
  match T with
  | TBool => 1 | TCString | TString => 0
  | TVec _ e | TArr _ e => u8 (sizeof e)
  | _ => u8 (sizeof T)
  end.
(** static constexpr uint16 NUMITEMS *)
Definition NUMITEMS (T : cxx) : Z := match T with TVec n _ | TArr n _ => u16 n | TFlags _ _ => 1 | _ => 0 end.
Fixpoint Hash (T : cxx) : Z :=
  match T with
  | TEnum h _ | TClass h _ | TFlags h _ | TBits h _ => h
  | TVec n e => CompileVectorHash (TYPE e) (u8 (sizeof e)) (u16 n)
  | TArr _ e => Hash e
  | _ => 0
  end.
(** BuildReflType: reflector_type.hpp 122-138; the index is a uint8 parameter *)
Definition BuildReflType (T : cxx) (name index off : Z) : reflType :=
  mkRefl (TYPE T) (SUBTYPE T) (SUBSIZE T) (u8 index) (NUMITEMS T) (u16 off) name (Hash T).

(** BuildBFReflType: reflector_type.hpp 140-152, for the member declared [index]-th in the bit field *)
Definition BuildBFReflType (signed : bool) (name index size position : Z) : reflType :=
  mkRefl RBitMember (if signed then RInteger else RUnsigned) (u8 size) (u8 index) 0 (u16 position) name 0.

(** _GetReflDescPart: reflector_class.hpp 22-36; [item] without its terminator *)
Fixpoint desc_part (item : list Z) (part2 : bool) (cutter : nat) : nat :=
  match item with
  | [] => cutter
  | c :: r => if c =? 37 then (if part2 then cutter + 1 else cutter)%nat else desc_part r part2 (cutter + 1)
  end.
(** _REFLECTOR_DESCBUILDER: reflector_class.hpp 64-65; the second part is a C string *)
Definition desc_parts (item : list Z) : list Z * list Z :=
  (firstn (desc_part item false 0) item, skipn (desc_part item true 0) item).

(** The static part of a class: reflector_class_reg.hpp 41-64; [None] is a null pointer *)
Record info := mkInfo {
  iTypes : list reflType; iNames : option (list (list Z)); iAliases : option (list (option (list Z)));
  iAliasHashes : option (list Z); iDescs : option (list (list Z * list Z)) }.
(** GetReflectedType(hash): reflector.cpp 30-44 *)
Definition GetReflectedType (c : info) (hash : Z) : option reflType :=
  by_hash (iTypes c) (match iAliasHashes c with Some l => l | None => [] end) hash.
(** The overloads taking a hash: GetReflectedValue, GetReflectedSubClass, GetReflectedPair, IsArray,
    IsReflectedSubClass look the member up and go on with its ID field: reflector.inl 164-206, 238-246, 252-259, 272-279 *)
Definition via_hash {R} (c : info) (none : R) (f : Z -> R) (hash : Z) : R :=
  match GetReflectedType c hash with None => none | Some t => f (ID t) end.
(** the overloads that set use the description itself: reflector.inl 18-23 *)
Definition SetByHash (e : env) (c : info) (hash : Z) (value mem : list Z) :=
  match GetReflectedType c hash with
  | None => Some (EInvalidDestination, mem)
  | Some t => set_value e t value mem
  end.

(** IsArray(id), IsReflectedSubClass(id): reflector.inl 261-270, 281-288 *)
Definition IsArray (c : info) (id : Z) : bool := match by_id (iTypes c) id with None => false | Some t => is_array t end.
Definition is_class (t : REFType) : bool := match t with RClass | RBitClass => true | _ => false end.
Definition IsReflectedSubClass (c : info) (id : Z) : bool :=
  match by_id (iTypes c) id with
  | None => false
  | Some t => is_class (type t) || (IsArray c (ID t) && is_class (subType t))
  end.

(** GetReflectedPair(id, settings): reflector.inl 208-236; [value] is GetReflectedValue(id).
    [None] is a null pointer dereferenced. *)
Definition GetReflectedPair (c : info) (value : Z -> list Z) (id : Z) (aliasName formatValue : bool) : option (list Z * list Z) :=
  if (id <? 0) || (Z.of_nat (length (iTypes c)) <=? id) then Some ([], [])
  else
    let i := Z.to_nat id in
    let name :=
      match iNames c with
      | None => Some []
      | Some ns =>
        if aliasName then
          match iAliases c with
          | None => None
          | Some al => match nth i al None with Some a => Some a | None => nth_error ns i end
          end
        else nth_error ns i
      end in
    let text :=
      if formatValue then
        match iDescs c with
        | None => None
        | Some ds =>
          match nth_error ds i with
          | None => None
          | Some ([], _) => Some (value id)
          | Some (p1, p2) => Some (p1 ++ [32] ++ value id ++ match p2 with [] => [] | _ => [32] ++ p2 end)
          end
        end
      else Some (value id) in
    match name, text with Some n, Some t => Some (n, t) | _, _ => None end.

(** SetReflectedValueFloat: reflector.cpp 620-656; [value] is the double's pattern, [narrow] the
    conversion to single *)
Definition SetReflectedValueFloat (narrow : Z -> Z) (cls : list reflType) (id : Z) (value subID : Z) (mem : list Z) :=
  match by_id cls id with
  | None => Some (EInvalidDestination, mem)
  | Some t =>
    let indexed := match type t with RArray | RVector | RArrayClass => subID <? numItems t | _ => false end in
    if negb (subID =? 0) && negb indexed then Some (EOutOfRange, mem)
    else
      let cType := if subID =? 0 then type t else subType t in
      if negb (ref_eqb cType RFloat) then Some (EInvalidDestination, mem)
      else
        let addr := (nat_offset t + Z.to_nat (subID * subSize t))%nat in
        match subSize t with
        | 4 => option_map (fun m => (ENone, m)) (store (le_bytes 4 (narrow value)) addr mem)
        | 8 => option_map (fun m => (ENone, m)) (store (le_bytes 8 value) addr mem)
        | _ => Some (EInvalidDestination, mem)
        end
  end.
