(** Model of datas/reflector.cpp with datas/reflector.hpp, datas/internal/reflector.inl,
    datas/internal/reflector_type.hpp and datas/internal/reflector_enum_reg.hpp.

    A reflected object is its bytes, a class its table of member descriptions.  [None] is
    undefined behaviour (an access outside the object, an over-wide shift, a read of
    uninitialised bytes) or a member kind that is not modelled (std::string).  Text is a
    list of characters; a text is taken to lie inside a larger buffer, so that the reads of
    SkipStartWhitespace just outside an empty view (C08) are harmless.  Conversions between
    text and floating point are the C library's and are parameters. *)
From Verif Require Import Base Supercore_Model StringView_Model Bitfield_Model.

(** reflector_fwd.hpp:27-43 *)
Inductive REFType :=
| RNone | RInteger | RUnsigned | RFloat | RClass | REnum | RBool | RCString | RString
| RArray | RVector | RArrayClass | REnumFlags | RBitMember | RBitClass.
Definition ref_eqb (a b : REFType) : bool :=
  match a, b with
  | RNone, RNone | RInteger, RInteger | RUnsigned, RUnsigned | RFloat, RFloat | RClass, RClass
  | REnum, REnum | RBool, RBool | RCString, RCString | RString, RString | RArray, RArray
  | RVector, RVector | RArrayClass, RArrayClass | REnumFlags, REnumFlags
  | RBitMember, RBitMember | RBitClass, RBitClass => true
  | _, _ => false
  end.
(** the enumerator with a given number *)
Definition ref_of_code (c : Z) : REFType :=
  nth (Z.to_nat c) [RNone; RInteger; RUnsigned; RFloat; RClass; REnum; RBool; RCString; RString;
                    RArray; RVector; RArrayClass; REnumFlags; RBitMember; RBitClass] RNone.
Definition ref_code (t : REFType) : Z :=
  match t with
  | RNone => 0 | RInteger => 1 | RUnsigned => 2 | RFloat => 3 | RClass => 4 | REnum => 5
  | RBool => 6 | RCString => 7 | RString => 8 | RArray => 9 | RVector => 10 | RArrayClass => 11
  | REnumFlags => 12 | RBitMember => 13 | RBitClass => 14
  end.

(** reflector_type.hpp:25-34 *)
Record reflType := mkRefl {
  type : REFType; subType : REFType; subSize : Z; ID : Z; numItems : Z; offset : Z;
  nameHash : Z; typeHash : Z
}.

(** reflector.hpp:63-71 *)
Inductive ErrorType := ENone | ESignMismatch | EOutOfRange | EInvalidFormat
  | EInvalidDestination | EEmptyInput | EShortInput.

(** vectors.hpp:458-463 (CompileVectorHash_) and reflector_type.hpp:113-120
    (_DecomposedVectorHash): type, element size and element count packed in a hash. *)
Definition CompileVectorHash (t : REFType) (size num : Z) : Z := ref_code t + size * 2 ^ 8 + num * 2 ^ 16.
Definition dec_type (h : Z) : REFType := ref_of_code (h mod 2 ^ 8).
Definition dec_size (h : Z) : Z := (h / 2 ^ 8) mod 2 ^ 8.
Definition dec_num (h : Z) : Z := (h / 2 ^ 16) mod 2 ^ 16.

(** What lives outside reflector.cpp: the registered enums (REFEnumStorage: names and values)
    and the C library's float conversions. *)
Record env := mkEnv {
  enums : Z -> option (list (list Z * Z));
  parse_float : nat -> list Z -> list Z -> ErrorType * list Z; (* size, text, old bytes *)
  print_float : nat -> list Z -> list Z
}.

(** ** Memory *)
Definition load (n : nat) (addr : nat) (mem : list Z) : option (list Z) :=
  if (addr + n <=? length mem)%nat then Some (firstn n (skipn addr mem)) else None.
Definition store (bs : list Z) (addr : nat) (mem : list Z) : option (list Z) :=
  if (addr + length bs <=? length mem)%nat
  then Some (firstn addr mem ++ bs ++ skipn (addr + length bs) mem) else None.

Definition skip_start (s : list Z) : list Z :=
  match SkipStartWhitespace false s (Some 0) with Some r => r | None => [] end.
Definition skip_end (s : list Z) : list Z :=
  match SkipEndWhitespace false s (Some 0) with Some r => r | None => [] end.

(** ** Numbers *)
Definition c_isspace (c : Z) : bool := (c =? 32) || ((9 <=? c) && (c <=? 13)).
Fixpoint skip_space (s : list Z) : list Z :=
  match s with c :: r => if c_isspace c then skip_space r else s | [] => [] end.
Definition digit_val (base c : Z) : option Z :=
  let d := if (48 <=? c) && (c <=? 57) then c - 48
           else if (97 <=? c) && (c <=? 122) then c - 87
           else if (65 <=? c) && (c <=? 90) then c - 55 else 99 in
  if d <? base then Some d else None.
(** longest run of digits: value and whether there is one *)
Fixpoint scan_digits (base : Z) (s : list Z) (acc : Z) (seen : bool) : Z * bool :=
  match s with
  | c :: r => match digit_val base c with
              | Some d => scan_digits base r (acc * base + d) true
              | None => (acc, seen)
              end
  | [] => (acc, seen)
  end.
(** the 0x prefix of base 16 *)
Definition strip_hex (base : Z) (s : list Z) : list Z :=
  match s with
  | z :: x :: d :: r =>
      if (base =? 16) && (z =? 48) && ((x =? 120) || (x =? 88))
         && (match digit_val 16 d with Some _ => true | None => false end)
      then d :: r else s
  | _ => s
  end.
(** strtoll/strtoull before the range check: sign and magnitude *)
Definition strto (base : Z) (s : list Z) : option (bool * Z) :=
  let s1 := skip_space s in
  let '(neg, s2) := match s1 with
                    | c :: r => if c =? 45 then (true, r) else if c =? 43 then (false, r) else (false, s1)
                    | [] => (false, [])
                    end in
  let '(v, seen) := scan_digits base (strip_hex base s2) 0 false in
  if seen then Some (neg, v) else None.

Inductive parsed := PValue (v : Z) | PInvalid | PRange.
(** std::stoll, std::stoull *)
Definition stoll (s : list Z) (base : Z) : parsed :=
  match strto base s with
  | None => PInvalid
  | Some (neg, m) => let v := if neg then - m else m in
                     if (v <? - 2 ^ 63) || (2 ^ 63 <=? v) then PRange else PValue v
  end.
Definition stoull (s : list Z) (base : Z) : parsed :=
  match strto base s with
  | None => PInvalid
  | Some (neg, m) => if 2 ^ 64 <=? m then PRange else PValue (if neg then u64 (- m) else m)
  end.

Fixpoint starts_with (p s : list Z) : bool :=
  match p, s with
  | [], _ => true
  | a :: p', b :: s' => (a =? b) && starts_with p' s'
  | _ :: _, [] => false
  end.
(** reflector.cpp:119-121 *)
Definition number_base (s : list Z) : Z :=
  if starts_with [48; 120] s || starts_with [45; 48; 120] s then 16 else 10.
Definition first_is_minus (s : list Z) : bool := match s with c :: _ => c =? 45 | [] => false end.

(** SetNumber for a signed type of [w] bits, reflector.cpp:123-145: error and the value
    assigned, if any. *)
Definition SetSigned (w : Z) (s : list Z) : ErrorType * option Z :=
  let iMin := - 2 ^ (w - 1) in
  let iMax := 2 ^ (w - 1) - 1 in
  match stoll s (number_base s) with
  | PInvalid => (EInvalidFormat, None)
  | PRange => (EOutOfRange, Some (if first_is_minus s then iMin else iMax))
  | PValue v =>
      if (iMax <? v) || (v <? iMin) then (EOutOfRange, Some (if first_is_minus s then iMin else iMax))
      else (ENone, Some v)
  end.

(** The unsigned branch, reflector.cpp:146-176; [cast] is the conversion to the target type
    and back, [uMax] its largest value. *)
Definition SetUnsigned (cast : Z -> Z) (uMax : Z) (s : list Z) : ErrorType * option Z :=
  match stoull s (number_base s) with
  | PInvalid => (EInvalidFormat, None)
  | PRange => (EOutOfRange, Some uMax)
  | PValue v =>
      let neg := first_is_minus s in
      let v' := if neg then cast v else v in
      if uMax <? v' then (EOutOfRange, Some uMax)
      else (if neg then ESignMismatch else ENone, Some v')
  end.

Definition int_size (n : Z) : bool := (n =? 1) || (n =? 2) || (n =? 4) || (n =? 8).

(** assign [x] to the [n]-byte integer at [addr]; without a value nothing is accessed *)
Definition assign (n : nat) (r : ErrorType * option Z) (addr : nat) (mem : list Z) : option (ErrorType * list Z) :=
  match r with
  | (e, None) => Some (e, mem)
  | (e, Some x) => option_map (fun m => (e, m)) (store (le_bytes n x) addr mem)
  end.

(** SetBoolean, reflector.cpp:184-197: only a prefix is compared. *)
Definition lower (c : Z) : Z := if (65 <=? c) && (c <=? 90) then c + 32 else c.
Definition s_true := [116; 114; 117; 101].
Definition s_false := [102; 97; 108; 115; 101].
Definition SetBoolean (s : list Z) : ErrorType * Z :=
  let s := map lower s in
  if starts_with s_true s then (ENone, 1)
  else if starts_with s_false s then (ENone, 0)
  else (EInvalidFormat, 0).

(** ** Enums *)
Fixpoint value_of_name (name : list Z) (tab : list (list Z * Z)) : option Z :=
  match tab with
  | [] => None
  | (n, v) :: r => if sv_compare n name =? 0 then Some v else value_of_name name r
  end.
Fixpoint name_of_value (v : Z) (tab : list (list Z * Z)) : option (list Z) :=
  match tab with
  | [] => None
  | (n, x) :: r => if x =? v then Some n else name_of_value v r
  end.

(** SetEnum with GetEnumValue, reflector.cpp:199-246 *)
Definition SetEnum (e : env) (input : list Z) (hash : Z) : ErrorType * option Z :=
  let input := skip_end input in
  match input with
  | [] => (EEmptyInput, None)
  | _ => match enums e hash with
         | None => (EInvalidDestination, None)
         | Some tab => match value_of_name input tab with
                       | None => (EInvalidFormat, None)
                       | Some v => (ENone, Some v)
                       end
         end
  end.

(** FlagFromEnum, reflector.cpp:248-277: error and the new value; None: 1ULL << 64 or more *)
Definition s_NULL := [78; 85; 76; 76].
Definition FlagFromEnum (e : env) (input : list Z) (hash : Z) (acc : Z) : option (ErrorType * Z) :=
  let input := skip_end (skip_start input) in
  match input with
  | [] => Some (EEmptyInput, acc)
  | _ => match enums e hash with
         | None => Some (EInvalidDestination, acc)
         | Some tab =>
           match value_of_name input tab with
           | None => Some (if sv_compare input s_NULL =? 0 then ENone else EInvalidFormat, acc)
           | Some v => if v <? 64 then Some (ENone, Z.lor acc (2 ^ v)) else None
           end
         end
  end.
Definition is_none (e : ErrorType) : bool := match e with ENone => true | _ => false end.
Definition is_dest (e : ErrorType) : bool := match e with EInvalidDestination => true | _ => false end.

(** the loop of SetEnumFlags, reflector.cpp:279-309: what it returns and the flags if they
    are written.  [cur] are the characters since lastIterator. *)
Fixpoint flags_loop (e : env) (hash : Z) (rest cur : list Z) (acc : Z) (err : ErrorType)
  : option (ErrorType * option Z) :=
  match rest with
  | [] =>
    match cur with
    | [] => Some (err, Some acc)
    | _ => match FlagFromEnum e cur hash acc with
           | None => None
           | Some (sub, acc') =>
             if is_dest sub then Some (sub, None)
             else Some (if is_none sub then err else sub, Some acc')
           end
    end
  | c :: r =>
    if c =? 124 then
      match FlagFromEnum e cur hash acc with
      | None => None
      | Some (sub, acc') =>
        if is_dest sub then Some (sub, None)
        else flags_loop e hash r [] acc' (if is_none sub then err else sub)
      end
    else flags_loop e hash r (cur ++ [c]) acc err
  end.
Definition SetEnumFlags (e : env) (input : list Z) (hash : Z) : option (ErrorType * option Z) :=
  flags_loop e hash input [] 0 ENone.

(** memcpy(objAddr, &eValue, size): reads at most the 8 bytes of eValue *)
Definition copy_value (size : Z) (r : ErrorType * option Z) (addr : nat) (mem : list Z) :=
  match r with
  | (e, None) => Some (e, mem)
  | (e, Some v) => if size <=? 8 then option_map (fun m => (e, m)) (store (le_bytes (Z.to_nat size) v) addr mem)
                   else None
  end.

(** ** Arrays *)
Definition opening (c : Z) : bool := (c =? 91) || (c =? 34) || (c =? 40) || (c =? 123).
Definition closing (c : Z) : bool := (c =? 93) || (c =? 34) || (c =? 41) || (c =? 125).

(** the loop at reflector.cpp:352-388; [cur] are the characters since curIter *)
Fixpoint array_loop (set_elem : list Z -> nat -> list Z -> option (ErrorType * list Z))
  (num size : Z) (base : nat) (rest cur : list Z) (localScope : bool) (k : Z) (mem : list Z)
  : option (ErrorType * list Z) :=
  match rest with
  | [] => Some (ENone, mem)
  | c :: r =>
    let isEnding := match r with [] => true | _ => false end in
    let scope := if closing c && localScope then false else localScope in
    if scope || opening c then array_loop set_elem num size base r (cur ++ [c]) true k mem
    else if (c =? 44) || isEnding then
      let cValue := skip_start (if isEnding then cur ++ [c] else cur) in
      let empty := match cValue with [] => true | _ => false end in
      if empty && (k <? num) then Some (EShortInput, mem)
      else if negb empty && (num <=? k) then Some (EOutOfRange, mem)
      else match set_elem cValue (base + Z.to_nat (size * k))%nat mem with
           | None => None
           | Some (_, mem') => array_loop set_elem num size base r [] scope (k + 1) mem'
           end
    else array_loop set_elem num size base r (cur ++ [c]) scope k mem
  end.

(** the description of an element of an array, reflector.cpp:341-349 *)
Definition element_type (t : reflType) : reflType :=
  if ref_eqb (subType t) RVector
  then mkRefl RVector (dec_type (typeHash t)) (dec_size (typeHash t)) (ID t) (dec_num (typeHash t))
              (offset t) (nameHash t) (typeHash t)
  else mkRefl (subType t) (subType t) (subSize t) (ID t) (numItems t) (offset t) (nameHash t) (typeHash t).

(** SetReflectedArray, reflector.cpp:311-391 *)
Definition SetReflectedArray (set_member : reflType -> list Z -> nat -> list Z -> option (ErrorType * list Z))
  (startBrace endBrace : Z) (addr : nat) (value : list Z) (t : reflType) (mem : list Z)
  : option (ErrorType * list Z) :=
  match sv_find value [startBrace] 0 with
  | None => None
  | Some arrBegin =>
    if arrBegin =? npos then Some (EInvalidFormat, mem)
    else match sv_find_last_of value [endBrace] npos with
    | None => None
    | Some arrEnd =>
      if arrEnd =? npos then Some (EInvalidFormat, mem)
      else if arrEnd <? arrBegin then Some (EInvalidFormat, mem)
      else
        let inner := firstn (Z.to_nat (arrEnd - arrBegin - 1)) (skipn (Z.to_nat (arrBegin + 1)) value) in
        match inner with
        | [] => Some (EEmptyInput, mem)
        | _ => array_loop (set_member (element_type t)) (numItems t) (subSize t) addr inner [] false 0 mem
        end
    end
  end.

Definition braces (t : REFType) : Z * Z :=
  match t with
  | RArray => (123, 125)
  | RVector => (91, 93)
  | RArrayClass => (40, 41)
  | _ => (0, 0)
  end.

(** SetReflectedMember, reflector.cpp:393-501.  The member is accessed in place as a whole
    (for a bit field: the 8 bytes at the object), so its bytes must exist. *)
Fixpoint SetReflectedMember (fuel : nat) (e : env) (t : reflType) (value : list Z) (addr : nat) (mem : list Z)
  : option (ErrorType * list Z) :=
  let value := skip_start value in
  let n := Z.to_nat (subSize t) in
  match type t with
  | RBool => let (err, b) := SetBoolean value in option_map (fun m => (err, m)) (store [b] addr mem)
  | RInteger => if int_size (subSize t) then assign n (SetSigned (8 * subSize t) value) addr mem
                else Some (EInvalidDestination, mem)
  | RUnsigned => if int_size (subSize t)
                 then assign n (SetUnsigned (wrap (8 * subSize t)) (2 ^ (8 * subSize t) - 1) value) addr mem
                 else Some (EInvalidDestination, mem)
  | RFloat => if (subSize t =? 4) || (subSize t =? 8) then
                match load n addr mem with
                | None => None
                | Some old => let (err, bs) := parse_float e n value old in
                              if (length bs =? n)%nat then option_map (fun m => (err, m)) (store bs addr mem) else None
                end
              else Some (EInvalidDestination, mem)
  | RBitMember =>
      (* LimitProxy<BFTag>: uMax((1 << numBits) - 1) in int; BFTag is not a signed type, so
         both branches of reflector.cpp:470-474 take the unsigned path *)
      match load 8 addr mem, GetMask 64 (offset t, subSize t) with
      | Some w, Some mask =>
        if (1 <=? subSize t) && (subSize t <=? 30) then
          let uMax := 2 ^ subSize t - 1 in
          let (err, x) := SetUnsigned u64 uMax value in
          let ins := match x with Some v => v | None => 0 end in
          let cleared := Z.land (le_value w) (2 ^ 64 - 1 - mask) in
          option_map (fun m => (err, m)) (store (le_bytes 8 (Z.lor cleared (u64 (ins * 2 ^ offset t)))) addr mem)
        else None
      | _, _ => None
      end
  | REnum => copy_value (subSize t) (SetEnum e value (typeHash t)) addr mem
  | REnumFlags => match SetEnumFlags e value (typeHash t) with
                  | None => None
                  | Some r => copy_value (subSize t) r addr mem
                  end
  | RString => None
  | RArray | RVector | RArrayClass =>
      match fuel with
      | O => None
      | S f => SetReflectedArray (SetReflectedMember f e) (fst (braces (type t))) (snd (braces (type t)))
                 addr value t mem
      end
  | _ => Some (ENone, mem)
  end.

(** Arrays of vectors are the deepest well-formed nesting; deeper texts recurse at most
    once per character. *)
Definition set_fuel (value : list Z) : nat := S (length value).

(** GetReflectedType, internal/reflector.inl:6-13 and reflector.cpp:30-44 *)
Definition by_id (cls : list reflType) (id : Z) : option reflType :=
  if (0 <=? id) && (id <? Z.of_nat (length cls)) then nth_error cls (Z.to_nat id) else None.
Definition by_hash (cls : list reflType) (aliases : list Z) (hash : Z) : option reflType :=
  match find (fun t => nameHash t =? hash) cls with
  | Some t => Some t
  | None =>
    match find (fun p => snd p =? hash) (combine cls aliases) with
    | Some (t, _) => Some t
    | None => None
    end
  end.

Definition nat_offset (t : reflType) : nat := Z.to_nat (offset t).

(** SetReflectedValue(reflType, value), reflector.cpp:503-511 *)
Definition set_value (e : env) (t : reflType) (value : list Z) (mem : list Z) :=
  SetReflectedMember (set_fuel value) e t value
    (match type t with RBitMember => 0%nat | _ => nat_offset t end) mem.
(** SetReflectedValue(id, value), internal/reflector.inl:25-33 *)
Definition SetReflectedValue (e : env) (cls : list reflType) (id : Z) (value : list Z) (mem : list Z) :=
  match by_id cls id with
  | None => Some (EInvalidDestination, mem)
  | Some t => set_value e t value mem
  end.

(** SetReflectedValue(id, value, subID), internal/reflector.inl:55-71 and reflector.cpp:513-530 *)
Definition SetReflectedSub (e : env) (cls : list reflType) (id : Z) (value : list Z) (subID : Z) (mem : list Z) :=
  match by_id cls id with
  | None => Some (EInvalidDestination, mem)
  | Some t =>
    match type t with
    | RArray | RVector | RArrayClass | REnumFlags =>
      SetReflectedMember (set_fuel value) e (element_type t) value
        (nat_offset t + Z.to_nat (subSize t * subID))%nat mem
    | _ => Some (EInvalidDestination, mem)
    end
  end.

(** IsArray, internal/reflector.inl:281-288 *)
Definition is_array (t : reflType) : bool :=
  match type t with RArray | RArrayClass => true | _ => false end.

(** SetReflectedValue(id, value, subID, element), internal/reflector.inl:84-94 and
    reflector.cpp:532-569; the element is described by the whole type with subSize and type
    replaced. *)
Definition SetReflectedElement (e : env) (cls : list reflType) (id : Z) (value : list Z)
  (subID element : Z) (mem : list Z) :=
  match by_id cls id with
  | None => Some (EInvalidDestination, mem)
  | Some t =>
    if negb (is_array t) then Some (EInvalidDestination, mem)
    else match subType t with
    | RVector =>
      let ds := dec_size (typeHash t) in
      if ds <=? element then Some (EOutOfRange, mem)
      else SetReflectedMember (set_fuel value) e
             (mkRefl (dec_type (typeHash t)) (subType t) ds (ID t) (numItems t) (offset t) (nameHash t) (typeHash t))
             value (nat_offset t + Z.to_nat (subSize t * subID) + Z.to_nat (ds * element))%nat mem
    | _ => Some (EInvalidDestination, mem)
    end
  end.

(** SetReflectedValueInt / UInt, reflector.cpp:559-618 *)
Definition SetReflectedNumber (kind : REFType) (cls : list reflType) (id : Z) (value subID : Z) (mem : list Z) :=
  match by_id cls id with
  | None => Some (EInvalidDestination, mem)
  | Some t =>
    let indexed := match type t with RArray | RVector | RArrayClass => subID <? numItems t | _ => false end in
    if negb (subID =? 0) && negb indexed then Some (EOutOfRange, mem)
    else
      let cType := if subID =? 0 then type t else subType t in
      if negb (ref_eqb cType kind) then Some (EInvalidDestination, mem)
      else if subSize t <=? 8 then
        option_map (fun m => (ENone, m))
          (store (le_bytes (Z.to_nat (subSize t)) value) (nat_offset t + Z.to_nat (subID * subSize t))%nat mem)
      else None
  end.
Definition SetReflectedValueInt := SetReflectedNumber RInteger.
Definition SetReflectedValueUInt := SetReflectedNumber RUnsigned.

(** ** Formatting *)
(** std::to_string *)
Fixpoint dec_digits (fuel : nat) (x : Z) : list Z :=
  match fuel with
  | O => []
  | S f => if x <? 10 then [48 + x] else dec_digits f (x / 10) ++ [48 + x mod 10]
  end.
Definition to_string (x : Z) : list Z :=
  if x <? 0 then 45 :: dec_digits 20 (- x) else dec_digits 20 x.

(** PrintEnumFlags, reflector.cpp:688-720 *)
Definition s_bar := [32; 124; 32].
Fixpoint print_flags (tab : list (list Z * Z)) (v : Z) (k : nat) (t : Z) (result : list Z) : list Z :=
  match k with
  | O => result
  | S k' =>
    if Z.testbit v t then
      let r1 := match result with [] => [] | _ => result ++ s_bar end in
      let r2 := match name_of_value t tab with Some n => r1 ++ n | None => r1 end in
      print_flags tab v k' (t + 1) r2
    else print_flags tab v k' (t + 1) result
  end.
Definition PrintEnumFlags (e : env) (hash : Z) (bs : list Z) : list Z :=
  let v := le_value bs in
  let result := match enums e hash with
                | Some tab => print_flags tab v (8 * length bs) 0 []
                | None => []
                end in
  match result with [] => s_NULL | _ => result end.

(** elements joined with ", " (reflector.cpp:843-851: append and drop the last two) *)
Fixpoint join_elems (l : list (list Z)) : list Z :=
  match l with
  | [] => []
  | [x] => x
  | x :: r => x ++ [44; 32] ++ join_elems r
  end.
Fixpoint all_some {A} (l : list (option A)) : option (list A) :=
  match l with
  | [] => Some []
  | Some x :: r => option_map (cons x) (all_some r)
  | None :: _ => None
  end.

(** GetReflectedPrimitive, reflector.cpp:722-858 *)
Fixpoint GetReflectedPrimitive (fuel : nat) (e : env) (t : reflType) (addr : nat) (mem : list Z) : option (list Z) :=
  let n := Z.to_nat (subSize t) in
  match type t with
  | RBool => option_map (fun b => if le_value b =? 0 then s_false else s_true) (load 1 addr mem)
  | RInteger => if int_size (subSize t) then option_map (fun b => to_string (sgn (8 * subSize t) (le_value b))) (load n addr mem)
                else Some []
  | RUnsigned => if int_size (subSize t) then option_map (fun b => to_string (le_value b)) (load n addr mem)
                 else Some []
  | RFloat => if (subSize t =? 4) || (subSize t =? 8) then option_map (print_float e n) (load n addr mem) else Some []
  | RBitMember =>
      match load 8 addr mem, GetMask 64 (offset t, subSize t) with
      | Some w, Some mask =>
        let output := Z.shiftr (Z.land (le_value w) mask) (offset t) in
        if ref_eqb (subType t) RUnsigned then Some (to_string output)
        else if (1 <=? subSize t) && (subSize t <=? 30) then
          let uMax := 2 ^ subSize t - 1 in
          let iMin := 2 ^ 64 - 1 - Z.shiftr uMax 1 in
          let s := if Z.land output iMin =? 0 then output else Z.lor output (2 ^ 64 - 1 - uMax) in
          Some (to_string (sgn 64 s))
        else None
      | _, _ => None
      end
  | REnumFlags => if subSize t <=? 8 then option_map (PrintEnumFlags e (typeHash t)) (load n addr mem) else None
  | REnum => if subSize t <=? 8 then
               option_map (fun b => match enums e (typeHash t) with
                                    | None => []
                                    | Some tab => match name_of_value (le_value b) tab with Some s => s | None => [] end
                                    end) (load n addr mem)
             else None
  | RClass | RBitClass => Some [83; 85; 66; 67; 76; 65; 83; 83; 95; 84; 89; 80; 69]
  | RString | RCString => None
  | RArray | RVector | RArrayClass =>
      match fuel with
      | O => None
      | S f =>
        if numItems t =? 0 then None (* pop_back on a one-character string, twice *)
        else
          let elems := map (fun i => GetReflectedPrimitive f e (element_type t)
                                       (addr + Z.to_nat (subSize t * Z.of_nat i))%nat mem)
                           (seq 0 (Z.to_nat (numItems t))) in
          option_map (fun l => [fst (braces (type t))] ++ join_elems l ++ [snd (braces (type t))]) (all_some elems)
      end
  | RNone => Some []
  end.

(** GetReflectedValue(id), reflector.cpp:860-871; arrays of vectors are two levels deep *)
Definition GetReflectedValue (e : env) (cls : list reflType) (id : Z) (mem : list Z) : option (list Z) :=
  match by_id cls id with
  | None => Some []
  | Some t => GetReflectedPrimitive 2 e t (match type t with RBitMember => 0%nat | _ => nat_offset t end) mem
  end.

(** (eValue & (1 << bit)) ? "true" : "false" on an eValue of which only [bs] is initialised *)
Definition test_flag (bs : list Z) (bit : Z) : option (list Z) :=
  let v := le_value bs in
  if bit <? 31 then Some (if Z.testbit v bit then s_true else s_false)
  else if bit =? 31 then
    (* 1 << 31 is negative and widens to 0xffffffff80000000 *)
    if negb (Z.land v (2 ^ 64 - 2 ^ 31) =? 0) then Some s_true
    else if (length bs =? 8)%nat then Some s_false else None
  else None.

(** GetReflectedValue(id, subID), reflector.cpp:873-919 *)
Definition GetReflectedSub (e : env) (cls : list reflType) (id subID : Z) (mem : list Z) : option (list Z) :=
  match by_id cls id with
  | None => Some []
  | Some t =>
    match type t with
    | RArray | RVector | RArrayClass =>
      if numItems t <=? subID then Some []
      else GetReflectedPrimitive 2 e (element_type t) (nat_offset t + Z.to_nat (subSize t * subID))%nat mem
    | REnumFlags =>
      if subSize t * 8 <=? subID then Some []
      else match load (Z.to_nat (subSize t)) (nat_offset t) mem with
           | None => None
           | Some bs => test_flag bs subID
           end
    | _ => Some []
    end
  end.

(** GetReflectedValue(id, subID, element), reflector.cpp:921-971 *)
Definition GetReflectedElement (e : env) (cls : list reflType) (id subID element : Z) (mem : list Z) : option (list Z) :=
  match by_id cls id with
  | None => Some []
  | Some t =>
    if negb (is_array t) then Some []
    else match subType t with
    | RVector =>
      if (numItems t <=? subID) || (dec_num (typeHash t) <=? element) then Some []
      else GetReflectedPrimitive 2 e
             (mkRefl (dec_type (typeHash t)) (subType t) (dec_size (typeHash t)) (ID t) (dec_num (typeHash t))
                     (offset t) (nameHash t) (typeHash t))
             (nat_offset t + Z.to_nat (subSize t * subID) + Z.to_nat (dec_size (typeHash t) * element))%nat mem
    | REnumFlags =>
      if (subSize t * 8 <=? element) || (numItems t <=? subID) then Some []
      else match load (Z.to_nat (subSize t)) (nat_offset t + Z.to_nat (subSize t * subID))%nat mem with
           | None => None
           | Some bs => test_flag bs element
           end
    | _ => Some []
    end
  end.

(** ** Enum registration *)
(** _GetReflEnumItemSize, internal/reflector_enum.hpp:21-34: the name ends at '=', ' ' or
    the terminator. *)
Fixpoint item_name (s : list Z) : list Z :=
  match s with
  | [] => []
  | c :: r => if (c =? 61) || (c =? 32) || (c =? 0) then [] else c :: item_name r
  end.
(** what follows the name, up to and including the first '=' dropped; None: no '=' *)
Fixpoint after_equals (s : list Z) : option (list Z) :=
  match s with
  | [] => None
  | c :: r => if c =? 61 then Some r else after_equals r
  end.
(** strtoull(text, nullptr, base): saturates *)
Definition strtoull (s : list Z) (base : Z) : Z :=
  match strto base s with
  | None => 0
  | Some (neg, m) => if 2 ^ 64 <=? m then 2 ^ 64 - 1 else if neg then u64 (- m) else m
  end.
(** _REnumInitializer, internal/reflector_enum_reg.hpp:25-53, over the stringified
    enumerators *)
Fixpoint enum_values (items : list (list Z)) (lastValue : Z) : list Z :=
  match items with
  | [] => []
  | s :: r =>
    match after_equals (skipn (length (item_name s)) s) with
    | None | Some [] => lastValue :: enum_values r (u64 (lastValue + 1))
    | Some txt =>
      let txt := skip_start txt in
      let v := strtoull txt (if starts_with [48; 120] txt then 16 else 10) in
      v :: enum_values r (u64 (v + 1))
    end
  end.
Definition REnumInitializer (items : list (list Z)) : list (list Z * Z) :=
  combine (map item_name items) (enum_values items 0).
