(** Model of the binary dump of reflected objects: datas/reflector_io.cpp:428-674
    (WriteDataItem, SaveClass, ReflectorBinUtil::Save, LoadDataItem, LoadClass,
    ReflectorBinUtil::Load) with GetReflectedSubClass (datas/reflector.cpp:985-1043).

    An object is its bytes plus the contents of the std::string members by their address.
    A writer is the list of bytes it appends; a reader the list of bytes that are left.
    [None] is undefined behaviour (access outside the object, a null sub-class, a shift by a
    negative amount), the end of the input inside a value, or more nested calls than [fuel],
    which stands for the call stack.  Host and stream are little endian. *)
From Verif Require Import Base Base128_Model Reflector_Model.

(** reflectorStatic (internal/reflector_class.hpp) as far as the dump uses it *)
Record cls := mkCls { cHash : Z; cTypes : list reflType; cAlias : list Z }.
Record obj := mkObj { ob : list Z; os : nat -> list Z }.
(** A reflected instance: its class and the address of its first byte. *)
Definition inst : Type := cls * nat.
(** REFSubClassStorage *)
Definition storage : Type := Z -> option cls.

(** Reflector::GetReflectedSubClass, reflector.cpp:985-1014 (const) and :1016-1043; [None] is the
    empty instance. *)
Definition SubClass (sub : storage) (own : inst) (id subID : Z) : option inst :=
  let (c, base) := own in
  match by_id (cTypes c) id with                                        (* :987-991 *)
  | None => None
  | Some t =>
    if negb (subID =? 0) && (numItems t <=? subID) then None            (* :996-997 *)
    else
      let arr := match type t with RArray | RVector | RArrayClass => true | _ => false end in
      let addr := (base + nat_offset t + (if arr then Z.to_nat (subID * subSize t) else 0))%nat in
      match (if arr then subType t else type t) with                    (* :1009-1013 *)
      | RClass | RBitClass =>
        match sub (typeHash t) with Some k => Some (k, addr) | None => None end
      | _ => None
      end
  end.

(** The description of element [i] of an array, reflector_io.cpp:461-474 and :573-586 *)
Definition elem (t : reflType) (i : nat) : reflType :=
  match subType t with
  | RVector => mkRefl RVector (dec_type (typeHash t)) (dec_size (typeHash t)) (ID t)
                 (dec_num (typeHash t)) (offset t) (nameHash t) (typeHash t)
  | s => mkRefl s (type t) (subSize t) (ID t) (u16 (Z.of_nat i)) (offset t) (nameHash t) (typeHash t)
  end.

(** ** Saving *)
(** the array loop, :472-478; [w i] writes element i *)
Fixpoint write_elems (w : nat -> option (Z * list Z)) (n i : nat) : option (Z * list Z) :=
  match n with
  | O => Some (0, [])
  | S n' =>
    match w i with
    | None => None
    | Some (rc, bs) =>
      if rc =? 0 then
        match write_elems w n' (S i) with
        | Some (rc', bs') => Some (rc', bs ++ bs')
        | None => None
        end
      else Some (2, bs)
    end
  end.

(** the member loop of SaveClass, :508-522 *)
Fixpoint save_members (w : reflType -> option (Z * list Z)) (ts : list reflType) : option (Z * list Z) :=
  match ts with
  | [] => Some (0, [])
  | t :: r =>
    match w t with
    | None => None
    | Some (rc, bs) =>
      if rc =? 0 then
        match buint128_Write (u64 (Z.of_nat (length bs))), save_members w r with
        | Some n, Some (rc', rest) => Some (rc', le_bytes 4 (nameHash t) ++ n ++ bs ++ rest)
        | _, _ => None
        end
      else Some (rc, [])
    end
  end.

(** SaveClass, :498-528; [w t addr] is WriteDataItem at the absolute address.  Nothing reaches the
    output when a member fails. *)
Definition SaveClass (w : reflType -> nat -> option (Z * list Z)) (c : inst) : option (Z * list Z) :=
  let ts := cTypes (fst c) in
  match buint128_Write (Z.of_nat (length ts)),
        save_members (fun t => w t (snd c + nat_offset t)%nat) ts with
  | Some n, Some (rc, bs) =>
    if rc =? 0 then
      match buint128_Write (u64 (Z.of_nat (length (n ++ bs)))) with
      | Some l => Some (0, l ++ n ++ bs)
      | None => None
      end
    else Some (rc, [])
  | _, _ => None
  end.

Definition write_raw (n : Z) (addr : nat) (o : obj) : option (Z * list Z) :=
  option_map (fun bs => (0, bs)) (load (Z.to_nat n) addr (ob o)).

(** WriteDataItem, :428-496.  [top] is the object being saved: the same reflector is passed down
    unchanged, also for members of sub-classes. *)
Fixpoint WriteDataItem (fuel : nat) (sub : storage) (top : inst) (o : obj) (t : reflType) (addr : nat)
  : option (Z * list Z) :=
  match fuel with
  | O => None
  | S f =>
    match type t with
    | RInteger | REnum =>                                               (* :432-441 *)
      if 1 <? subSize t then
        if subSize t <=? 8 then
          match load (Z.to_nat (subSize t)) addr (ob o) with
          | Some bs => option_map (fun out => (0, out)) (bint128_Write (sgn (8 * subSize t) (le_value bs)))
          | None => None
          end
        else None
      else write_raw (subSize t) addr o
    | RUnsigned | REnumFlags | RBitClass =>                             (* :443-451 *)
      if 1 <? subSize t then
        if subSize t <=? 8 then
          match load (Z.to_nat (subSize t)) addr (ob o) with
          | Some bs => option_map (fun out => (0, out)) (buint128_Write (le_value bs))
          | None => None
          end
        else None
      else write_raw (subSize t) addr o
    | RBool | RFloat => write_raw (subSize t) addr o                    (* :453-456 *)
    | RArray | RArrayClass | RVector =>                                 (* :458-480 *)
      write_elems (fun i => WriteDataItem f sub top o (elem t i) (addr + Z.to_nat (subSize t) * i)%nat)
        (Z.to_nat (numItems t)) 0
    | RString =>                                                        (* :482-486 *)
      let s := os o addr in
      Some (0, le_bytes 4 (u32 (Z.of_nat (length s))) ++ s)
    | RClass =>                                                         (* :488-492 *)
      match SubClass sub top (ID t) (numItems t) with
      | Some k => SaveClass (WriteDataItem f sub top o) k
      | None => None
      end
    | _ => Some (1, [])                                                 (* :493-494 *)
    end
  end.

(** ReflectorBinUtil::Save, :530-539 *)
Definition Save (fuel : nat) (sub : storage) (c : cls) (o : obj) : option (Z * list Z) :=
  match SaveClass (WriteDataItem fuel sub (c, 0%nat) o) (c, 0%nat) with
  | Some (rc, bs) => Some (rc, le_bytes 4 (cHash c) ++ bs)
  | None => None
  end.

(** ** Loading *)
(** read [n] raw bytes *)
Definition take (n : nat) (s : list Z) : option (list Z * list Z) :=
  if (n <=? length s)%nat then Some (firstn n s, skipn n s) else None.
(** rd.Pop(); rd.Skip(n) from a saved position; leaving the input is not modelled *)
Definition skip (n : Z) (s : list Z) : option (list Z) :=
  if n <=? Z.of_nat (length s) then Some (skipn (Z.to_nat n) s) else None.

Definition put (bs : list Z) (addr : nat) (o : obj) : option obj :=
  option_map (fun m => mkObj m (os o)) (store bs addr (ob o)).
Definition put_string (s : list Z) (addr : nat) (o : obj) : obj :=
  mkObj (ob o) (fun a => if (a =? addr)%nat then s else os o a).

Definition loaded : Type := Z * obj * list Z.

Fixpoint read_elems (r : nat -> obj -> list Z -> option loaded) (n i : nat) (o : obj) (s : list Z) : option loaded :=
  match n with
  | O => Some (0, o, s)
  | S n' =>
    match r i o s with
    | None => None
    | Some (rc, o', s') =>
      if rc =? 0 then read_elems r n' (S i) o' s' else Some (2, o', s')
    end
  end.

(** the member loop of LoadClass, :629-653 *)
Fixpoint load_members (r : reflType -> obj -> list Z -> option loaded) (c : cls) (n : nat) (errType : Z)
  (o : obj) (s : list Z) : option loaded :=
  match n with
  | O => Some (errType, o, s)
  | S n' =>
    match take 4 s with
    | None => None
    | Some (h, s1) =>
      match buint128_Read s1 with
      | None => None
      | Some (size, s2) =>
        match by_hash (cTypes c) (cAlias c) (le_value h) with
        | None =>                                                       (* :641-645 *)
          match skip size s2 with
          | Some s3 => load_members r c n' errType o s3
          | None => None
          end
        | Some t =>
          match r t o s2 with                                           (* :647 *)
          | None => None
          | Some (rc, o', s3) =>
            if rc =? 0 then load_members r c n' rc o' s3
            else match skip size s2 with                                (* :649-652 *)
                 | Some s4 => load_members r c n' rc o' s4
                 | None => None
                 end
          end
        end
      end
    end
  end.

(** LoadClass, :610-656; [r own] is LoadDataItem with the class's own reflector *)
Definition LoadClass (r : inst -> reflType -> nat -> obj -> list Z -> option loaded) (own : inst)
  (o : obj) (s : list Z) : option loaded :=
  match buint128_Read s with
  | None => None
  | Some (chunkSize, s1) =>
    match buint128_Read s1 with
    | None => None
    | Some (numIOItems, s2) =>
      if negb (numIOItems =? Z.of_nat (length (cTypes (fst own)))) then (* :621-625 *)
        option_map (fun s3 => (1, o, s3)) (skip chunkSize s1)
      else
        load_members (fun t => r own t (snd own + nat_offset t)%nat) (fst own)
          (length (cTypes (fst own))) 0 o s2
    end
  end.

Definition read_raw (n : Z) (addr : nat) (o : obj) (s : list Z) : option loaded :=
  match take (Z.to_nat n) s with
  | Some (bs, s') => option_map (fun o' => (0, o', s')) (put bs addr o)
  | None => None
  end.

(** LoadDataItem, :543-608 *)
Fixpoint LoadDataItem (fuel : nat) (sub : storage) (own : inst) (t : reflType) (addr : nat)
  (o : obj) (s : list Z) : option loaded :=
  match fuel with
  | O => None
  | S f =>
    match type t with
    | RInteger | REnum =>                                               (* :546-553 *)
      if 1 <? subSize t then
        if subSize t <=? 8 then
          match bint128_Read s with
          | Some (v, s') => option_map (fun o' => (0, o', s')) (put (le_bytes (Z.to_nat (subSize t)) v) addr o)
          | None => None
          end
        else None
      else read_raw (subSize t) addr o s
    | RUnsigned | REnumFlags | RBitClass =>                             (* :555-563 *)
      if 1 <? subSize t then
        if subSize t <=? 8 then
          match buint128_Read s with
          | Some (v, s') => option_map (fun o' => (0, o', s')) (put (le_bytes (Z.to_nat (subSize t)) v) addr o)
          | None => None
          end
        else None
      else read_raw (subSize t) addr o s
    | RBool | RFloat => read_raw (subSize t) addr o s                   (* :565-568 *)
    | RArray | RArrayClass | RVector =>                                 (* :570-592 *)
      read_elems (fun i => LoadDataItem f sub own (elem t i) (addr + Z.to_nat (subSize t) * i)%nat)
        (Z.to_nat (numItems t)) 0 o s
    | RString =>                                                        (* :594-598 *)
      match take 4 s with
      | None => None
      | Some (n, s1) =>
        match take (Z.to_nat (le_value n)) s1 with
        | None => None
        | Some (str, s2) => Some (0, put_string str addr o, s2)
        end
      end
    | RClass =>                                                         (* :600-604 *)
      match SubClass sub own (ID t) (numItems t) with
      | Some k => LoadClass (fun own' => LoadDataItem f sub own') k o s
      | None => None
      end
    | _ => Some (1, o, s)                                               (* :605-606 *)
    end
  end.

(** ReflectorBinUtil::Load, :658-674 *)
Definition Load (fuel : nat) (sub : storage) (c : cls) (o : obj) (s : list Z) : option loaded :=
  match take 4 s with
  | None => None
  | Some (h, s1) =>
    if negb (le_value h =? cHash c) then Some (1, o, s)                 (* :668-671 *)
    else LoadClass (LoadDataItem fuel sub) (c, 0%nat) o s1
  end.
