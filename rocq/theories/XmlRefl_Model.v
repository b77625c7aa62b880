(** Model of datas/reflector_xml.cpp: ReflectorXMLUtil::Save and Load.

    The XML document is a tree held in memory; writing it to a file and parsing that file is
    pugixml's business and not modelled, and of pugixml only the operations used here are:
    append_child, append_attribute, set_value, append_buffer, children, attributes, name, text.
    All objects lie in one memory [mem], a reflected instance being a class and the address of its
    first byte.  [None] is undefined behaviour (an access outside the memory, a null class, a read
    outside a table), something not modelled (std::string members, text that append_buffer would
    take for markup), or more nested calls than [fuel], which stands for the call stack. *)
From Verif Require Import Base Jenkins_Model FileInfo_Model StringView_Model Reflector_Model RefAccess_Model.

Inductive xml := Elem (name : list Z) (attrs : list (list Z * list Z)) (kids : list xml) | Txt (s : list Z).
(** xml_node::name, children, attributes; a text node has the empty name *)
Definition xname (x : xml) : list Z := match x with Elem n _ _ => n | Txt _ => [] end.
Definition xkids (x : xml) : list xml := match x with Elem _ _ k => k | Txt _ => [] end.
Definition xattrs (x : xml) : list (list Z * list Z) := match x with Elem _ a _ => a | Txt _ => [] end.
(** xml_node::text().as_string(): the node's own text or that of its first text child *)
Fixpoint first_text (l : list xml) : list Z :=
  match l with
  | [] => []
  | Txt s :: _ => s
  | _ :: r => first_text r
  end.
Definition xtext (x : xml) : list Z := match x with Txt s => s | Elem _ _ k => first_text k end.

(** xml_node::append_buffer(text) with the default options: text without markup becomes one text
    child, white space alone nothing.  Text with an opening angle bracket, an ampersand, a carriage
    return, a NUL or a character above 127 would be parsed or converted and is not modelled. *)
Definition verbatim (c : Z) : bool := (1 <=? c) && (c <=? 127) && negb (c =? 60) && negb (c =? 38) && negb (c =? 13).
Definition xspace (c : Z) : bool := (c =? 32) || (c =? 9) || (c =? 10) || (c =? 13).
Definition append_buffer (s : list Z) : option (list xml) :=
  if forallb verbatim s then Some (if forallb xspace s then [] else [Txt s]) else None.

(** reflectorStatic, internal/reflector_class.hpp, as far as used: name and hash of the class,
    the members, their names and the hashes of their aliases ([None]: a null pointer) *)
Record xcls := mkX { xClassName : list Z; xClassHash : Z; xTypes : list reflType;
                     xNames : option (list (list Z)); xAliasHashes : option (list Z) }.
Definition xinfo (c : xcls) : info := mkInfo (xTypes c) (xNames c) None (xAliasHashes c) None.
Definition xinst : Type := xcls * nat.
(** REFSubClassStorage *)
Definition registry : Type := Z -> option xcls.

(** Reflector::GetReflectedSubClass, reflector.cpp:985-1043; [None] is the empty instance *)
Definition XSub (reg : registry) (own : xinst) (id subID : Z) : option xinst :=
  let (c, base) := own in
  match by_id (xTypes c) id with
  | None => None
  | Some t =>
    if negb (subID =? 0) && (numItems t <=? subID) then None
    else
      let arr := match type t with RArray | RVector | RArrayClass => true | _ => false end in
      let addr := (base + nat_offset t + (if arr then Z.to_nat (subID * subSize t) else 0))%nat in
      match (if arr then subType t else type t) with
      | RClass | RBitClass =>
        match reg (typeHash t) with Some k => Some (k, addr) | None => None end
      | _ => None
      end
  end.

(** Reading and setting members of the object at [base]: GetReflectedValue and SetReflectedValue of
    Reflector_Model on the memory from [base] on. *)
Definition GetAt (e : env) (own : xinst) (id : Z) (mem : list Z) : option (list Z) :=
  GetReflectedValue e (xTypes (fst own)) id (skipn (snd own) mem).
(** what the setters leave in memory; Load ignores the error they return *)
Definition put_back (base : nat) (mem : list Z) (r : option (ErrorType * list Z)) : option (list Z) :=
  match r with Some (_, m) => Some (firstn base mem ++ m) | None => None end.
Definition SetAt (e : env) (own : xinst) (hash : Z) (value mem : list Z) : option (list Z) :=
  put_back (snd own) mem (SetByHash e (xinfo (fst own)) hash value (skipn (snd own) mem)).

(** snprintf("%X") of a 32-bit value *)
Definition hex_char (d : Z) : Z := if d <? 10 then 48 + d else 55 + d.
Fixpoint hex_digits (fuel : nat) (x : Z) : list Z :=
  match fuel with
  | O => []
  | S f => if x <? 16 then [hex_char x] else hex_digits f (x / 16) ++ [hex_char (x mod 16)]
  end.
(** GetName, reflector_xml.cpp:106-119: a std::string.  Without names it is 15 characters long,
    NULs filling it up. *)
Definition pad15 (s : list Z) : list Z := s ++ repeat 0 (15 - length s).
Definition hash_name (h : Z) : list Z := pad15 ([104; 58] ++ hex_digits 8 h).
Definition GetName (c : xcls) (t : reflType) (i : nat) : option (list Z) :=
  match xNames c with
  | Some ns => nth_error ns i
  | None => Some (hash_name (nameHash t))
  end.
(** MakeNode, reflector_xml.cpp:91-104: the name of the new child *)
Definition NodeName (c : xcls) : list Z :=
  match xNames c with
  | Some _ => xClassName c
  | None => c_string (hash_name (xClassHash c))
  end.

(** MakeHash, reflector_xml.cpp:281-288 and :429-436 *)
Definition MakeHash (name : list Z) : Z :=
  match name with
  | 104 :: 58 :: r => u32 (strtoull r 16)
  | _ => jenkins 64 name
  end.

(** atoll *)
Definition atoll (s : list Z) : Z :=
  match strto 10 s with
  | None => 0
  | Some (neg, m) => if neg then (if 2 ^ 63 <? m then - 2 ^ 63 else - m) else (if 2 ^ 63 <=? m then 2 ^ 63 - 1 else m)
  end.

(** ** Save, reflector_xml.cpp:121-157 *)
(** the loop over the elements of an array of objects *)
Fixpoint save_elems (f : Z -> option (list xml)) (n : nat) (s : Z) : option (list xml) :=
  match n with
  | O => Some []
  | S n' =>
    match f s, save_elems f n' (s + 1) with
    | Some k, Some r => Some (Elem ([105; 58] ++ to_string s) [] k :: r)
    | _, _ => None
    end
  end.
(** the loop over the members; [f] gives the children of the member's element *)
Fixpoint save_loop (c : xcls) (f : reflType -> nat -> option (list xml)) (ts : list reflType) (i : nat) : option (list xml) :=
  match ts with
  | [] => Some []
  | t :: r =>
    match GetName c t i, f t i, save_loop c f r (S i) with
    | Some n, Some k, Some l => Some (Elem (c_string n) [] k :: l)
    | _, _, _ => None
    end
  end.
(** what Save appends to the node of the object *)
Fixpoint SaveKids (fuel : nat) (e : env) (reg : registry) (own : xinst) (mem : list Z) : option (list xml) :=
  match fuel with
  | O => None
  | S f =>
    let info := xinfo (fst own) in
    save_loop (fst own)
      (fun t i =>
         let id := Z.of_nat i in
         if IsReflectedSubClass info id then
           if IsArray info id then
             save_elems (fun s => match XSub reg own id s with
                                  | Some k => SaveKids f e reg k mem
                                  | None => None
                                  end) (Z.to_nat (numItems t)) 0
           else match XSub reg own id 0 with
                | Some k => SaveKids f e reg k mem
                | None => None
                end
         else match GetAt e own id mem with
              | Some s => append_buffer s
              | None => None
              end)
      (xTypes (fst own)) 0
  end.
(** Save(ri, node, asNewNode): the node afterwards *)
Definition Save (fuel : nat) (e : env) (reg : registry) (own : xinst) (mem : list Z) (node : xml) (asNewNode : bool) : option xml :=
  match SaveKids fuel e reg own mem with
  | None => None
  | Some k => Some (Elem (xname node) (xattrs node)
                      (xkids node ++ if asNewNode then [Elem (NodeName (fst own)) [] k] else k))
  end.

(** ** Load, reflector_xml.cpp:420-485 *)
Fixpoint fold_mem {A} (f : A -> list Z -> option (list Z)) (l : list A) (mem : list Z) : option (list Z) :=
  match l with
  | [] => Some mem
  | x :: r => match f x mem with Some m => fold_mem f r m | None => None end
  end.
Fixpoint LoadKids (fuel : nat) (e : env) (reg : registry) (own : xinst) (kids : list xml) (mem : list Z) : option (list Z) :=
  match fuel with
  | O => None
  | S f =>
    let info := xinfo (fst own) in
    fold_mem (fun a mem =>
      let hash := MakeHash (xname a) in
      if via_hash info false (IsReflectedSubClass info) hash then
        if via_hash info false (IsArray info) hash then
          fold_mem (fun sc mem =>
            if (length (xname sc) <? 2)%nat then None (* sc.name() + 2 is behind the terminator *)
            else
            match via_hash info None (fun id => XSub reg own id (u64 (atoll (skipn 2 (xname sc))))) hash with
            | Some k => LoadKids f e reg k (xkids sc) mem
            | None => None
            end) (xkids a) mem
        else match via_hash info None (fun id => XSub reg own id 0) hash with
             | Some k => LoadKids f e reg k (xkids a) mem
             | None => None
             end
      else SetAt e own hash (xtext a) mem) kids mem
  end.
(** Load(ri, node, lookupClassNode): the object's memory afterwards *)
Definition Load (fuel : nat) (e : env) (reg : registry) (own : xinst) (node : xml) (lookupClassNode : bool) (mem : list Z) : option (list Z) :=
  if lookupClassNode then
    match find (fun n => MakeHash (xname n) =? xClassHash (fst own)) (xkids node) with
    | None => Some mem
    | Some n => LoadKids fuel e reg own (xkids n) mem
    end
  else LoadKids fuel e reg own (xkids node) mem.
