(** Model of datas/reflector_xml.cpp: ReflectorXMLUtil::SaveV2, SaveV2a and LoadV2, on the same
    documents and memory as XmlRefl_Model.  [None] has the same meaning as there; loading an
    element into an object that does not exist is always taken for undefined, although it has no
    effect if the element is empty.  Strings are not modelled, so neither is the option to
    write them as attributes. *)
From Verif Require Import Base Jenkins_Model FileInfo_Model StringView_Model Reflector_Model RefAccess_Model XmlRefl_Model.

Definition attr : Type := list Z * list Z.
(** what saving appends to a node *)
Definition content : Type := list attr * list xml.

(** Reading and setting parts of members of the object at [base] *)
Definition GetSubAt (e : env) (own : xinst) (id subID : Z) (mem : list Z) : option (list Z) :=
  GetReflectedSub e (xTypes (fst own)) id subID (skipn (snd own) mem).
Definition GetElementAt (e : env) (own : xinst) (id subID element : Z) (mem : list Z) : option (list Z) :=
  GetReflectedElement e (xTypes (fst own)) id subID element (skipn (snd own) mem).
(** SetReflectedValue(id, value), (id, value, subID), (id, value, subID, element): reflector.inl 25-94 *)
Definition SetIdAt (e : env) (own : xinst) (id : Z) (value mem : list Z) : option (list Z) :=
  put_back (snd own) mem (SetReflectedValue e (xTypes (fst own)) id value (skipn (snd own) mem)).
Definition SetSubAt (e : env) (own : xinst) (id : Z) (value : list Z) (subID : Z) (mem : list Z) : option (list Z) :=
  put_back (snd own) mem (SetReflectedSub e (xTypes (fst own)) id value subID (skipn (snd own) mem)).
Definition SetElementAt (e : env) (own : xinst) (id : Z) (value : list Z) (subID element : Z) (mem : list Z) : option (list Z) :=
  put_back (snd own) mem (SetReflectedElement e (xTypes (fst own)) id value subID element (skipn (snd own) mem)).
(** SetReflectedValue(hash, value, subID), reflector.inl 35-53: the description found is used itself, so
    this is the overload for positions in a class that consists of it *)
Definition SetSubByHash (e : env) (own : xinst) (hash : Z) (value : list Z) (subID : Z) (mem : list Z) : option (list Z) :=
  match GetReflectedType (xinfo (fst own)) hash with
  | None => Some mem
  | Some t => put_back (snd own) mem (SetReflectedSub e [t] 0 value subID (skipn (snd own) mem))
  end.

(** ** SaveV2 *)
(** the names of the components, reflector_xml.cpp:58; there are four *)
Definition axes : list (list Z) := [[120]; [121]; [122]; [119]].
(** the loops over components and over enumerators, reflector_xml.cpp:61-64, 77-82, 228-231 and 249-254 *)
Definition vector_attrs (get : Z -> option (list Z)) (n : Z) : option (list attr) :=
  all_some (map (fun a => match nth_error axes a, get (Z.of_nat a) with
                          | Some x, Some s => Some (x, c_string s)
                          | _, _ => None
                          end) (seq 0 (Z.to_nat n))).
Definition flag_attrs (get : Z -> option (list Z)) (tab : list (list Z * Z)) : option (list attr) :=
  all_some (map (fun p => option_map (fun s => (c_string (fst p), c_string s)) (get (snd p))) tab).
Definition one_node (name : list Z) (at_ : option (list attr)) : option content :=
  option_map (fun l => ([], [Elem (c_string name) l []])) at_.
Definition text_node (name : list Z) (s : option (list Z)) : option content :=
  match s with
  | None => None
  | Some s => option_map (fun k => ([], [Elem (c_string name) [] k])) (append_buffer s)
  end.
(** varName + '-' + std::to_string(s), as a C string *)
Definition indexed (name : list Z) (s : Z) : list Z := c_string (name ++ [45] ++ to_string s).

(** The kinds written as attributes: reflector_xml.cpp:43-48 and 204-209 *)
Definition plain_kind (k : REFType) : bool :=
  match k with RBool | REnum | RFloat | RInteger | RUnsigned | RBitMember => true | _ => false end.
(** static SaveV2, reflector_xml.cpp:34-89; the inner [None] is the result false.  (A string ends there or
    in GetReflectedValue and is not modelled in either case.) *)
Definition SaveValue (e : env) (own : xinst) (mem : list Z) (t : reflType) (id : Z) (name : list Z) : option (option content) :=
  if plain_kind (type t) then
    option_map (fun s => Some ([(c_string name, c_string s)], [])) (GetAt e own id mem)
  else match type t with
  | RVector => option_map Some (one_node name (vector_attrs (fun a => GetSubAt e own id a mem) (dec_num (typeHash t))))
  | REnumFlags =>
    match enums e (typeHash t) with
    | None => Some None
    | Some tab => option_map Some (one_node name (flag_attrs (fun v => GetSubAt e own id v mem) tab))
    end
  | _ => Some None
  end.

Definition app_content (x y : content) : content := (fst x ++ fst y, snd x ++ snd y).
Fixpoint concat_content (l : list (option content)) : option content :=
  match l with
  | [] => Some ([], [])
  | Some x :: r => option_map (app_content x) (concat_content r)
  | None :: _ => None
  end.
(** the loops over the elements of an array *)
Definition each_element (t : reflType) (f : Z -> option content) : option content :=
  concat_content (map (fun s => f (Z.of_nat s)) (seq 0 (Z.to_nat (numItems t)))).

(** what one member adds, reflector_xml.cpp:175-272; [rec] is SaveV2a of a nested object without class node *)
Definition SaveMember2 (rec : xinst -> option content) (e : env) (reg : registry) (own : xinst) (mem : list Z)
  (t : reflType) (i : nat) : option content :=
  let id := Z.of_nat i in
  match GetName (fst own) t i with
  | None => None
  | Some name =>
    match SaveValue e own mem t id name with
    | None => None
    | Some (Some x) => Some x
    | Some None =>
      if IsReflectedSubClass (xinfo (fst own)) id then
        if IsArray (xinfo (fst own)) id then
          each_element t (fun s => match XSub reg own id s with
                                   | None => None
                                   | Some o => option_map (fun x => ([], [Elem (indexed name s) (fst x) (snd x)])) (rec o)
                                   end)
        else match XSub reg own id 0 with
             | None => None
             | Some o => option_map (fun x => ([], [Elem (c_string name) (fst x) (snd x)])) (rec o)
             end
      else if IsArray (xinfo (fst own)) id then
        if plain_kind (subType t) then
          each_element t (fun s => option_map (fun v => ([(indexed name s, c_string v)], [])) (GetSubAt e own id s mem))
        else match subType t with
        | RVector =>
          each_element t (fun s => option_map (fun l => ([], [Elem (indexed name s) l []]))
                                     (vector_attrs (fun a => GetElementAt e own id s a mem) (dec_num (typeHash t))))
        | REnumFlags =>
          match enums e (typeHash t) with
          | None => Some ([], [])
          | Some tab =>
            each_element t (fun s => option_map (fun l => ([], [Elem (indexed name s) l []]))
                                       (flag_attrs (fun v => GetElementAt e own id s v mem) tab))
          end
        | _ => text_node name (GetAt e own id mem)
        end
      else text_node name (GetAt e own id mem)
    end
  end.
(** the loop over the members, reflector_xml.cpp:175 *)
Fixpoint save_members2 (f : reflType -> nat -> option content) (ts : list reflType) (i : nat) : option content :=
  match ts with
  | [] => Some ([], [])
  | t :: r => match f t i with
              | None => None
              | Some x => option_map (app_content x) (save_members2 f r (S i))
              end
  end.
Fixpoint Save2Content (fuel : nat) (e : env) (reg : registry) (own : xinst) (mem : list Z) : option content :=
  match fuel with
  | O => None
  | S f => save_members2 (SaveMember2 (fun o => Save2Content f e reg o mem) e reg own mem) (xTypes (fst own)) 0
  end.
(** SaveV2(ri, node, asNewNode), reflector_xml.cpp:159-174: the node afterwards *)
Definition SaveV2 (fuel : nat) (e : env) (reg : registry) (own : xinst) (mem : list Z) (node : xml) (asNewNode : bool) : option xml :=
  match Save2Content fuel e reg own mem with
  | None => None
  | Some x =>
    Some (if asNewNode then Elem (xname node) (xattrs node) (xkids node ++ [Elem (NodeName (fst own)) (fst x) (snd x)])
          else Elem (xname node) (xattrs node ++ fst x) (xkids node ++ snd x))
  end.

(** ** LoadV2 *)
(** the lambda MakeNode, reflector_xml.cpp:290-304: hash and index; an index of -1 means none.  The digits
    of a hash are read from the whole name, the name to hash ends before the dash. *)
Definition read_name (name : list Z) : option (Z * option Z) :=
  match sv_find name [45] 0 with
  | None => None
  | Some r =>
    if r =? npos then Some (MakeHash name, None)
    else
      let index := u64 (atoll (skipn (Z.to_nat (r + 1)) name)) in
      let hash := match name with
                  | 104 :: 58 :: rest => u32 (strtoull rest 16)
                  | _ => jenkins 64 (firstn (Z.to_nat r) name)
                  end in
      Some (hash, if index =? npos then None else Some index)
  end.
(** one attribute, reflector_xml.cpp:314-321 *)
Definition LoadAttr (e : env) (own : xinst) (a : attr) (mem : list Z) : option (list Z) :=
  match read_name (fst a) with
  | None => None
  | Some (hash, None) => SetAt e own hash (snd a) mem
  | Some (hash, Some i) => SetSubByHash e own hash (snd a) i mem
  end.
(** DoVector, reflector_xml.cpp:345-371; the component is chosen by the first character *)
Definition axis (name : list Z) : Z :=
  match name with
  | 120 :: _ => 0 | 121 :: _ => 1 | 122 :: _ => 2 | 119 :: _ => 3
  | _ => 2 ^ 64 - 1
  end.
Definition DoVector (e : env) (own : xinst) (id : Z) (index : option Z) (attrs : list attr) (mem : list Z) : option (list Z) :=
  fold_mem (fun t mem =>
    match index with
    | None => SetSubAt e own id (snd t) (axis (fst t)) mem
    | Some i => SetElementAt e own id (snd t) i (axis (fst t)) mem
    end) attrs mem.
(** xml_attribute::as_bool: by the first character, one of 1tTyY *)
Definition as_bool (s : list Z) : bool :=
  match s with
  | c :: _ => (c =? 49) || (c =? 116) || (c =? 84) || (c =? 121) || (c =? 89)
  | [] => false
  end.
(** DoFlags, reflector_xml.cpp:373-394 *)
Fixpoint flag_text (attrs : list attr) : list Z :=
  match attrs with
  | [] => []
  | a :: r => (if as_bool (snd a) then fst a ++ [124] else []) ++ flag_text r
  end.
Definition flags_value (attrs : list attr) : list Z :=
  match flag_text attrs with [] => s_NULL | s => removelast s end.
Definition DoFlags (e : env) (own : xinst) (id : Z) (index : option Z) (attrs : list attr) (mem : list Z) : option (list Z) :=
  match index with
  | None => SetIdAt e own id (flags_value attrs) mem
  | Some i => SetSubAt e own id (flags_value attrs) i mem
  end.
(** one child, reflector_xml.cpp:323-424; [rec] loads an object from the child's attributes and children *)
Definition LoadKid2 (rec : xinst -> list attr -> list xml -> list Z -> option (list Z)) (e : env) (reg : registry) (own : xinst)
  (x : xml) (mem : list Z) : option (list Z) :=
  let info := xinfo (fst own) in
  match read_name (xname x) with
  | None => None
  | Some (hash, index) =>
    if via_hash info false (IsReflectedSubClass info) hash then
      match via_hash info None (fun id => XSub reg own id (match index with Some i => i | None => 0 end)) hash with
      | None => None
      | Some o => rec o (xattrs x) (xkids x) mem
      end
    else match xattrs x with
    | [] => SetAt e own hash (xtext x) mem
    | _ :: _ =>
      match GetReflectedType info hash with
      | None => None (* refType is null and is dereferenced *)
      | Some t =>
        match type t with
        | REnumFlags => DoFlags e own (ID t) index (xattrs x) mem
        | RVector => DoVector e own (ID t) index (xattrs x) mem
        | RArray =>
          match subType t with
          | RVector => DoVector e own (ID t) index (xattrs x) mem
          | REnumFlags => DoFlags e own (ID t) index (xattrs x) mem
          | _ => Some mem
          end
        | _ => Some mem
        end
      end
    end
  end.
(** LoadV2 of a node with these attributes and children, reflector_xml.cpp:314-426 *)
Fixpoint Load2Content (fuel : nat) (e : env) (reg : registry) (own : xinst) (attrs : list attr) (kids : list xml) (mem : list Z) : option (list Z) :=
  match fuel with
  | O => None
  | S f =>
    match fold_mem (LoadAttr e own) attrs mem with
    | None => None
    | Some m => fold_mem (LoadKid2 (Load2Content f e reg) e reg own) kids m
    end
  end.
(** LoadV2(ri, node, lookupClassNode), reflector_xml.cpp:267-312; an empty node has no content *)
Definition LoadV2 (fuel : nat) (e : env) (reg : registry) (own : xinst) (node : xml) (lookupClassNode : bool) (mem : list Z) : option (list Z) :=
  if lookupClassNode then
    match find (fun n => MakeHash (xname n) =? xClassHash (fst own)) (xkids node) with
    | None => Some mem
    | Some n => Load2Content fuel e reg own (xattrs n) (xkids n) mem
    end
  else Load2Content fuel e reg own (xattrs node) (xkids node) mem.
