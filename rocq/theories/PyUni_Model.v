(** Model of the Python bindings: uni/python/pylist.hpp, pyenum.hpp, pyskeleton.inl, pymotion.inl,
    datas/python/reflected_enum.hpp, and as much of CPython 2.7 (the bindings use PyInt, PyString and
    tp_compare) as a for statement needs. *)
From Verif Require Import Base StringView_Model.

(** A list object: the elements behind cList ([None] after Dealloc has moved them away), iterPos, and the
    reference count.  pylist.hpp:24-33 *)
Record plist (A : Type) := mkPlist { cList : option (list A); iterPos : nat; refs : Z }.
Arguments mkPlist {A}. Arguments cList {A}. Arguments iterPos {A}. Arguments refs {A}.

(** What a call into the binding does.  [Crash]: a null dereference; [Terminates]: a C++ exception
    (std::out_of_range of the container) passes through the interpreter. *)
Inductive ret (A : Type) := Value (n : Z) | Object (a : A) | Self | Stop | Crash | Terminates.
Arguments Value {A}. Arguments Object {A}. Arguments Self {A}. Arguments Stop {A}. Arguments Crash {A}. Arguments Terminates {A}.

(** The calls of the protocol *)
Inductive call := Len | Get (index : Z) | Iter | Next.

(** Len, pylist.hpp:89; SubscriptRaw, pylist.hpp:96-101 with uni::VectorList's At, uni/list_vector.hpp:34,58 (std::vector::at);
    the index is the Py_ssize_t converted to size_t, pylist.hpp:91-94. *)
Definition SubscriptRaw {A} (index : Z) (l : list A) : ret A :=
  if u64 index <? Z.of_nat (length l) then
    match nth_error l (Z.to_nat (u64 index)) with Some a => Object a | None => Crash end
  else Terminates.
Definition do_call {A} (c : call) (p : plist A) : ret A * plist A :=
  match c with
  | Iter => (Self, mkPlist (cList p) 0 (refs p))  (* pylist.hpp:103-106: no Py_INCREF *)
  | _ =>
    match cList p with
    | None => (Crash, p)
    | Some l =>
      match c with
      | Len => (Value (Z.of_nat (length l)), p)
      | Get i => (SubscriptRaw i l, p)
      | _ => (* IterNext, pylist.hpp:108-115 *)
        if (iterPos p <? length l)%nat
        then (SubscriptRaw (Z.of_nat (iterPos p)) l, mkPlist (cList p) (S (iterPos p)) (refs p))
        else (Stop, p)
      end
    end
  end.

(** Py_INCREF, Py_DECREF with Dealloc (pylist.hpp:87) when the count reaches zero *)
Definition incref {A} (p : plist A) : plist A := mkPlist (cList p) (iterPos p) (refs p + 1).
Definition decref {A} (p : plist A) : plist A :=
  mkPlist (if refs p - 1 =? 0 then None else cList p) (iterPos p) (refs p - 1).

(** A for statement of CPython 2.7.  The value of the expression is on the stack with a counted reference.
    GET_ITER: call tp_iter, drop the expression's reference, put the result in its place.  FOR_ITER: call
    tp_iternext until it stops, running the body after each; then drop the iterator's reference.
    [body] may itself use the list.  The steps are bounded by [fuel] (None = the loop did not end). *)
Inductive loop_end := Done | Crashed.
Fixpoint loop {A B} (fuel : nat) (body : A -> plist A -> B * plist A) (p : plist A) : option (list B * loop_end * plist A) :=
  match fuel with
  | O => None
  | S f =>
    match do_call Next p with
    | (Object a, p1) => let (b, p2) := body a p1 in
                        option_map (fun r => (b :: fst (fst r), snd (fst r), snd r)) (loop f body p2)
    | (Stop, p1) => Some ([], Done, decref p1)
    | (_, p1) => Some ([], Crashed, p1)
    end
  end.
Definition for_stmt {A B} (fuel : nat) (body : A -> plist A -> B * plist A) (on_stack : plist A) :=
  let (_, p1) := do_call Iter on_stack in loop fuel body (decref p1).
(** for x in variable: the variable keeps its reference, loading it adds one *)
Definition for_variable {A B} (fuel : nat) (body : A -> plist A -> B * plist A) (p : plist A) := for_stmt fuel body (incref p).
(** for x in expression: the new object's only reference is the one on the stack *)
Definition for_temporary {A B} (fuel : nat) (body : A -> plist A -> B * plist A) (l : list A) := for_stmt fuel body (mkPlist (Some l) 0 1).

(** Results that the interpreter owns afterwards and drops in the end.  [Borrowed]: an object whose count was
    not raised before it was returned. *)
Inductive handed := New | BorrowedNone.
Definition none_count (h : handed) (n : Z) : Z := match h with New => n | BorrowedNone => n - 1 end.
(** Bone::GetParent, pyskeleton.inl:158-168 *)
Definition GetParent (parent : option nat) : handed := match parent with Some _ => New | None => BorrowedNone end.

(** Enum<Info>: the table, pyenum.hpp.  A name is its characters. *)
Definition table := list (Z * list Z).
Inductive eret := Name (s : list Z) | Id (n : Z) | IndexError | NullNoError | Outside.
(** SubscriptRaw, pyenum.hpp:85-94 *)
Definition EnumSubscript (t : table) (index : Z) : eret :=
  if u64 index >=? Z.of_nat (length t) then IndexError
  else match nth_error t (Z.to_nat (u64 index)) with Some e => Name (snd e) | None => Outside end.
(** GetAttribute, pyenum.hpp:96-108 *)
Definition EnumGetAttribute (t : table) (name : list Z) : eret :=
  match find (fun e => sv_eq (snd e) name) t with
  | None => NullNoError
  | Some e => Id (u64 (fst e))
  end.
(** ReflectedEnumPy, datas/python/reflected_enum.hpp:87-105: operator[] without a check *)
Definition ReflSubscript (names : list (list Z)) (index : Z) : eret :=
  if u64 index <? Z.of_nat (length names) then match nth_error names (Z.to_nat (u64 index)) with Some s => Name s | None => Outside end
  else Outside.
Fixpoint find_index (names : list (list Z)) (name : list Z) (k : nat) : nat :=
  match names with
  | [] => k
  | s :: r => if sv_eq s name then k else find_index r name (S k)
  end.
Definition ReflGetAttribute (names : list (list Z)) (values : list Z) (name : list Z) : eret :=
  let k := find_index names name 0 in
  if (k =? length names)%nat then NullNoError else match nth_error values k with Some v => Id v | None => Outside end.

(** The tables: pymotion.inl:28-38, 56-64, pyskeleton.inl:26-32; identifiers uni/motion.hpp:32-39, 55, uni/common.hpp:29.
    Characters as ASCII codes. *)
From Coq Require Import Strings.Ascii Strings.String.
Definition text (s : string) : list Z := map (fun c => Z.of_nat (nat_of_ascii c)) (list_ascii_of_string s).
Definition trackTypes : table :=
  [(0, text "Position"); (1, text "Rotation"); (2, text "Scale"); (3, text "Matrix"); (4, text "PositionRotationScale");
   (5, text "SingleFloat")].
Definition motionTypes : table := [(0, text "Absolute"); (1, text "Relative"); (2, text "Additive"); (3, text "Delta")].
Definition boneTMTypes : table := [(0, text "TMTYPE_RTS"); (1, text "TMTYPE_MATRIX")].

(** Bone::Compare, pyskeleton.inl:170-176.  A bone: address, Index(), Name() *)
Definition bone := (nat * Z * list Z)%type.
Definition BoneCompare (a b : bone) : Z :=
  let '(pa, ia, na) := a in let '(pb, ib, nb) := b in
  if Nat.eqb pa pb || ((ia =? ib) && sv_eq na nb) then 0 else 1.
