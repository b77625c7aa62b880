(** Lists of the uni module: uni/virtual_iterator.hpp, uni/list.hpp, uni/list_vector.hpp and the
    begin/end of uni/skeleton.hpp and uni/motion.hpp.
    [heap A] maps an address to the list object living there: [None] once it was destroyed.
    size_t is 64 bits.  Simplification: a list object is its storage vector; an element is copied or
    borrowed as a value of A. *)
From Verif Require Import Base.

(** what a call does: it gives a value, throws, or leaves defined behaviour *)
Inductive result (B : Type) := Value (b : B) | Throws | Undefined.
Arguments Value {_}. Arguments Throws {_}. Arguments Undefined {_}.
Definition bind {B C} (r : result B) (f : B -> result C) : result C :=
  match r with Value b => f b | Throws => Throws | Undefined => Undefined end.

Section Lists.
  Variable A : Type.
  Definition heap := nat -> option (list A).

  (** VectorList / PolyVectorList Size, At, operator[]: list_vector.hpp 33-34, 43, 57-58, 67
      (operator[] of list.hpp 37 is the same); a call on a destroyed list is undefined *)
  Definition Size (h : heap) (cls : nat) : result Z :=
    match h cls with Some l => Value (Z.of_nat (length l)) | None => Undefined end.
  Definition At (h : heap) (cls : nat) (id : Z) : result A :=
    match h cls with
    | Some l => match nth_error l (Z.to_nat id) with Some a => Value a | None => Throws end
    | None => Undefined
    end.

  (** virtual_iterator.hpp 26-28 *)
  Record iterator := Iter { tClass : nat; iterPos : Z }.
  Definition npos : Z := 0xffffffff.
  (** the constructor, 37-39 *)
  Definition VirtualIterator (h : heap) (cls : nat) (num : Z) : result iterator :=
    if num >=? npos then bind (Size h cls) (fun n => Value (Iter cls n)) else Value (Iter cls num).
  (** operator++ in both forms, 41-49: (the iterator afterwards, the value of the expression) *)
  Definition pre_inc (it : iterator) : iterator * iterator :=
    let it' := Iter (tClass it) (wrap 64 (iterPos it + 1)) in (it', it').
  Definition post_inc (it : iterator) : iterator * iterator := (fst (pre_inc it), it).
  (** operator==, operator!=: 50-55 *)
  Definition it_eq (a b : iterator) : bool := iterPos a =? iterPos b.
  Definition it_ne (a b : iterator) : bool := negb (iterPos a =? iterPos b).
  (** operator*: 56-58 *)
  Definition deref (h : heap) (it : iterator) : result A := At h (tClass it) (iterPos it).

  (** begin, end: list.hpp 34-35, list_vector.hpp 40-41, 64-65, VirtualIteratorProxy (virtual_iterator.hpp 71-72); end passes the default npos *)
  Definition begin_ (h : heap) (cls : nat) : result iterator := VirtualIterator h cls 0.
  Definition end_ (h : heap) (cls : nat) : result iterator := VirtualIterator h cls npos.

  (** for (auto e : range) body: end is evaluated once; the body may change the heap.  The result is
      the heap afterwards and the elements handed to the body in order; [None] when the fuel runs out. *)
  Fixpoint loop (fuel : nat) (body : A -> heap -> heap) (h : heap) (it last : iterator) : option (list A * result heap) :=
    match fuel with
    | O => None
    | S fuel =>
      if it_ne it last then
        match deref h it with
        | Value a =>
          match loop fuel body (body a h) (fst (pre_inc it)) last with
          | Some (seen, r) => Some (a :: seen, r)
          | None => None
          end
        | Throws => Some ([], Throws)
        | Undefined => Some ([], Undefined)
        end
      else Some ([], Value h)
    end.
  Definition range_for (fuel : nat) (body : A -> heap -> heap) (h : heap) (first last : result iterator) : option (list A * result heap) :=
    match first, last with
    | Value b, Value e => loop fuel body h b e
    | Throws, _ | _, Throws => Some ([], Throws)
    | _, _ => Some ([], Undefined)
    end.

  (** uni::Element: a pointer that owns its object or does not (datas/deleter_hybrid.hpp; C14) *)
  Record element := Elem { ptr : nat; owns : bool }.
  Definition destroy (h : heap) (e : element) : heap :=
    if owns e then fun a => if Nat.eqb a (ptr e) then None else h a else h.
  (** Skeleton::begin/end and Motion::begin/end (skeleton.hpp 50-51, motion.hpp 63-64): Bones() and
      Tracks() return an element by value; the temporary dies at the end of the return statement *)
  Definition owner_iter (get : heap -> heap * element) (make : heap -> nat -> result iterator) (h : heap) : heap * result iterator :=
    let (h1, e) := get h in
    let it := make h1 (ptr e) in
    (destroy h1 e, it).
  (** for (auto bone : skeleton) body *)
  Definition owner_for (fuel : nat) (get : heap -> heap * element) (body : A -> heap -> heap) (h : heap) : option (list A * result heap) :=
    let (h1, first) := owner_iter get begin_ h in
    let (h2, last) := owner_iter get end_ h1 in
    range_for fuel body h2 first last.
End Lists.
Arguments Size {A}. Arguments At {A}. Arguments VirtualIterator {A}. Arguments deref {A}. Arguments begin_ {A}. Arguments end_ {A}.
Arguments loop {A}. Arguments range_for {A}. Arguments destroy {A}. Arguments owner_iter {A}. Arguments owner_for {A}.
