(** Models of datas/allocator_hybrid.hpp and datas/deleter_hybrid.hpp (with
    uni/common.hpp's Element = unique_ptr<C, deleter_hybrid>). *)
From Verif Require Import Base.

(** * allocator_hybrid *)
(** An address: the external buffer, or the n-th block obtained from operator new. *)
Inductive block := External | Heap (n : nat).

Record alloc_state := {
  linked : bool;              (* buffer != nullptr (it can only be External) *)
  fresh : nat;                (* next operator new result *)
  live : list block;          (* blocks handed out and not yet given back *)
  deleted : list block        (* arguments of operator delete, in order *)
}.

Inductive alloc_op := Allocate | Deallocate (b : block).

(** allocator_hybrid.hpp:62-67, allocate *)
Definition allocate (s : alloc_state) : alloc_state * block :=
  if negb (linked s) then
    ({| linked := false; fresh := S (fresh s); live := Heap (fresh s) :: live s; deleted := deleted s |},
     Heap (fresh s))
  else
    ({| linked := true; fresh := fresh s; live := External :: live s; deleted := deleted s |}, External).

Definition block_eqb (a b : block) : bool :=
  match a, b with
  | External, External => true
  | Heap m, Heap n => Nat.eqb m n
  | _, _ => false
  end.

Fixpoint remove_one (b : block) (l : list block) : list block :=
  match l with
  | [] => []
  | x :: r => if block_eqb x b then r else x :: remove_one b r
  end.

(** allocator_hybrid.hpp:69-76, deallocate *)
Definition deallocate (s : alloc_state) (ptr : block) : alloc_state :=
  let live' := remove_one ptr (live s) in
  if linked s && block_eqb External ptr then
    {| linked := false; fresh := fresh s; live := live'; deleted := deleted s |}
  else
    {| linked := linked s; fresh := fresh s; live := live'; deleted := deleted s ++ [ptr] |}.

(** A container history: [None] when the container gives back a block it does not hold. *)
Definition alloc_step (s : alloc_state) (o : alloc_op) : option alloc_state :=
  match o with
  | Allocate => Some (fst (allocate s))
  | Deallocate b => if existsb (fun x => block_eqb x b) (live s) then Some (deallocate s b) else None
  end.
Fixpoint alloc_run (s : alloc_state) (ops : list alloc_op) : option alloc_state :=
  match ops with
  | [] => Some s
  | o :: r => match alloc_step s o with None => None | Some s' => alloc_run s' r end
  end.

(** allocator_hybrid.hpp:51-53: a fresh allocator, or one linked to a buffer *)
Definition alloc_init (link : bool) : alloc_state :=
  {| linked := link; fresh := 0; live := []; deleted := [] |}.
(** allocator_hybrid.hpp:58-60: copying copies the buffer pointer (used when a
    container is copied; the copy starts with no blocks of its own) *)
Definition alloc_copy (s : alloc_state) : alloc_state :=
  {| linked := linked s; fresh := fresh s; live := []; deleted := deleted s |}.

(** * deleter_hybrid / Element *)
Inductive object := Mine (n : nat) | Theirs (n : nat).
(** an Element: the stored pointer and deleter_hybrid::canDelete *)
Record element := { ptr : option object; canDelete : bool }.

Record own_state := {
  slots : list element;
  next : nat;                   (* next object created by new *)
  destroyed : list object;      (* arguments of delete, in order *)
  given : list object           (* pointers handed back by release() *)
}.

Inductive own_op :=
| MakeOwning (i : nat)          (* e[i] = Element(new C): the moved-in temporary has canDelete = true *)
| MakeObserver (i : nat) (n : nat) (* e[i] = Element(&obj, false) *)
| MoveAssign (i j : nat)        (* e[i] = std::move(e[j]) *)
| SwapElems (i j : nat)         (* swap(e[i], e[j]) *)
| Reset (i : nat)               (* e[i].reset() *)
| Release (i : nat).            (* e[i].release() *)

Definition empty_elem : element := {| ptr := None; canDelete := true |}.
Definition get_elem (s : own_state) (i : nat) : element := nth i (slots s) empty_elem.
Fixpoint set_nth (i : nat) (e : element) (l : list element) : list element :=
  match l, i with
  | [], _ => []
  | _ :: r, O => e :: r
  | x :: r, S k => x :: set_nth k e r
  end.

(** deleter_hybrid.hpp:28-31: the deleter's call operator; unique_ptr calls it
    only for a non-null pointer *)
Definition call_deleter (e : element) (d : list object) : list object :=
  match ptr e with
  | None => d
  | Some o => if canDelete e then d ++ [o] else d
  end.

(** unique_ptr move assignment ([unique.ptr.single.asgn]): reset(u.release())
    — the old pointer is deleted with the old deleter — then the deleter is
    move-assigned (a copied bool). *)
Definition assign_from (s : own_state) (i : nat) (p : option object) (cd : bool) : own_state :=
  let old := get_elem s i in
  {| slots := set_nth i {| ptr := p; canDelete := cd |} (slots s);
     next := next s; destroyed := call_deleter old (destroyed s); given := given s |}.

Definition own_step (s : own_state) (o : own_op) : own_state :=
  match o with
  | MakeOwning i =>
      let s' := assign_from s i (Some (Mine (next s))) true in
      {| slots := slots s'; next := S (next s'); destroyed := destroyed s'; given := given s' |}
  | MakeObserver i n => assign_from s i (Some (Theirs n)) false
  | MoveAssign i j =>
      let src := get_elem s j in
      (* release the source first *)
      let s1 := {| slots := set_nth j {| ptr := None; canDelete := canDelete src |} (slots s);
                   next := next s; destroyed := destroyed s; given := given s |} in
      assign_from s1 i (ptr src) (canDelete src)
  | SwapElems i j =>
      let a := get_elem s i in let b := get_elem s j in
      {| slots := set_nth j a (set_nth i b (slots s)); next := next s; destroyed := destroyed s; given := given s |}
  | Reset i =>
      let old := get_elem s i in
      {| slots := set_nth i {| ptr := None; canDelete := canDelete old |} (slots s);
         next := next s; destroyed := call_deleter old (destroyed s); given := given s |}
  | Release i =>
      let old := get_elem s i in
      {| slots := set_nth i {| ptr := None; canDelete := canDelete old |} (slots s);
         next := next s; destroyed := destroyed s;
         given := match ptr old with None => given s | Some o => given s ++ [o] end |}
  end.
Definition own_run (n : nat) (ops : list own_op) : own_state :=
  fold_left own_step ops {| slots := repeat empty_elem n; next := 0; destroyed := []; given := [] |}.

(** every index names one of the [n] elements *)
Definition op_in_range (n : nat) (o : own_op) : Prop :=
  match o with
  | MakeOwning i | MakeObserver i _ | Reset i | Release i => (i < n)%nat
  | MoveAssign i j | SwapElems i j => (i < n)%nat /\ (j < n)%nat
  end.
