(** Model of es::basic_string_view<char> (datas/string_view.hpp, datas/internal/string_view.inl) as a
    pointer and a size into a memory: constructors, modifiers, iteration, the compare overloads, output.
    [mem] is the allocation the pointers point into; a pointer is an index into it. *)
From Verif Require Import Base StringView_Model.

Record view := mkView { m_str : Z; m_size : Z }.
(** basic_string_view(const std::basic_string&), string_view.inl:20-27: [p] and [n] are str.c_str() and str.size() *)
Definition view_string (p n : Z) : view := mkView p n.
(** std::char_traits<char>::length: characters before the first NUL; None = runs off the memory *)
Fixpoint strlen (l : list Z) : option Z :=
  match l with
  | [] => None
  | c :: r => if c =? 0 then Some 0 else option_map (fun n => n + 1) (strlen r)
  end.
(** basic_string_view(const char_type pointer), string_view.inl:29-36 *)
Definition view_cstr (mem : list Z) (p : Z) : option view :=
  option_map (fun n => mkView p n) (strlen (skipn (Z.to_nat p) mem)).
(** basic_string_view(const char_type pointer, size_type), string_view.inl:38-45 *)
Definition view_count (p count : Z) : view := mkView p count.
(** basic_string_view(pointer, pointer), string_view.inl:47-54: a difference converted to size_type *)
Definition view_range (start end_ : Z) : view := mkView start (u64 (end_ - start)).

(** remove_prefix, remove_suffix, resize: string_view.inl:146-160, 172-178; size_type arithmetic *)
Definition remove_prefix (n : Z) (v : view) : view := mkView (m_str v + n) (u64 (m_size v - n)).
Definition remove_suffix (n : Z) (v : view) : view := mkView (m_str v) (u64 (m_size v - n)).
Definition resize (n : Z) (v : view) : view := mkView (m_str v) n.
(** swap, string_view.inl:162-170 *)
Definition swap (a b : view) : view * view := (mkView (m_str b) (m_size b), mkView (m_str a) (m_size a)).

(** Reading m_str[i]; None = outside the memory *)
Definition load (mem : list Z) (p : Z) : option Z := if p <? 0 then None else nth_error mem (Z.to_nat p).
(** for (it = begin(); it != end(); ++it), string_view.inl:568-598 (to_string, string_view.inl:185-203, reads the same
    characters) *)
Fixpoint walk (mem : list Z) (p : Z) (n : nat) : option (list Z) :=
  match n with
  | O => Some []
  | S k => match load mem p with
           | None => None
           | Some c => option_map (cons c) (walk mem (p + 1) k)
           end
  end.
Definition to_string (mem : list Z) (v : view) : option (list Z) := walk mem (m_str v) (Z.to_nat (m_size v)).
(** operator[], at, front, back: string_view.inl:110-140 *)
Definition index (mem : list Z) (v : view) (i : Z) : option Z := load mem (m_str v + i).
Definition at_ (mem : list Z) (v : view) (i : Z) : result (option Z) :=
  if i <? m_size v then Ret (load mem (m_str v + i)) else Throw.
Definition front (mem : list Z) (v : view) : option Z := load mem (m_str v).
Definition back (mem : list Z) (v : view) : option Z := load mem (m_str v + u64 (m_size v - 1)).

(** substr, string_view.inl:222-231 *)
Definition substr (v : view) (pos len : Z) : result view :=
  let max_length := if pos >? m_size v then 0 else m_size v - pos in
  if pos <? m_size v then Ret (mkView (m_str v + pos) (if len >? max_length then max_length else len)) else Throw.

(** compare(v), string_view.inl:234-243: Traits::compare reads the first min(m_size, v.m_size) characters *)
Definition compare (mem : list Z) (a b : view) : option Z :=
  let rlen := Z.to_nat (Z.min (m_size a) (m_size b)) in
  match walk mem (m_str a) rlen, walk mem (m_str b) rlen with
  | Some x, Some y =>
    let c := traits_compare x y rlen in
    Some (if c =? 0 then (if m_size a <? m_size b then -1 else if m_size a >? m_size b then 1 else 0) else c)
  | _, _ => None
  end.
(** compare(pos, count, v), string_view.inl:245-252 *)
Definition compare3 (mem : list Z) (a : view) (pos count : Z) (v : view) : result (option Z) :=
  match substr a pos count with Throw => Throw | Ret s => Ret (compare mem s v) end.
(** compare(pos1, count1, v, pos2, count2), string_view.inl:254-263 (the argument v.substr is evaluated
    before or after the object substr; either may throw, and nothing else happens) *)
Definition compare5 (mem : list Z) (a : view) (pos1 count1 : Z) (v : view) (pos2 count2 : Z) : result (option Z) :=
  match substr a pos1 count1, substr v pos2 count2 with Ret s, Ret t => Ret (compare mem s t) | _, _ => Throw end.
(** compare(s), compare(pos, count, s), compare(pos, count1, s, count2), string_view.inl:265-290 *)
Definition compare_cstr (mem : list Z) (a : view) (p : Z) : option Z :=
  match view_cstr mem p with None => None | Some v => compare mem a v end.
Definition compare3_cstr (mem : list Z) (a : view) (pos count p : Z) : result (option Z) :=
  match substr a pos count with
  | Throw => Throw
  | Ret s => Ret (match view_cstr mem p with None => None | Some v => compare mem s v end)
  end.
Definition compare4_cstr (mem : list Z) (a : view) (pos count1 p count2 : Z) : result (option Z) :=
  match substr a pos count1 with Throw => Throw | Ret s => Ret (compare mem s (view_count p count2)) end.
