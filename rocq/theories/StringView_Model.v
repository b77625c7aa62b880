(** Model of datas/internal/string_view.inl (basic_string_view<char>).
    A view is its list of character codes (0..255); positions and sizes are
    size_t values held in [Z].  [None] = a read outside the view. *)
From Verif Require Import Base.

Definition npos : Z := 2 ^ 64 - 1.
Definition size (s : list Z) : Z := Z.of_nat (length s).

(** operator[] (string_view.inl:110-115): an unchecked read. *)
Definition rd (s : list Z) (i : Z) : option Z :=
  if (0 <=? i) && (i <? size s) then nth_error s (Z.to_nat i) else None.

Inductive result (A : Type) := Ret (a : A) | Throw. (* Throw: std::out_of_range *)
Arguments Ret {A} _. Arguments Throw {A}.

(** string_view.inl:117-125, at.  The comma operator evaluates the check first
    and then returns m_str[pos]. *)
Definition sv_at (s : list Z) (pos : Z) : result (option Z) :=
  if pos <? size s then Ret (rd s pos) else Throw.

(** string_view.inl:222-231, substr *)
Definition sv_substr (s : list Z) (pos len : Z) : result (list Z) :=
  let max_length := if pos >? size s then 0 else size s - pos in
  if pos <? size s then
    Ret (firstn (Z.to_nat (if len >? max_length then max_length else len)) (skipn (Z.to_nat pos) s))
  else Throw.

(** string_view.inl:208-220, copy: the characters written to dest.
    [count + 1] is size_t arithmetic. *)
Definition sv_copy (s : list Z) (count pos : Z) : result (list Z) :=
  if pos >=? size s then Throw
  else let rcount := Z.min (size s - pos) (u64 (count + 1)) in
       Ret (firstn (Z.to_nat rcount) (skipn (Z.to_nat pos) s)).

(** std::char_traits<char>::compare over the first [n] characters (memcmp):
    the sign of the first difference of the unsigned codes. *)
Fixpoint traits_compare (a b : list Z) (n : nat) {struct n} : Z :=
  match n, a, b with
  | S k, x :: a', y :: b' => if x =? y then traits_compare a' b' k else if x <? y then -1 else 1
  | _, _, _ => 0
  end.

(** string_view.inl:234-243, compare *)
Definition sv_compare (a b : list Z) : Z :=
  let rlen := Nat.min (length a) (length b) in
  let compare := traits_compare a b rlen in
  if compare =? 0 then (if size a <? size b then -1 else if size a >? size b then 1 else 0) else compare.

(** string_view.inl:636-643, 678-685, 718-725, 756-763, 795-802, 835-842 *)
Definition sv_eq a b := sv_compare a b =? 0.
Definition sv_ne a b := negb (sv_compare a b =? 0).
Definition sv_lt a b := sv_compare a b <? 0.
Definition sv_gt a b := sv_compare a b >? 0.
Definition sv_le a b := sv_compare a b <=? 0.
Definition sv_ge a b := sv_compare a b >=? 0.

(** [for (i = from; i < to; ++i) if (test i) return i;  return npos;], with
    [k] iterations left. *)
Fixpoint scan_up (test : Z -> option bool) (k : nat) (i : Z) : option Z :=
  match k with
  | O => Some npos
  | S k' => match test i with
            | None => None
            | Some true => Some i
            | Some false => scan_up test k' (i + 1)
            end
  end.
(** [for (i = from; i != npos; --i) if (test i) return i;  return npos;]: from
    any [from < npos] it visits from, from-1, ..., 0. *)
Fixpoint scan_down (test : Z -> option bool) (k : nat) (i : Z) : option Z :=
  match k with
  | O => Some npos
  | S k' => match test i with
            | None => None
            | Some true => Some i
            | Some false => scan_down test k' (i - 1)
            end
  end.
Definition down_from (test : Z -> option bool) (i : Z) : option Z :=
  if i =? npos then Some npos else scan_down test (Z.to_nat (i + 1)) i.

(** [for (; j && v[j] == m_str[i + j]; j--);] returning the final j *)
Fixpoint back_match (s v : list Z) (i : Z) (j : nat) : option nat :=
  match j with
  | O => Some O
  | S j' => match rd v (Z.of_nat j), rd s (i + Z.of_nat j) with
            | Some a, Some b => if a =? b then back_match s v i j' else Some j
            | _, _ => None
            end
  end.

(** string_view.inl:293-317, find(view, pos) *)
Definition sv_find (s v : list Z) (pos : Z) : option Z :=
  if (size v =? 0) || (size v >? size s) then Some npos
  else
    let max_index := size s - size v in
    let test i :=
      let j := (length v - 1)%nat in
      match j with
      | O => match rd s i, rd v 0 with
             | Some a, Some b => Some (a =? b)
             | _, _ => None
             end
      | S _ => option_map (fun j' => Nat.eqb j' 0) (back_match s v i j)
      end in
    scan_up test (Z.to_nat (max_index - pos)) pos.

(** [for (j = 0; j < v.size(); ++j) if (v[j] != m_str[i-j]) break;] then [j == v.size()] *)
Fixpoint rev_match (s v : list Z) (i : Z) : option bool :=
  match v with
  | [] => Some true
  | c :: v' => match rd s i with
               | None => None
               | Some a => if c =? a then rev_match s v' (i - 1) else Some false
               end
  end.

(** string_view.inl:347-364, rfind(view, pos); max_index is size_t arithmetic *)
Definition sv_rfind (s v : list Z) (pos : Z) : option Z :=
  let max_index := u64 (size s - size v) in
  down_from (rev_match s v) (Z.min (u64 (max_index - 1)) pos).

(** the inner loop of find_first_of / find_last_of: does m_str[i] occur in v *)
Definition one_of (s v : list Z) (i : Z) : option bool :=
  match v with
  | [] => Some false
  | _ => match rd s i with None => None | Some a => Some (existsb (fun c => c =? a) v) end
  end.
(** string_view.inl:396-410 *)
Definition sv_find_first_of (s v : list Z) (pos : Z) : option Z :=
  scan_up (one_of s v) (Z.to_nat (size s - pos)) pos.
(** string_view.inl:441-456 *)
Definition sv_find_last_of (s v : list Z) (pos : Z) : option Z :=
  down_from (one_of s v) (Z.min (u64 (size s - 1)) pos).

(** the inner loop of the two not_of functions returns or breaks in its first
    round, so only v[0] is ever looked at *)
Definition not_first_of (s v : list Z) (i : Z) : option bool :=
  match v with
  | [] => Some false
  | c :: _ => match rd s i with None => None | Some a => Some (negb (c =? a)) end
  end.
(** string_view.inl:487-500 *)
Definition sv_find_first_not_of (s v : list Z) (pos : Z) : option Z :=
  scan_up (not_first_of s v) (Z.to_nat (size s - pos)) pos.
(** string_view.inl:533-546 *)
Definition sv_find_last_not_of (s v : list Z) (pos : Z) : option Z :=
  down_from (not_first_of s v) (Z.min (u64 (size s - 1)) pos).
