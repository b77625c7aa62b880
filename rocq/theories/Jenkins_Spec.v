(** The published hash functions, independent of the implementation. *)
From Verif Require Import Base.

(** Bob Jenkins' one-at-a-time hash: all arithmetic modulo 2^32. *)
Definition m32 (x : Z) : Z := x mod 2 ^ 32.
Definition oaat_char (h c : Z) : Z :=
  let h := m32 (h + c) in
  let h := m32 (h + m32 (Z.shiftl h 10)) in
  Z.lxor h (Z.shiftr h 6).
Definition oaat (s : list Z) : Z :=
  let h := fold_left oaat_char s 0 in
  let h := m32 (h + m32 (Z.shiftl h 3)) in
  let h := Z.lxor h (Z.shiftr h 11) in
  m32 (h + m32 (Z.shiftl h 15)).

(** lookup3.c, hashword(): rot, mix and final are the published macros, written here as
    functions on (a, b, c). *)
Definition rot (x k : Z) : Z := Z.lor (m32 (Z.shiftl x k)) (Z.shiftr x (32 - k)).
Definition mix_ (x y z k : Z) : Z * Z := (Z.lxor (m32 (x - z)) (rot z k), m32 (z + y)).
Definition final_ (x y k : Z) : Z := m32 (Z.lxor x y - rot y k).
Definition mix (s : Z * Z * Z) : Z * Z * Z :=
  let '(a, b, c) := s in
  let '(a, c) := mix_ a b c 4 in let '(b, a) := mix_ b c a 6 in let '(c, b) := mix_ c a b 8 in
  let '(a, c) := mix_ a b c 16 in let '(b, a) := mix_ b c a 19 in let '(c, b) := mix_ c a b 4 in
  (a, b, c).
Definition final (s : Z * Z * Z) : Z * Z * Z :=
  let '(a, b, c) := s in
  let c := final_ c b 14 in let a := final_ a c 11 in let b := final_ b a 25 in
  let c := final_ c b 16 in let a := final_ a c 4 in let b := final_ b a 14 in let c := final_ c b 24 in
  (a, b, c).
Definition plus3 (s k : Z * Z * Z) : Z * Z * Z :=
  let '(a, b, c) := s in let '(x, y, z) := k in (m32 (a + x), m32 (b + y), m32 (c + z)).

(** hashword's while (length > 3) and its closing switch, on the list of words *)
Fixpoint hashword_loop (fuel : nat) (k : list Z) (s : Z * Z * Z) : Z * Z * Z :=
  match fuel, k with
  | _, [] => s
  | _, [x] => final (plus3 s (x, 0, 0))
  | _, [x; y] => final (plus3 s (x, y, 0))
  | _, [x; y; z] => final (plus3 s (x, y, z))
  | S fuel', x :: y :: z :: r => hashword_loop fuel' r (mix (plus3 s (x, y, z)))
  | O, _ => s
  end.
Definition hashword (k : list Z) (initval : Z) : Z :=
  let s := m32 (0xdeadbeef + m32 (Z.shiftl (m32 (Z.of_nat (length k))) 2) + initval) in
  let '(_, _, c) := hashword_loop (length k) k (s, s, s) in c.

(** Bytes as little-endian words, the last one padded with zero bytes. *)
Fixpoint words4 (fuel : nat) (s : list Z) : list Z :=
  match fuel, s with
  | S f, _ :: _ => le_value (firstn 4 s) :: words4 f (skipn 4 s)
  | _, _ => []
  end.
Definition string_words (s : list Z) : list Z := words4 (length s) s.
