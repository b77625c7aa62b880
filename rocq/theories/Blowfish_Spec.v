(** What Blowfish and its block-cipher modes are, stated as in the literature and
    without reference to the implementation. *)
From Verif Require Import Base.

(** Schneier 1993: xL := xL xor P_i; xR := F(xL) xor xR; swap; sixteen times; undo the
    last swap; xR := xR xor P_17; xL := xL xor P_18. (0-based below.) *)
Fixpoint feistel (F : Z -> Z) (P : nat -> Z) (rounds i : nat) (xL xR : Z) {struct rounds} : Z * Z :=
  match rounds with
  | O => (xL, xR)
  | S r => let xL := Z.lxor xL (P i) in
           let xR := Z.lxor (F xL) xR in
           feistel F P r (S i) xR xL
  end.
Definition blowfish_block (F : Z -> Z) (P : nat -> Z) (xL xR : Z) : Z * Z :=
  let '(a, b) := feistel F P 16 0 xL xR in
  let '(xL, xR) := (b, a) in
  (Z.lxor xL (P 17%nat), Z.lxor xR (P 16%nat)).

(** F(a,b,c,d) = ((S1[a] + S2[b] mod 2^32) xor S3[c]) + S4[d] mod 2^32, where a is the
    most significant byte of the word. *)
Definition blowfish_F (S : list Z) (a b c d : Z) : Z :=
  let s k x := nth (Z.to_nat (256 * k + x)) S 0 in
  (Z.lxor ((s 0 a + s 1 b) mod 2 ^ 32) (s 2 c) + s 3 d) mod 2 ^ 32.

(** Mode equations between plaintext blocks [P] and ciphertext blocks [C] of equal number. *)
Definition prev (iv : Z) (l : list Z) (i : nat) : Z := nth i (iv :: l) 0.
Definition ecb_eqn (E : Z -> Z) (iv : Z) (P C : list Z) (i : nat) : Prop :=
  nth i C 0 = E (nth i P 0).
Definition cbc_eqn (E : Z -> Z) (iv : Z) (P C : list Z) (i : nat) : Prop :=
  nth i C 0 = E (Z.lxor (nth i P 0) (prev iv C i)).
(** PCBC: C_i = E(P_i xor P_{i-1} xor C_{i-1}), with P_{-1} xor C_{-1} = iv *)
Definition pcbc_eqn (E : Z -> Z) (iv : Z) (P C : list Z) (i : nat) : Prop :=
  nth i C 0 = E (Z.lxor (nth i P 0) (Z.lxor (prev 0 P i) (prev iv C i))).
Definition cfb_eqn (E : Z -> Z) (iv : Z) (P C : list Z) (i : nat) : Prop :=
  nth i C 0 = Z.lxor (nth i P 0) (E (prev iv C i)).
Definition ofb_eqn (E : Z -> Z) (iv : Z) (P C : list Z) (i : nat) : Prop :=
  nth i C 0 = Z.lxor (nth i P 0) (Nat.iter (S i) E iv).

(** The first [n] eight-byte little-endian words of a byte sequence. *)
Fixpoint blocks (n : nat) (buf : list Z) : list Z :=
  match n with
  | O => []
  | S m => le_value (firstn 8 buf) :: blocks m (skipn 8 buf)
  end.
