(** Model of datas/encrypt/blowfish.cpp, blowfish.h and blowfish2.h.

    Blocks are 64-bit words, boxes are lists of 32-bit words, buffers byte lists.
    [v2 = false] is BlowfishEncoder, [v2 = true] is BlowfishEncoder2.
    The host is little endian (datas/endian.hpp refuses to compile elsewhere), so the
    first uint32 of a block in memory is its low half. *)
From Verif Require Import Base Blowfish_Tables.

(** blowfish.cpp:208-211, union BFDataChunk: byte [i] of a word in memory order. *)
Definition chunk_byte (x : Z) (i : Z) : Z := x / 2 ^ (8 * i) mod 256.

(** blowfish.cpp:22, [_BF_SBKEY(_item, _id)] = sboxes[_id * 256 + _item.b[3 - _id]];
    redefined at :495 with _item.b[_id] for BlowfishEncoder2. *)
Definition bf_sbkey (v2 : bool) (S : list Z) (x : Z) (id : Z) : Z :=
  nth (Z.to_nat (id * 256 + chunk_byte x (if v2 then id else 3 - id))) S 0.

(** blowfish.cpp:23-25, BF_SBKEY: uint32 arithmetic *)
Definition bf_f (v2 : bool) (S : list Z) (x : Z) : Z :=
  u32 (Z.lxor (u32 (bf_sbkey v2 S x 0 + bf_sbkey v2 S x 1)) (bf_sbkey v2 S x 2)
       + bf_sbkey v2 S x 3).

(** blowfish.cpp:26, [BF_XOR(_item, _item2, _pid)]: the new value of _item *)
Definition bf_xor (v2 : bool) (P S : list Z) (item item2 : Z) (pid : nat) : Z :=
  Z.lxor item (Z.lxor (bf_f v2 S item2) (nth pid P 0)).

(** The sixteen BF_XOR lines of EncodeBlock (blowfish.cpp:219-234) and DecodeBlock
    (:247-262): each line updates the word the previous one did not, the first updates
    _val1. [tgt] is the word updated next, [oth] the other one. *)
Fixpoint bf_rounds (v2 : bool) (P S : list Z) (pids : list nat) (tgt oth : Z) : Z * Z :=
  match pids with
  | [] => (tgt, oth)
  | pid :: r => bf_rounds v2 P S r oth (bf_xor v2 P S tgt oth pid)
  end.

Definition low32 (b : Z) : Z := b mod 2 ^ 32.
Definition high32 (b : Z) : Z := b / 2 ^ 32.

(** blowfish.cpp:213-239, EncodeBlock (and :497-523, the same text for variant 2).
    After an even number of lines [tgt] is _val1 again. *)
Definition encode_block (v2 : bool) (P S : list Z) (block : Z) : Z :=
  let val0 := Z.lxor (low32 block) (nth 0 P 0) in
  let '(val1', val0') :=
    bf_rounds v2 P S [1;2;3;4;5;6;7;8;9;10;11;12;13;14;15;16]%nat (high32 block) val0 in
  let val1'' := Z.lxor val1' (nth 17 P 0) in
  val1'' + 2 ^ 32 * val0'.

(** blowfish.cpp:241-267, DecodeBlock (and :525-551 for variant 2) *)
Definition decode_block (v2 : bool) (P S : list Z) (block : Z) : Z :=
  let val0 := Z.lxor (low32 block) (nth 17 P 0) in
  let '(val1', val0') :=
    bf_rounds v2 P S [16;15;14;13;12;11;10;9;8;7;6;5;4;3;2;1]%nat (high32 block) val0 in
  let val1'' := Z.lxor val1' (nth 0 P 0) in
  val1'' + 2 ^ 32 * val0'.

(** The mode loops. Each is a fold over blocks carrying currentVector; a step returns the
    new block and the new vector. [E] and [D] stand for the virtual EncodeBlock and
    DecodeBlock. *)

(** blowfish.cpp:319-323 *)
Definition ecb_enc (E : Z -> Z) (cur b : Z) : Z * Z := (E b, cur).
(** blowfish.cpp:330-334 *)
Definition ecb_dec (D : Z -> Z) (cur b : Z) : Z * Z := (D b, cur).
(** blowfish.cpp:342-348 *)
Definition cbc_enc (E : Z -> Z) (cur b : Z) : Z * Z :=
  let b' := E (Z.lxor b cur) in (b', b').
(** blowfish.cpp:357-364 *)
Definition cbc_dec (D : Z -> Z) (cur b : Z) : Z * Z :=
  let last := b in (Z.lxor (D b) cur, last).
(** blowfish.cpp:373-380 *)
Definition pcbc_enc (E : Z -> Z) (cur b : Z) : Z * Z :=
  let last := b in let b' := E (Z.lxor b cur) in (b', Z.lxor b' last).
(** blowfish.cpp:389-396 *)
Definition pcbc_dec (D : Z -> Z) (cur b : Z) : Z * Z :=
  let last := b in let b' := Z.lxor (D b) cur in (b', Z.lxor b' last).
(** blowfish.cpp:404-410 *)
Definition cfb_enc (E : Z -> Z) (cur b : Z) : Z * Z :=
  let cur' := E cur in let b' := Z.lxor b cur' in (b', b').
(** blowfish.cpp:419-426 *)
Definition cfb_dec (E : Z -> Z) (cur b : Z) : Z * Z :=
  let cur' := E cur in let last := b in (Z.lxor b cur', last).
(** blowfish.cpp:435-442 *)
Definition ofb_enc (E : Z -> Z) (cur b : Z) : Z * Z :=
  let cur' := E cur in let last := cur' in (Z.lxor b cur', last).
(** blowfish.cpp:450-455 *)
Definition ofb_dec (E : Z -> Z) (cur b : Z) : Z * Z :=
  let cur' := E cur in (Z.lxor b cur', cur').

(** blowfish.h:31-38 *)
Inductive bf_mode := ECB | CBC | PCBC | CFB | OFB.

(** blowfish.cpp:275-293, the switch of Encode *)
Definition enc_step (m : bf_mode) (E D : Z -> Z) : Z -> Z -> Z * Z :=
  match m with
  | ECB => ecb_enc E | CBC => cbc_enc E | PCBC => pcbc_enc E
  | CFB => cfb_enc E | OFB => ofb_enc E
  end.
(** blowfish.cpp:295-313, the switch of Decode *)
Definition dec_step (m : bf_mode) (E D : Z -> Z) : Z -> Z -> Z * Z :=
  match m with
  | ECB => ecb_dec D | CBC => cbc_dec D | PCBC => pcbc_dec D
  | CFB => cfb_dec E | OFB => ofb_dec E
  end.

(** The common loop [for (int b = 0; b < numblocks; b++)]: block [b] is the eight bytes
    at [buffer + 8*b], read and written in place. Works on the byte list from the
    current position. *)
Fixpoint bf_loop (step : Z -> Z -> Z * Z) (numblocks : nat) (cur : Z) (buf : list Z)
  {struct numblocks} : list Z :=
  match numblocks with
  | O => buf
  | S n =>
      let block := le_value (firstn 8 buf) in
      let '(block', cur') := step cur block in
      le_bytes 8 block' ++ bf_loop step n cur' (skipn 8 buf)
  end.

(** [numblocks = static_cast<int>(size / 8)] in every mode function (blowfish.cpp:316,
    327, 338, 352, 368, 384, 400, 413, 430, 446). The int is the size reduced to 32 bits, two's
    complement; [8 * b] is an int product, which overflows (undefined) as soon as the
    loop reaches [b = 2^28]: modelled as [None]. *)
Definition bf_buffer (step : Z -> Z -> Z * Z) (vector : Z) (buf : list Z) : option (list Z) :=
  let numblocks := sgn 32 (Z.of_nat (length buf) / 8) in
  if 2 ^ 28 <? numblocks then None
  else Some (bf_loop step (Z.to_nat numblocks) vector buf).

(** blowfish.h:40-44, the members Encode and Decode use; [enabled] is never read by
    them and is left out. *)
Record encoder := { e_v2 : bool; e_P : list Z; e_S : list Z; e_vec : Z; e_mode : bf_mode }.

(** blowfish.cpp:275-293 *)
Definition bf_encode (e : encoder) (buf : list Z) : option (list Z) :=
  bf_buffer (enc_step (e_mode e) (encode_block (e_v2 e) (e_P e) (e_S e))
                      (decode_block (e_v2 e) (e_P e) (e_S e))) (e_vec e) buf.
(** blowfish.cpp:295-313 *)
Definition bf_decode (e : encoder) (buf : list Z) : option (list Z) :=
  bf_buffer (dec_step (e_mode e) (encode_block (e_v2 e) (e_P e) (e_S e))
                      (decode_block (e_v2 e) (e_P e) (e_S e))) (e_vec e) buf.

(** blowfish.h:62-63, Mode(m) and Vector(v) *)
Definition set_mode (e : encoder) (m : bf_mode) : encoder :=
  {| e_v2 := e_v2 e; e_P := e_P e; e_S := e_S e; e_vec := e_vec e; e_mode := m |}.
Definition set_vector (e : encoder) (v : Z) : encoder :=
  {| e_v2 := e_v2 e; e_P := e_P e; e_S := e_S e; e_vec := v; e_mode := e_mode e |}.

(** Key byte [i % size] as a (signed) char promoted to int, shifted left by [sh], in
    32-bit two's complement. Shifting a negative int is formally undefined before C++20;
    the model gives it its universal meaning. *)
Definition key_term (key : list Z) (i : nat) (sh : Z) : Z :=
  u32 (sgn 8 (nth (i mod length key) key 0) * 2 ^ sh).

(** blowfish.cpp:468-474 (variant 1, first key byte on top) and :560-566 (variant 2) *)
Definition key_entry (v2 : bool) (key : list Z) (i : nat) : Z :=
  let c := (i * 4)%nat in
  if v2 then
    Z.lor (key_term key c 0) (Z.lor (key_term key (c + 1) 8)
      (Z.lor (key_term key (c + 2) 16) (key_term key (c + 3) 24)))
  else
    Z.lor (key_term key (c + 3) 0) (Z.lor (key_term key (c + 2) 8)
      (Z.lor (key_term key (c + 1) 16) (key_term key c 24))).

Fixpoint set_nth (l : list Z) (i : nat) (x : Z) : list Z :=
  match l, i with
  | [], _ => []
  | _ :: r, O => x :: r
  | y :: r, S i' => y :: set_nth r i' x
  end.

(** blowfish.cpp:479-483: P is rewritten while it is in use *)
Fixpoint fill_p (EncodeBlock : list Z -> list Z -> Z -> Z) (n : nat) (i : nat) (P S : list Z) (last : Z) {struct n}
  : list Z * Z :=
  match n with
  | O => (P, last)
  | Datatypes.S n' =>
      let last' := EncodeBlock P S last in
      fill_p EncodeBlock n' (i + 2) (set_nth (set_nth P i (low32 last')) (i + 1) (high32 last')) S last'
  end.
(** blowfish.cpp:485-489 *)
Fixpoint fill_s (EncodeBlock : list Z -> list Z -> Z -> Z) (n : nat) (i : nat) (P S : list Z) (last : Z) {struct n}
  : list Z * Z :=
  match n with
  | O => (S, last)
  | Datatypes.S n' =>
      let last' := EncodeBlock P S last in
      fill_s EncodeBlock n' (i + 2) P (set_nth (set_nth S i (low32 last')) (i + 1) (high32 last')) last'
  end.

(** blowfish.cpp:458-490 and :553-582, SetKey. [fresh] is what CreateVector (:269-273)
    yields: its engine is default-seeded, so it is one constant of the standard library.
    An empty key is a modulo by zero, [None]. *)
Definition set_key (fresh : Z) (e : encoder) (key : list Z) : option encoder :=
  match key with
  | [] => None
  | _ =>
      let vec := match e_mode e with ECB => e_vec e | _ => fresh end in
      let P0 := map (fun i => Z.lxor (nth i BF_PBOXES 0) (key_entry (e_v2 e) key i)) (seq 0 18) in
      let '(P, last) := fill_p (encode_block (e_v2 e)) 9 0 P0 BF_SBOXES 0 in
      let '(Sb, _) := fill_s (encode_block (e_v2 e)) 512 0 P BF_SBOXES last in
      Some {| e_v2 := e_v2 e; e_P := P; e_S := Sb; e_vec := vec; e_mode := e_mode e |}
  end.

(** blowfish.cpp:458-490 on an object of either class: BlowfishEncoder2 declares SetKey(const char *, int)
    (blowfish2.h:25), which does not override SetKey(string_view) of blowfish.h:47, so a call through
    IEncryptor or BlowfishEncoder runs the latter, with the EncodeBlock of the object's class. *)
Definition set_key_virtual (fresh : Z) (e : encoder) (key : list Z) : option encoder :=
  match key with
  | [] => None
  | _ =>
      let vec := match e_mode e with ECB => e_vec e | _ => fresh end in
      let P0 := map (fun i => Z.lxor (nth i BF_PBOXES 0) (key_entry false key i)) (seq 0 18) in
      let '(P, last) := fill_p (encode_block (e_v2 e)) 9 0 P0 BF_SBOXES 0 in
      let '(Sb, _) := fill_s (encode_block (e_v2 e)) 512 0 P BF_SBOXES last in
      Some {| e_v2 := e_v2 e; e_P := P; e_S := Sb; e_vec := vec; e_mode := e_mode e |}
  end.
