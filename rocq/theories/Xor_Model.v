(** Model of datas/encrypt/xorenc.hpp. Buffers and keys are byte lists. *)
From Verif Require Import Base.

(** xorenc.hpp:26-29, XOREncoder::Encode. [buffer[ii] ^= key[ii % key.size()]] for
    every index; [i] is the running index. A modulo by the size of an empty key is a
    division by zero, modelled as [None].
    Simplification: char is taken as its unsigned byte pattern (xor does not care). *)
Fixpoint xor_loop (key buffer : list Z) (i : nat) : option (list Z) :=
  match buffer with
  | [] => Some []
  | b :: r =>
      match length key with
      | O => None
      | n => match xor_loop key r (S i) with
             | Some r' => Some (Z.lxor b (nth (i mod n) key 0) :: r')
             | None => None
             end
      end
  end.

Definition xor_encode (key buffer : list Z) : option (list Z) := xor_loop key buffer 0.

(** xorenc.hpp:31, XOREncoder::Decode *)
Definition xor_decode (key buffer : list Z) : option (list Z) := xor_encode key buffer.
