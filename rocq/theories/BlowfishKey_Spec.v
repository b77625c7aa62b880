(** The key schedule of Blowfish, as published (Schneier 1993), without reference to the
    implementation: the 18 + 1024 subkeys are numbered 0..1041. *)
From Verif Require Import Base Blowfish_Spec.

(** Word [i] of the key repeated for ever: four bytes, most significant first
    ([backwards]: least significant first, the byte order of the second variant). *)
Definition key_word (backwards : bool) (key : list Z) (i : nat) : Z :=
  let k j := nth ((4 * i + j) mod length key) key 0 in
  if backwards then k 0%nat + k 1%nat * 2 ^ 8 + k 2%nat * 2 ^ 16 + k 3%nat * 2 ^ 24
  else k 0%nat * 2 ^ 24 + k 1%nat * 2 ^ 16 + k 2%nat * 2 ^ 8 + k 3%nat.

(** The cipher with given subkeys. *)
Definition blowfish_with (backwards : bool) (sub : nat -> Z) (xL xR : Z) : Z * Z :=
  let boxes := map (fun i => sub (18 + i)%nat) (seq 0 1024) in
  let byte (x k : Z) := x / 2 ^ (8 * k) mod 256 in
  let F (x : Z) := if backwards then blowfish_F boxes (byte x 0) (byte x 1) (byte x 2) (byte x 3)
                   else blowfish_F boxes (byte x 3) (byte x 2) (byte x 1) (byte x 0) in
  blowfish_block F sub xL xR.

(** The subkeys after [k] steps when step [j] replaced subkeys 2j and 2j+1 by the two halves of
    the ciphertext [c (j+1)]: the first 2k are ciphertexts, the others still the initial ones. *)
Definition subkey (init : nat -> Z) (c : nat -> Z * Z) (k j : nat) : Z :=
  if (j <? 2 * k)%nat then (if Nat.even j then fst (c (S (j / 2))) else snd (c (S (j / 2)))) else init j.

(** The published schedule: start from the zero block, 521 times encrypt the previous ciphertext
    with the subkeys so far and replace the next two. *)
Definition ciphertexts (backwards : bool) (init : nat -> Z) (c : nat -> Z * Z) : Prop :=
  c 0%nat = (0, 0) /\
  forall k, (k < 521)%nat -> c (S k) = blowfish_with backwards (subkey init c k) (fst (c k)) (snd (c k)).

(** The initial subkeys: constants, the first eighteen combined with the key. *)
Definition initial (constants : nat -> Z) (backwards : bool) (key : list Z) (j : nat) : Z :=
  if (j <? 18)%nat then Z.lxor (constants j) (key_word backwards key j) else constants j.

(** The key written four times, which makes whole words, each word backwards. *)
Definition words_backwards (key : list Z) : list Z :=
  let k j := nth (j mod length key) key 0 in
  flat_map (fun i => [k (4 * i + 3)%nat; k (4 * i + 2)%nat; k (4 * i + 1)%nat; k (4 * i)%nat]) (seq 0 (length key)).
