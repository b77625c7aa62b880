(** C01, C02: variable-length integers of datas/base_128.hpp.
    [buint128_Write v = Some bs]: writing v terminates and appends bs.
    [buint128_Read s = Some (v, r)]: reading a stream holding s yields v and
    leaves r unread ([None]: the stream ended inside the value). *)
From Verif Require Import Base Base128_Model Base128_Spec Base128_Proof.

(** C01 *)
Theorem C01_buint128_roundtrip : forall v rest,
  0 <= v < 2 ^ 64 ->
  exists bs, buint128_Write v = Some bs /\ buint128_Read (bs ++ rest) = Some (v, rest).
Proof. exact bu_roundtrip. Qed.
Print Assumptions C01_buint128_roundtrip.

(** Between 1 and 9 bytes, and no more than the number of 7-bit groups needed. *)
Theorem C01_buint128_length : forall v,
  0 <= v < 2 ^ 64 ->
  exists bs, buint128_Write v = Some bs /\ bytes_ok bs /\ (1 <= length bs <= 9)%nat /\
    (forall j, (1 <= j <= 8)%nat -> v < 2 ^ (7 * Z.of_nat j) -> (length bs <= j)%nat) /\
    ((length bs <= 8)%nat -> v < 2 ^ (7 * Z.of_nat (length bs))).
Proof. exact bu_length. Qed.
Print Assumptions C01_buint128_length.

(** Any number of values written back to back are read back in order. *)
Theorem C01_buint128_sequence : forall vs rest,
  Forall (fun v => 0 <= v < 2 ^ 64) vs ->
  exists bs, write_seq buint128_Write vs = Some bs /\
             read_seq buint128_Read (length vs) (bs ++ rest) = Some (vs, rest).
Proof. exact bu_seq. Qed.
Print Assumptions C01_buint128_sequence.

Example C01_nonvacuous :
  buint128_Write (2 ^ 64 - 1) = Some [255; 255; 255; 255; 255; 255; 255; 255; 255] /\
  buint128_Write 300 = Some [172; 2] /\ 0 <= 2 ^ 64 - 1 < 2 ^ 64.
Proof. vm_compute. repeat split; congruence. Qed.

(** C02 *)
Theorem C02_bint128_roundtrip : forall v rest,
  - 2 ^ 55 <= v < 2 ^ 63 ->
  exists bs, bint128_Write v = Some bs /\ bint128_Read (bs ++ rest) = Some (v, rest).
Proof. exact bi_roundtrip. Qed.
Print Assumptions C02_bint128_roundtrip.

Theorem C02_bint128_sequence : forall vs rest,
  Forall (fun v => - 2 ^ 55 <= v < 2 ^ 63) vs ->
  exists bs, write_seq bint128_Write vs = Some bs /\
             read_seq bint128_Read (length vs) (bs ++ rest) = Some (vs, rest).
Proof. exact bi_seq. Qed.
Print Assumptions C02_bint128_sequence.

(** The code does not round-trip any value in [-2^56, -2^55): it reads back ~v + 2^62. *)
Theorem C02_bint128_corrupted_interval_refuted : forall v rest,
  - 2 ^ 56 <= v < - 2 ^ 55 ->
  exists bs, bint128_Write v = Some bs /\ bint128_Read (bs ++ rest) = Some (Z.lnot v + 2 ^ 62, rest).
Proof. exact bi_corrupt. Qed.
Print Assumptions C02_bint128_corrupted_interval_refuted.

(** Below -2^56 the value survives but ten bytes are written and nine are read. *)
Theorem C02_bint128_overlong_refuted : forall v rest,
  - 2 ^ 63 <= v < - 2 ^ 56 ->
  exists bs, bint128_Write v = Some bs /\ length bs = 10%nat /\
             bint128_Read (bs ++ rest) = Some (v, 1 :: rest).
Proof. exact bi_overlong. Qed.
Print Assumptions C02_bint128_overlong_refuted.

Example C02_nonvacuous :
  bint128_Write (-2 ^ 55) = Some [255; 255; 255; 255; 255; 255; 255; 127] /\
  bint128_Write 64 = Some [192; 0] /\ - 2 ^ 55 <= 64 < 2 ^ 63 /\
  - 2 ^ 56 <= - 2 ^ 55 - 1 < - 2 ^ 55 /\ - 2 ^ 63 <= - 2 ^ 56 - 1 < - 2 ^ 56.
Proof. vm_compute. repeat split; congruence. Qed.
