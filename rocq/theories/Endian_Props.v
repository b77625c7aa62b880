(** C03: byte swapping.  [FByteswapper sz x = Some y]: swapping the sz-byte bit
    pattern x gives y; [None]: std::logic_error. *)
From Verif Require Import Base Endian_Model Endian_Spec Endian_Proof.

(** Swapping reverses the bytes, stays in range, and swapping again restores x. *)
Theorem C03_swap_reverses_bytes_and_is_involutive : forall sz x,
  sz = 2 \/ sz = 4 \/ sz = 8 -> 0 <= x < 256 ^ sz ->
  exists y, FByteswapper sz x = Some y /\ 0 <= y < 256 ^ sz /\
            le_bytes (Z.to_nat sz) y = rev (le_bytes (Z.to_nat sz) x) /\
            FByteswapper sz y = Some x.
Proof. exact FByteswapper_involution. Qed.
Print Assumptions C03_swap_reverses_bytes_and_is_involutive.

(** An array is swapped element by element. *)
Theorem C03_array_swap_elementwise : forall sz l,
  sz = 2 \/ sz = 4 \/ sz = 8 ->
  FArraySwapper sz l = Some (map (byte_reverse (Z.to_nat sz)) l).
Proof. exact FArraySwapper_spec. Qed.
Print Assumptions C03_array_swap_elementwise.

Theorem C03_array_swap_involution : forall sz l,
  sz = 2 \/ sz = 4 \/ sz = 8 -> Forall (fun x => 0 <= x < 256 ^ sz) l ->
  exists l', FArraySwapper sz l = Some l' /\ length l' = length l /\ FArraySwapper sz l' = Some l.
Proof. exact FArraySwapper_involution. Qed.
Print Assumptions C03_array_swap_involution.

(** A one-byte value is not "left alone": the call throws. *)
Theorem C03_single_byte_throws : forall x, FByteswapper 1 x = None.
Proof. exact FByteswapper_byte_throws. Qed.
Print Assumptions C03_single_byte_throws.

Example C03_nonvacuous :
  FByteswapper 8 0x0123456789abcdef = Some 0xefcdab8967452301 /\
  FArraySwapper 4 [0x89abcdef; 1] = Some [0xefcdab89; 0x01000000] /\
  le_bytes 4 0x89abcdef = [0xef; 0xcd; 0xab; 0x89].
Proof. vm_compute. repeat split; reflexivity. Qed.
