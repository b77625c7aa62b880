(** Vertex formats as their names describe them. *)
From Verif Require Import Base HalfFloat_Spec UniFormat_Model.

(** the widths of the components, first (lowest) component first *)
Definition layout (d : dtype) : list Z :=
  match d with
  | CUSTOM => []
  | R32G32B32A32 => [32; 32; 32; 32] | R32G32B32 => [32; 32; 32] | R32G32 => [32; 32] | R32 => [32]
  | R16G16B16A16 => [16; 16; 16; 16] | R16G16B16 => [16; 16; 16] | R16G16 => [16; 16] | R16 => [16]
  | R8G8B8A8 => [8; 8; 8; 8] | R8G8B8 => [8; 8; 8] | R8G8 => [8; 8] | R8 => [8]
  | R10G10B10A2 => [10; 10; 10; 2] | R11G11B10 => [11; 11; 10] | R24G8 => [24; 8]
  | R5G6B5 => [5; 6; 5] | R5G5B5A1 => [5; 5; 5; 1]
  end.
Definition sum (l : list Z) : Z := fold_right Z.add 0 l.
Definition element_size (d : dtype) : nat := Z.to_nat (sum (layout d) / 8).
Definition width (d : dtype) (i : nat) : Z := nth i (layout d) 0.
(** component i of the element at the start of [mem]: components are packed from the lowest bit of
    the little-endian number; 0 when there is no such component *)
Definition component (d : dtype) (mem : list Z) (i : nat) : Z :=
  (le_value (firstn (element_size d) mem) / 2 ^ sum (firstn i (layout d))) mod 2 ^ width d i.
(** its two's complement reading *)
Definition signed_component (d : dtype) (mem : list Z) (i : nat) : Z :=
  let c := component d mem i in
  if 2 * c <? 2 ^ width d i then c else c - 2 ^ width d i.

(** The float pattern w stands for a/D, with a relative error of at most 2^-22 (exactly +0 for 0). *)
Definition stands_for (w a D : Z) : Prop :=
  exists neg M, ieee 23 8 w = Finite neg M /\ neg = (a <? 0) /\
    2 ^ 22 * Z.abs (M * D - Z.abs a * 2 ^ 149) <= Z.abs a * 2 ^ 149.

(** the bytes a codec touches, from the input pointer on *)
Definition reach (f : ftype) (d : dtype) : nat :=
  match f, d with
  | (INT | UINT), (R32 | R32G32) => 12
  | (UNORM | NORM), R32G32 => 12
  | (UNORM | NORM | FLOAT), R16G16B16 => 8
  | (UNORM | NORM), R8G8B8 => 4
  | _, _ => element_size d
  end.
(** the documented combinations (comment in uni/format.hpp) *)
Definition supported (f : ftype) (d : dtype) : Prop :=
  match f with
  | INT | UINT | NORM | UNORM => d <> CUSTOM
  | FLOAT => In d [R32G32B32A32; R32G32B32; R32G32; R32; R16G16B16A16; R16G16B16; R16G16; R16; R11G11B10]
  | UFLOAT => d = R11G11B10
  | INVALID => False
  end.
(** the components of the normalised formats that come out right *)
Definition clean (d : dtype) (i : nat) : Prop :=
  (i < length (layout d))%nat /\ ~ (d = R5G6B5 /\ i <> 1%nat) /\ ~ (d = R11G11B10 /\ i = 2%nat).
(** the number a finite float pattern stands for, in units of 2^-149 *)
Definition number_of (w : Z) : option Z :=
  match ieee 23 8 w with Finite neg M => Some (if neg then - M else M) | _ => None end.
(** full scale of an n-bit unsigned and of an n-bit two's complement field; a one-bit signed field counts in ones *)
Definition full (n : Z) : Z := 2 ^ n - 1.
Definition signed_full (n : Z) : Z := Z.max 1 (2 ^ (n - 1) - 1).
Definition one : Z := 0x3f800000.
Definition minus_one : Z := 0xbf800000.
