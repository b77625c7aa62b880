(** Texture memory layout (C42) and the meaning of format names (C42, C43). *)
From Coq Require Import String Ascii.
From Verif Require Import Base.
Local Open Scope Z_scope.

(** Dimension of mip level m. *)
Definition mip_dim (d : Z) (m : nat) : Z := Z.max 1 (d / 2 ^ Z.of_nat m).
(** Bytes of a level: texels times bits, rounded up to bytes; or whole 4x4 blocks. *)
Definition plain_size (w h bits : Z) (m : nat) : Z := (mip_dim w m * mip_dim h m * bits + 7) / 8.
Definition block_size (w h bits : Z) (m : nat) : Z :=
  ((mip_dim w m + 3) / 4) * ((mip_dim h m + 3) / 4) * (16 * bits / 8).
Definition sum (l : list Z) : Z := fold_right Z.add 0 l.

(** Bits named in a format name: the numbers following the channel letters R G B A D X S E. *)
Definition is_channel (c : ascii) : bool := existsb (Ascii.eqb c) ["R"; "G"; "B"; "A"; "D"; "X"; "S"; "E"]%char.
Definition digit (c : ascii) : option Z :=
  let n := Z.of_N (N_of_ascii c) in if (48 <=? n) && (n <=? 57) then Some (n - 48) else None.
Fixpoint name_bits (s : string) (channel : bool) (cur : Z) : Z :=
  match s with
  | EmptyString => cur
  | String c r =>
    match digit c with
    | Some v => name_bits r channel (if channel then 10 * cur + v else 0)
    | None => cur + name_bits r (is_channel c) 0
    end
  end.
Definition channel_bits (name : string) : Z := name_bits name false 0.
Fixpoint starts (p s : string) : bool :=
  match p, s with
  | EmptyString, _ => true
  | String a p', String b s' => Ascii.eqb a b && starts p' s'
  | _, EmptyString => false
  end.
(** Block formats are the ones called BC; BC1 and BC4 have 8-byte blocks, the others 16. *)
Definition is_block_name (name : string) : bool := starts "BC" name.
Definition block_bits (name : string) : Z := if starts "BC1" name || starts "BC4" name then 4 else 8.

(** The channel masks of a format given from its least significant bit upward. *)
Definition mask_at (low bits : Z) : Z := 2 ^ low * (2 ^ bits - 1).
(** The channels in a name, first named in the least significant bits: the mask of channel [c], 0
    if it is not named. *)
Fixpoint channel_mask (c : ascii) (s : string) (low : Z) (cur : ascii) (bits : Z) : Z :=
  match s with
  | EmptyString => if Ascii.eqb c cur then mask_at low bits else 0
  | String x r =>
    match digit x with
    | Some v => channel_mask c r low cur (10 * bits + v)
    | None =>
      (if Ascii.eqb c cur then mask_at low bits else 0) +
      (if Ascii.eqb x "_" then 0 else channel_mask c r (low + bits) x 0)
    end
  end.
Definition mask_of (c : ascii) (name : string) : Z := channel_mask c name 0 "_" 0.

(** Two formats with the same data: equal, or one the sRGB reading of the other, or depth read as
    red. *)
Definition same_data (f g : string) : Prop :=
  f = g \/ f = append g "_SRGB" \/ (f = "D16_UNORM"%string /\ g = "R16_UNORM"%string).
