(** The ZIP file format (PKWARE APPNOTE), as far as C33 needs it. *)
From Verif Require Import Base.

(** A record of an archive.  [misc] is the part of a header nobody interprets here. *)
Inductive record :=
| Stored (version flags : Z) (timecrc : list Z) (usize : Z) (name extra content : list Z)
    (* local file, method 0, not encrypted, content not empty *)
| Empty (version flags method : Z) (timecrc : list Z) (name extra : list Z)
    (* local file without content, e.g. a directory *)
| CentralFile (misc1 misc2 : list Z) (name extra comment : list Z)
| CentralEnd (misc : list Z) (comment : list Z)
| CentralEnd64 (misc : list Z)
| Locator64 (misc : list Z)
| Signature (content : list Z)
| ExtraData (content : list Z).

Definition u16b (x : Z) := le_bytes 2 x.
Definition u32b (x : Z) := le_bytes 4 x.
Definition len (l : list Z) : Z := Z.of_nat (length l).

Definition encode (r : record) : list Z :=
  match r with
  | Stored v fl tc us n e c =>
      [0x50; 0x4b; 3; 4] ++ u16b v ++ u16b fl ++ u16b 0 ++ tc ++ u32b (len c) ++ u32b us
      ++ u16b (len n) ++ u16b (len e) ++ n ++ e ++ c
  | Empty v fl me tc n e =>
      [0x50; 0x4b; 3; 4] ++ u16b v ++ u16b fl ++ u16b me ++ tc ++ u32b 0 ++ u32b 0
      ++ u16b (len n) ++ u16b (len e) ++ n ++ e
  | CentralFile m1 m2 n e c =>
      [0x50; 0x4b; 1; 2] ++ m1 ++ u16b (len n) ++ u16b (len e) ++ u16b (len c) ++ m2 ++ n ++ e ++ c
  | CentralEnd m c => [0x50; 0x4b; 5; 6] ++ m ++ u16b (len c) ++ c
  | CentralEnd64 m => [0x50; 0x4b; 6; 6] ++ m
  | Locator64 m => [0x50; 0x4b; 6; 7] ++ m
  | Signature c => [0x50; 0x4b; 5; 5] ++ u16b (len c) ++ c
  | ExtraData c => [0x50; 0x4b; 6; 8] ++ u32b (len c) ++ c
  end.

Definition wf (r : record) : Prop :=
  match r with
  | Stored v fl tc us n e c =>
      length tc = 8%nat /\ fl mod 2 = 0 /\ 0 < len n < 2 ^ 16 /\ len e < 2 ^ 16 /\ 0 < len c < 2 ^ 31
  | Empty v fl me tc n e => length tc = 8%nat /\ len n < 2 ^ 16 /\ len e < 2 ^ 16
  | CentralFile m1 m2 n e c =>
      length m1 = 24%nat /\ length m2 = 12%nat /\ len n < 2 ^ 16 /\ len e < 2 ^ 16 /\ len c < 2 ^ 16
  | CentralEnd m c => length m = 16%nat /\ len c < 2 ^ 16
  | CentralEnd64 m => length m = 52%nat
  | Locator64 m => length m = 16%nat
  | Signature c => len c < 2 ^ 16
  | ExtraData c => len c < 2 ^ 31
  end.

Definition archive (rs : list record) : list Z := flat_map encode rs.

(** The content stored first under a name. *)
Fixpoint stored_as (name : list Z) (rs : list record) : option (list Z) :=
  match rs with
  | [] => None
  | Stored _ _ _ _ n _ c :: t => if list_eq_dec Z.eq_dec name n then Some c else stored_as name t
  | _ :: t => stored_as name t
  end.

(** Local file headers that must be rejected: encrypted, compressed, or nameless, with content. *)
Definition local_header (v fl me : Z) (tc : list Z) (cs us nl el : Z) : list Z :=
  [0x50; 0x4b; 3; 4] ++ u16b v ++ u16b fl ++ u16b me ++ tc ++ u32b cs ++ u32b us ++ u16b nl ++ u16b el.
