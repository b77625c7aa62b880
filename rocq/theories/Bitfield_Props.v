(** C04, C05: bit fields.  [None] = undefined behaviour. *)
From Verif Require Import Base Bitfield_Model Bitfield_Spec Bitfield_Proof.

(** C04: reading a member gives the bits between its start and its end. *)
Theorem C04_get_reads_own_bits : forall w l i v,
  layout_ok w l -> (i < length l)%nat -> BFT_Get w l i v = Some (field l i v).
Proof. exact Get_spec. Qed.
Print Assumptions C04_get_reads_own_bits.

(** Setting a member and reading it back gives the input modulo the member's size. *)
Theorem C04_get_after_set : forall w l i v x,
  layout_ok w l -> (i < length l)%nat -> 0 <= v < 2 ^ w ->
  exists v', BFT_Set w l i v x = Some v' /\ 0 <= v' < 2 ^ w /\
             BFT_Get w l i v' = Some (x mod 2 ^ size l i).
Proof. exact Set_Get. Qed.
Print Assumptions C04_get_after_set.

(** Setting a member changes no bit outside it ... *)
Theorem C04_set_frame : forall w l i v x,
  layout_ok w l -> (i < length l)%nat -> 0 <= v < 2 ^ w ->
  exists v', BFT_Set w l i v x = Some v' /\
    forall b, 0 <= b -> ~ in_member l i b -> Z.testbit v' b = Z.testbit v b.
Proof. exact Set_frame. Qed.
Print Assumptions C04_set_frame.

(** ... in particular no other member. *)
Theorem C04_set_preserves_other_members : forall w l i k v x,
  layout_ok w l -> (i < length l)%nat -> (k < length l)%nat -> i <> k -> 0 <= v < 2 ^ w ->
  exists v', BFT_Set w l i v x = Some v' /\ BFT_Get w l k v' = BFT_Get w l k v.
Proof. exact Set_other. Qed.
Print Assumptions C04_set_preserves_other_members.

Theorem C04_members_disjoint : forall w l i j b,
  layout_ok w l -> in_member l i b -> in_member l j b -> i = j.
Proof. exact members_disjoint. Qed.
Print Assumptions C04_members_disjoint.

(** Each member is reported at the sum of the sizes before it. *)
Theorem C04_member_positions : forall l i,
  (2 <= length l)%nat -> (i < length l)%nat -> BF_Get l i = Some (start l i, size l i).
Proof. exact BF_Get_spec. Qed.
Print Assumptions C04_member_positions.

(** C05: out and back in restores all members and clears everything else. *)
Theorem C05_out_in_restores_members : forall w l v,
  layout_ok w l -> 0 <= v < 2 ^ w ->
  exists o r, BFT_SwapEndian w l true v = Some o /\ BFT_SwapEndian w l false o = Some r /\
    (forall i, (i < length l)%nat -> BFT_Get w l i r = BFT_Get w l i v) /\
    (forall b, 0 <= b -> ~ (exists i, in_member l i b) -> Z.testbit r b = false).
Proof. exact out_in_members. Qed.
Print Assumptions C05_out_in_restores_members.

Theorem C05_out_in_full_layout : forall w l v,
  layout_ok w l -> fold_right Z.add 0 l = w -> 0 <= v < 2 ^ w ->
  exists o, BFT_SwapEndian w l true v = Some o /\ 0 <= o < 2 ^ w /\ BFT_SwapEndian w l false o = Some v.
Proof. exact out_in_full. Qed.
Print Assumptions C05_out_in_full_layout.

Theorem C05_in_out_full_layout : forall w l v,
  layout_ok w l -> fold_right Z.add 0 l = w -> 0 <= v < 2 ^ w ->
  exists o, BFT_SwapEndian w l false v = Some o /\ 0 <= o < 2 ^ w /\ BFT_SwapEndian w l true o = Some v.
Proof. exact in_out_full. Qed.
Print Assumptions C05_in_out_full_layout.

Example C04_C05_layouts_exist :
  layout_ok 32 [7; 16; 9] /\ fold_right Z.add 0 [7; 16; 9] = 32 /\ layout_ok 16 [3; 4].
Proof. unfold layout_ok. cbn [length fold_right]. repeat split; repeat constructor; lia. Qed.

Example C04_C05_values :
  BFT_Get 32 [7; 16; 9] 1 0x12345678 = Some 0x68ac /\
  BFT_Set 32 [7; 16; 9] 1 0x12345678 0xabcde = Some 0x125e6f78 /\
  BFT_SwapEndian 32 [7; 16; 9] true 0x12345678 = Some 0x2458D1F0.
Proof. vm_compute. repeat split; reflexivity. Qed.
