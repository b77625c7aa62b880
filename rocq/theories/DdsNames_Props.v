(** C42 and C43: the constants of the DDS header against their names. *)
From Coq Require Import String Ascii.
From Verif Require Import Base Dds_Model Dds_Spec DdsNames_Spec.
Local Open Scope Z_scope.
Local Open Scope list_scope.

(** the constants that are named after their channels *)
Definition named : list (string * pixel_format) :=
  [("A2B10G10R10", DDSFormat_A2B10G10R10); ("A8R8G8B8", DDSFormat_A8R8G8B8); ("A1R5G5B5", DDSFormat_A1R5G5B5);
   ("A4R4G4B4", DDSFormat_A4R4G4B4); ("A8L8", DDSFormat_A8L8); ("X8R8G8B8", DDSFormat_X8R8G8B8); ("G16R16", DDSFormat_G16R16);
   ("R8G8B8", DDSFormat_R8G8B8); ("R5G6B5", DDSFormat_R5G6B5); ("L16", DDSFormat_L16); ("L8", DDSFormat_L8); ("A8", DDSFormat_A8)]%string.

(** Every legacy format named after its channels is what its name says: the masks, the bits of a texel, the kind; luminance is in
    the red mask.  The one exception is A2B10G10R10, whose alpha mask is empty. *)
Theorem C43_named_formats : forall name f, In (name, f) named -> let l := channels_of name in
  pfSize f = 32 /\ fourCC f = 0 /\ bpp f = bits_of l /\ pfFlags f = legacy_flags l /\
  RMask f = legacy_mask "R" l + legacy_mask "L" l /\ GMask f = legacy_mask "G" l /\ BMask f = legacy_mask "B" l /\
  AMask f = if String.eqb name "A2B10G10R10" then 0 else legacy_mask "A" l.
Proof.
  intros name f H. unfold named in H. cbn [In] in H.
  repeat (destruct H as [E|H]; [injection E as <- <-; vm_compute; repeat split|]). destruct H.
Qed.
Print Assumptions C43_named_formats.

(** the constants that are named after a four-character code, the code and the bits of a texel *)
Definition coded : list (string * Z * pixel_format) :=
  [("DXT1", 4, DDSFormat_DXT1); ("DXT2", 8, DDSFormat_DXT2); ("DXT3", 8, DDSFormat_DXT3); ("DXT4", 8, DDSFormat_DXT4); ("DXT5", 8, DDSFormat_DXT5);
   ("BC4U", 4, DDSFormat_BC4U); ("BC4S", 4, DDSFormat_BC4S); ("BC5U", 8, DDSFormat_BC5U); ("BC5S", 8, DDSFormat_BC5S);
   ("RBGB", 32, DDSFormat_R8G8_B8G8); ("GRGB", 32, DDSFormat_G8R8_G8B8); ("UYVY", 32, DDSFormat_UYVY); ("YUY2", 32, DDSFormat_YUY2);
   ("ATI1", 4, DDSFormat_ATI1); ("ATI2", 8, DDSFormat_ATI2); ("DX10", 0, DDSFormat_DX10)]%string.
(** In the file their four bytes spell that code; there are no masks and the flags say that there is a code. *)
Theorem C43_coded_formats : forall name bits f, In (name, bits, f) coded ->
  le_bytes 4 (fourCC f) = text name /\ bpp f = bits /\ pfFlags f = 0x4 /\ pfSize f = 32 /\
  RMask f = 0 /\ GMask f = 0 /\ BMask f = 0 /\ AMask f = 0.
Proof.
  intros name bits f H. unfold coded in H. cbn [In] in H.
  repeat (destruct H as [E|H]; [injection E as <- <- <-; vm_compute; repeat split|]). destruct H.
Qed.
Print Assumptions C43_coded_formats.

(** The bits of a texel of the video formats are right for AYUV, Y410, Y416, NV12 and Y210 only; they are too many for the other
    formats up to Y216, and zero for the rest. *)
Theorem C42_video_bits : forall d f name bits, pf d = DDSFormat_DX10 -> dxgiFormat d = Z.of_nat f ->
  nth_error format_names f = Some name -> video_bits name = Some bits ->
  exists d', ComputeBPP d = Some d' /\
    (bpp (pf d') = bits <-> In name ["AYUV"; "Y410"; "Y416"; "NV12"; "Y210"]%string) /\
    (In name ["P010"; "P016"; "420_OPAQUE"; "YUY2"; "Y216"]%string -> bits < bpp (pf d')) /\
    ((109 < f)%nat -> bpp (pf d') = 0).
Proof.
  intros d f name bits Ep Ef En Ev.
  assert (A : forallb (fun n => match nth_error format_names n, nth_error bpps n with
     | Some nm, Some b => match video_bits nm with
         | Some v => Bool.eqb (b =? v) (existsb (String.eqb nm) ["AYUV"; "Y410"; "Y416"; "NV12"; "Y210"]%string) &&
                     implb (existsb (String.eqb nm) ["P010"; "P016"; "420_OPAQUE"; "YUY2"; "Y216"]%string) (v <? b) && implb (109 <? n)%nat (b =? 0)
         | None => true end
     | _, _ => false end) (seq 0 120) = true) by (vm_compute; reflexivity).
  rewrite forallb_forall in A.
  assert (L : (f < 120)%nat) by (change 120%nat with (length format_names); apply nth_error_Some; congruence).
  specialize (A f ltac:(apply in_seq; lia)). cbv beta in A. rewrite En in A.
  destruct (nth_error bpps f) as [b|] eqn:Eb; [|discriminate A]. rewrite Ev in A.
  apply andb_true_iff in A. destruct A as [A A3]. apply andb_true_iff in A. destruct A as [A1 A2]. apply Bool.eqb_prop in A1.
  assert (X : forall l, existsb (String.eqb name) l = true <-> In name l).
  { intro l. rewrite existsb_exists. split; [intros (x & Hx & E); apply String.eqb_eq in E; subst; exact Hx | intro Hx; exists name; split; [exact Hx | apply String.eqb_refl]]. }
  unfold ComputeBPP. rewrite Ep. change (bpp DDSFormat_DX10) with 0. cbn [Z.eqb negb].
  change (same_format DDSFormat_DX10 DDSFormat_DX10) with true. cbv iota. rewrite Ef, Nat2Z.id, Eb.
  eexists. split; [reflexivity|]. change (bpp (pf (set_bpp d b))) with b. split; [|split].
  - rewrite <- X, <- A1. rewrite Z.eqb_eq. reflexivity.
  - intro H. apply X in H. rewrite H in A2. cbn [implb] in A2. apply Z.ltb_lt in A2. exact A2.
  - intro H. apply Nat.ltb_lt in H. rewrite H in A3. cbn [implb] in A3. apply Z.eqb_eq in A3. exact A3.
Qed.
Print Assumptions C42_video_bits.

Example ex_channels : channels_of "A2B10G10R10" = [("A", 2); ("B", 10); ("G", 10); ("R", 10)]%char /\
  legacy_mask "G" (channels_of "R5G6B5") = 0x7E0 /\ legacy_mask "A" (channels_of "A2B10G10R10") = 0xC0000000. Proof. vm_compute. auto. Qed.
Example ex_video : nth_error format_names 103 = Some "NV12"%string /\ video_bits "NV12" = Some 12 /\ video_bits "P010" = Some 24. Proof. vm_compute. auto. Qed.
