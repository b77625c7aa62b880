(** C42: mip-map layout of a DDS texture; C43: legacy pixel formats.  formats/DDS.hpp.
    [ComputeBufferSize d = Some (total, mips)]: the call returns [total] and stores the (size,
    offset) pairs [mips] for levels 0, 1, ...; [None] means it writes outside its arrays. *)
From Coq Require Import String Ascii.
From Verif Require Import Base Flags_Model Flags_Spec Flags_Proof Dds_Model Dds_Spec Dds_Proof.
Local Open Scope Z_scope.

(** A header as it can be: 32-bit fields and a known pixel size. *)
Definition texture (d : dds) : Prop :=
  0 <= width d < 2 ^ 32 /\ 0 <= height d < 2 ^ 32 /\ 0 <= mipMapCount d < 2 ^ 32 /\ 0 < bpp (pf d) < 2 ^ 32.
(** Levels described: a count of zero means one. *)
Definition levels (d : dds) : nat := Z.to_nat (Z.max 1 (mipMapCount d)).

Lemma levels_count d : texture d -> level_count (mipMapCount d) = Z.max 1 (mipMapCount d).
Proof. intros (_ & _ & H & _). unfold level_count. destruct (Z.eqb_spec (mipMapCount d) 0); lia. Qed.

(** Up to fifteen levels: every level starts where the previous ends and the result is the size of
    all of them (as 32-bit numbers). *)
Theorem C42_consecutive : forall d, texture d -> mipMapCount d <= 15 ->
  exists total mips, ComputeBufferSize d = Some (total, mips) /\ length mips = levels d /\
    total = sum (map fst mips) mod 2 ^ 32 /\
    forall k s o, nth_error mips k = Some (s, o) -> o = sum (map fst (firstn k mips)) mod 2 ^ 32.
Proof.
  intros d T Hm. pose proof T as (_ & _ & H & Hb).
  destruct (buffer_ok d) as (mips & E & L & N); [lia|lia|rewrite levels_count by exact T; lia|].
  exists (sum (map fst mips) mod 2 ^ 32), mips. split; [exact E|]. split; [rewrite L, levels_count by exact T; reflexivity|].
  split; [reflexivity|]. intros k s o Hk. now apply N in Hk.
Qed.
Print Assumptions C42_consecutive.

(** More than fifteen levels: writes outside the arrays. *)
Theorem C42_too_many_levels : forall d, texture d -> 15 < mipMapCount d -> ComputeBufferSize d = None.
Proof.
  intros d T Hm. pose proof T as (_ & _ & H & Hb). unfold ComputeBufferSize.
  destruct (Z.eqb_spec (bpp (pf d)) 0); [lia|]. fold (level_count (mipMapCount d)). cbv zeta. rewrite levels_count by exact T.
  apply mip_loop_many; lia.
Qed.
Print Assumptions C42_too_many_levels.

(** A level whose texels do not overflow 32 bits. *)
Definition small (d : dds) (k : nat) : Prop :=
  width d / 2 ^ Z.of_nat k * (height d / 2 ^ Z.of_nat k) * bpp (pf d) + 7 < 2 ^ 32.

Lemma level_of d total mips k s o : texture d -> ComputeBufferSize d = Some (total, mips) -> nth_error mips k = Some (s, o) ->
  s = code_level (useBlockCompression d) (bpp (pf d)) (width d) (height d) k.
Proof.
  intros T E Hk. pose proof T as (_ & _ & H & Hb). destruct (Z.le_gt_cases (mipMapCount d) 15) as [Hm|Hm].
  - destruct (buffer_ok d) as (mips' & E' & L & N); [lia|lia|rewrite levels_count by exact T; lia|].
    assert (mips' = mips) as -> by congruence. now apply N in Hk.
  - rewrite C42_too_many_levels in E by assumption. discriminate.
Qed.

(** Formats without blocks: the stored size is the true size of the level exactly while neither
    dimension has been halved below one. *)
Theorem C42_plain_sizes : forall d total mips k s o, texture d -> useBlockCompression d = false ->
  ComputeBufferSize d = Some (total, mips) -> nth_error mips k = Some (s, o) -> small d k ->
  s = plain_size (width d) (height d) (bpp (pf d)) k <-> (2 ^ Z.of_nat k <= width d /\ 2 ^ Z.of_nat k <= height d).
Proof.
  intros d total mips k s o T HB E Hk Hs. rewrite (level_of d total mips k s o T E Hk), HB.
  destruct T as (? & ? & ? & ?). apply plain_level; [lia|lia|lia|exact Hs].
Qed.
Print Assumptions C42_plain_sizes.

(** Block formats: exact if the level is a whole number of blocks both ways, or at most one block
    of fewer than sixteen texels; wrong for every other level. *)
Theorem C42_block_sizes : forall d total mips k s o, texture d -> useBlockCompression d = true ->
  bpp (pf d) = 4 \/ bpp (pf d) = 8 ->
  ComputeBufferSize d = Some (total, mips) -> nth_error mips k = Some (s, o) -> small d k ->
  s = block_size (width d) (height d) (bpp (pf d)) k <->
  (let w := width d / 2 ^ Z.of_nat k in let h := height d / 2 ^ Z.of_nat k in
   (w * h < 16 /\ w <= 4 /\ h <= 4) \/ (16 <= w * h /\ w mod 4 = 0 /\ h mod 4 = 0)).
Proof.
  intros d total mips k s o T HB Hbits E Hk Hs. rewrite (level_of d total mips k s o T E Hk), HB.
  destruct T as (? & ? & ? & ?). apply block_level; [lia|destruct Hbits as [-> | ->]; reflexivity|lia|lia|exact Hs|lia].
Qed.
Print Assumptions C42_block_sizes.

(** In particular the whole chain of a square power-of-two texture is right. *)
Theorem C42_square_block_chain : forall d n total mips k s o, texture d -> useBlockCompression d = true ->
  bpp (pf d) = 4 \/ bpp (pf d) = 8 -> 0 <= n <= 14 -> width d = 2 ^ n -> height d = 2 ^ n ->
  ComputeBufferSize d = Some (total, mips) -> nth_error mips k = Some (s, o) ->
  s = block_size (width d) (height d) (bpp (pf d)) k.
Proof.
  intros d n total mips k s o T HB Hbits Hn EW EH E Hk.
  assert (Hd : exists x, width d / 2 ^ Z.of_nat k = x /\ height d / 2 ^ Z.of_nat k = x /\ 0 <= x <= 2 ^ 14 /\ (x = 0 \/ x = 1 \/ x = 2 \/ x = 4 \/ (4 < x /\ x mod 4 = 0))).
  { rewrite EW, EH. exists (2 ^ n / 2 ^ Z.of_nat k). split; [reflexivity|]. split; [reflexivity|].
    destruct (Z.le_gt_cases (Z.of_nat k) n) as [Hkn|Hkn].
    - rewrite <- Z.pow_sub_r by lia. set (e := n - Z.of_nat k). assert (He : 0 <= e <= 14) by lia. clearbody e.
      assert (2 ^ e <= 2 ^ 14) by (apply Z.pow_le_mono_r; lia). split; [lia|].
      assert (e = 0 \/ e = 1 \/ e = 2 \/ 3 <= e) as [-> | [-> | [-> | He3]]] by lia;
        [right; left; reflexivity|right; right; left; reflexivity|right; right; right; left; reflexivity|].
      right. right. right. right. assert (2 ^ e = 2 ^ (e - 2) * 4) by (change 4 with (2 ^ 2); rewrite <- Z.pow_add_r by lia; f_equal; lia).
      assert (2 ^ 1 <= 2 ^ (e - 2)) by (apply Z.pow_le_mono_r; lia). split; [lia|]. rewrite H0. apply Z.mod_mul. lia.
    - assert (2 ^ n < 2 ^ Z.of_nat k) by (apply Z.pow_lt_mono_r; lia). rewrite Z.div_small by lia. lia. }
  destruct Hd as (x & E1 & E2 & Hx & C).
  assert (x * x <= 2 ^ 14 * 2 ^ 14) by (apply Z.mul_le_mono_nonneg; lia).
  apply (C42_block_sizes d total mips k s o T HB Hbits E Hk).
  - unfold small. rewrite E1, E2. destruct Hbits as [-> | ->]; lia.
  - cbv zeta. rewrite E1, E2. decompose [or] C; try (subst; left; lia); right; (split; [nia|split; lia]).
Qed.
Print Assumptions C42_square_block_chain.

(** Not so: 8x2 texels of BC1 take two blocks, the second level of a 4x1 texture has two texels, and
    the sizes of very large textures overflow. *)
Theorem C42_wrong_sizes :
  (exists d mips, texture d /\ useBlockCompression d = true /\ ComputeBufferSize d = Some (8, mips) /\ block_size (width d) (height d) (bpp (pf d)) 0 = 16) /\
  (exists d s0 o0, texture d /\ useBlockCompression d = false /\ ComputeBufferSize d = Some (16, [(s0, o0); (0, 16)]) /\
     plain_size (width d) (height d) (bpp (pf d)) 1 = 8) /\
  (exists d mips, texture d /\ useBlockCompression d = true /\ ComputeBufferSize d = Some (8, mips) /\ block_size (width d) (height d) (bpp (pf d)) 0 = 2 ^ 31).
Proof.
  split; [|split].
  - exists (DDS 0 2 8 1 DDSFormat_DXT1 0 0 0), [(8, 0)]. split; [unfold texture; cbn; lia|]. repeat split.
  - exists (DDS 0 1 4 2 DDSFormat_A8R8G8B8 0 0 0), 16, 0. split; [unfold texture; cbn; lia|]. repeat split.
  - exists (DDS 0 65536 65536 1 DDSFormat_DXT1 0 0 0), [(8, 0)]. split; [unfold texture; cbn; lia|]. repeat split.
Qed.
Print Assumptions C42_wrong_sizes.

(** The formats padded to blocks: those called BC, except the typeless ones. *)
Fixpoint ends (p s : string) : bool :=
  String.eqb p s || match s with EmptyString => false | String _ r => ends p r end.
Theorem C42_block_formats : forall d f name, dxgiFormat d = Z.of_nat (S f) -> nth_error format_names (S f) = Some name ->
  useBlockCompression d = is_block_name name && negb (ends "_TYPELESS" name) /\ IsBC (dxgiFormat d) = is_block_name name.
Proof.
  intros d f name Ef En.
  assert (A : forallb (fun n => match nth_error format_names n with
     | Some nm => eqb (is (Z.of_nat n) [F_BC1_UNORM; F_BC1_UNORM_SRGB; F_BC2_UNORM; F_BC2_UNORM_SRGB; F_BC3_UNORM; F_BC3_UNORM_SRGB; F_BC4_UNORM; F_BC4_SNORM; F_BC5_UNORM; F_BC5_SNORM; F_BC6H_UF16; F_BC6H_SF16; F_BC7_UNORM; F_BC7_UNORM_SRGB ]) (is_block_name nm && negb (ends "_TYPELESS" nm)) && eqb (IsBC (Z.of_nat n)) (is_block_name nm)
     | None => true end) (seq 1 119) = true) by (vm_compute; reflexivity).
  rewrite forallb_forall in A. specialize (A (S f)).
  assert (S f < 120)%nat by (change 120%nat with (length format_names); apply nth_error_Some; congruence).
  specialize (A ltac:(apply in_seq; lia)). cbv beta in A. rewrite En in A. apply andb_true_iff in A as [A1 A2].
  apply eqb_prop in A1, A2. unfold useBlockCompression. rewrite Ef.
  destruct (Z.eqb_spec (Z.of_nat (S f)) 0); [lia|]. cbn [negb]. auto.
Qed.
Print Assumptions C42_block_formats.

(** Bits per texel from the format: the sum of the channel sizes in its name (the two packed formats
    hold two texels in the bits named), or the block size over sixteen.  The video formats at the
    end of the enumeration are left out. *)
Definition texel_bits (f : nat) (name : string) : Z :=
  if is_block_name name then block_bits name
  else if (f =? 68)%nat || (f =? 69)%nat then channel_bits name / 2 else channel_bits name.
Theorem C42_bits_per_texel : forall d f name, pf d = DDSFormat_DX10 -> dxgiFormat d = Z.of_nat f ->
  (1 <= f < 100)%nat \/ f = 115%nat -> nth_error format_names f = Some name ->
  exists d', ComputeBPP d = Some d' /\
    (if (f =? 68)%nat || (f =? 69)%nat then bpp (pf d') = 2 * texel_bits f name else bpp (pf d') = texel_bits f name).
Proof.
  intros d f name Ep Ef Hf En.
  assert (A : forallb (fun n => match nth_error format_names n, nth_error bpps n with
     | Some nm, Some b => b =? (if (n =? 68)%nat || (n =? 69)%nat then 2 * texel_bits n nm else texel_bits n nm)
     | _, _ => false end) (115%nat :: seq 1 99) = true) by (vm_compute; reflexivity).
  rewrite forallb_forall in A. assert (I : In f (115%nat :: seq 1 99)) by (destruct Hf; [right; apply in_seq; lia|left; auto]).
  specialize (A f I). cbv beta in A. rewrite En in A.
  destruct (nth_error bpps f) as [b|] eqn:Eb; [|discriminate]. apply Z.eqb_eq in A.
  exists (set_bpp d b). split.
  - unfold ComputeBPP. rewrite Ep, Ef, Nat2Z.id, Eb. reflexivity.
  - change (bpp (pf (set_bpp d b))) with b. destruct (_ || _)%bool; exact A.
Qed.
Print Assumptions C42_bits_per_texel.

(** The bits per texel the video formats are given: the ten up to Y216 these, the ones after it none (which of them are right: C42_video_bits). *)
Definition video_formats : list (string * Z) := [
  ("AYUV", 32); ("Y410", 32); ("Y416", 64); ("NV12", 12); ("P010", 32); ("P016", 64);
  ("420_OPAQUE", 32); ("YUY2", 32); ("Y210", 32); ("Y216", 64) ]%string.
Theorem C42_video_counts : forall d f name, pf d = DDSFormat_DX10 -> dxgiFormat d = Z.of_nat f ->
  (100 <= f)%nat -> f <> 115%nat -> nth_error format_names f = Some name ->
  exists d', ComputeBPP d = Some d' /\
    (forall b, In (name, b) video_formats -> bpp (pf d') = b) /\
    (~ In name (map fst video_formats) -> bpp (pf d') = 0).
Proof.
  intros d f name Ep Ef Hf Hn En.
  assert (L : (f < 120)%nat) by (change 120%nat with (length format_names); apply nth_error_Some; congruence).
  assert (I : In f (seq 100 15 ++ seq 116 4)) by (apply in_app_iff; rewrite !in_seq; lia).
  unfold ComputeBPP. rewrite Ep, Ef, Nat2Z.id. clear Ep Ef Hf Hn L. cbn [seq app In] in I.
  repeat (destruct I as [<-|I]; [injection En as <-; eexists; (split; [reflexivity|]); split;
    [intros b Hb; cbn [In video_formats] in Hb; repeat (destruct Hb as [Hb|Hb]; [first [discriminate Hb | injection Hb as <-; reflexivity]|]); contradiction
    |intros Hb; first [reflexivity | exfalso; apply Hb; cbn; tauto]]|]). contradiction.
Qed.
Print Assumptions C42_video_counts.
Example C42_video_counts_case : exists d', ComputeBPP (DDS 0 8 8 1 DDSFormat_DX10 0 103 0) = Some d' /\ bpp (pf d') = 12.
Proof. eexists. split; reflexivity. Qed.

(** Bits per texel of a legacy description: a size given in the file is kept; the numbered and named
    codes below get their texel size (channels times channel bits, or the block size over sixteen; the
    three packed formats get the bits of a pair), everything else is left as it was. *)
Definition legacy_bits : list (Z * Z) := [
  (36, 4 * 16); (110, 4 * 16); (111, 1 * 16); (112, 2 * 16); (113, 4 * 16);
  (114, 1 * 32); (115, 2 * 32); (116, 4 * 32);
  (fourcc "DXT1", 64 / 16); (fourcc "DXT2", 128 / 16); (fourcc "DXT3", 128 / 16); (fourcc "DXT4", 128 / 16);
  (fourcc "DXT5", 128 / 16); (fourcc "BC4U", 64 / 16); (fourcc "BC4S", 64 / 16); (fourcc "ATI1", 64 / 16);
  (fourcc "BC5U", 128 / 16); (fourcc "BC5S", 128 / 16); (fourcc "ATI2", 128 / 16);
  (fourcc "RBGB", 2 * 16); (fourcc "GRGB", 2 * 16); (fourcc "YUY2", 2 * 16) ].
Definition with_bits (p : pixel_format) (b : Z) : pixel_format :=
  PF (pfSize p) (pfFlags p) (fourCC p) b (RMask p) (GMask p) (BMask p) (AMask p).
Theorem C42_known_bits_kept : forall d, bpp (pf d) <> 0 -> ComputeBPP d = Some d.
Proof. intros d H. unfold ComputeBPP. destruct (Z.eqb_spec (bpp (pf d)) 0); [contradiction|reflexivity]. Qed.
Print Assumptions C42_known_bits_kept.

Theorem C42_legacy_bits : forall d, bpp (pf d) = 0 -> fourCC (pf d) <> fourcc "DX10" ->
  (forall b, In (fourCC (pf d), b) legacy_bits -> ComputeBPP d = Some (set_pf d (with_bits (pf d) b))) /\
  (~ In (fourCC (pf d)) (map fst legacy_bits) -> ComputeBPP d = Some d).
Proof.
  intros d Hb Hc. unfold ComputeBPP. rewrite Hb. cbn [Z.eqb negb].
  assert (E : same_format (pf d) DDSFormat_DX10 = false).
  { unfold same_format. destruct (Z.eqb_spec (fourCC (pf d)) (fourCC DDSFormat_DX10)) as [X|X].
    - exfalso. apply Hc. exact X.
    - rewrite !andb_false_r. reflexivity. }
  rewrite E. split.
  - intros b Hi. unfold legacy_bits in Hi. cbn [In] in Hi.
    repeat (destruct Hi as [Hi|Hi]; [ injection Hi as Ec <-; rewrite <- Ec; reflexivity | ]). destruct Hi.
  - intros Hn. assert (K : forall l, (forall c, In c l -> In c (map fst legacy_bits)) -> is (fourCC (pf d)) l = false).
    { intros l Hl. unfold is. destruct (existsb _ l) eqn:Ex; [|reflexivity].
      apply existsb_exists in Ex as (c & Hcl & Hcc). apply Z.eqb_eq in Hcc. exfalso. apply Hn. rewrite Hcc. auto. }
    rewrite !K; [reflexivity|..]; intros c Hi; cbn [In] in Hi |- *; cbn [map fst legacy_bits In];
      repeat (destruct Hi as [<-|Hi]; [vm_compute; tauto|]); destruct Hi.
Qed.
Print Assumptions C42_legacy_bits.

(** ... which is the texel size of the modern format the code stands for. *)
Theorem C42_legacy_bits_agree : forall d e d', bpp (pf d) = 0 -> In (fourCC (pf d)) (map fst legacy_bits) ->
  FromLegacy d = (true, e) -> ComputeBPP d = Some d' ->
  exists e', ComputeBPP e = Some e' /\ bpp (pf e') = bpp (pf d').
Proof.
  intros d e d' Hb Hi HF HC.
  assert (Hc : fourCC (pf d) <> fourcc "DX10").
  { intros X. rewrite X in Hi. vm_compute in Hi. intuition discriminate. }
  destruct (C42_legacy_bits d Hb Hc) as [HL _].
  apply in_map_iff in Hi as ([c b] & Ec & Hi). cbn [fst] in Ec. subst c. pose proof (HL b Hi) as HCC.
  rewrite HC in HCC. injection HCC as ->. change (bpp (pf (set_pf d (with_bits (pf d) b)))) with b.
  unfold FromLegacy in HF.
  assert (A : forallb (fun x : Z * Z => match from_fourcc (fst x) with
     | Some (f, _) => match nth_error bpps (Z.to_nat f) with Some z => z =? snd x | None => false end
     | None => false end) legacy_bits = true) by (vm_compute; reflexivity).
  rewrite forallb_forall in A. specialize (A _ Hi). cbn [fst snd] in A.
  destruct (from_fourcc (fourCC (pf d))) as [[f pre]|] eqn:Ef; [|discriminate].
  destruct (nth_error bpps (Z.to_nat f)) as [z|] eqn:Ez; [|discriminate]. apply Z.eqb_eq in A. subst z.
  exists (set_bpp e b). split; [|reflexivity].
  assert (pf e = DDSFormat_DX10 /\ dxgiFormat e = f) as [Ep Eg].
  { destruct pre; assert (E2 : e = e) by reflexivity; injection HF as HF'; rewrite <- HF'; split; reflexivity. }
  unfold ComputeBPP. rewrite Ep, Eg, Ez. reflexivity.
Qed.
Print Assumptions C42_legacy_bits_agree.

(** UYVY, one of the formats with a constant of its own, is not among them: its size stays zero. *)
Theorem C42_uyvy_unsized : forall d, fourCC (pf d) = fourCC DDSFormat_UYVY -> bpp (pf d) = 0 -> ComputeBPP d = Some d.
Proof.
  intros d E Hb. apply (C42_legacy_bits d Hb); rewrite E; vm_compute; intuition discriminate.
Qed.
Print Assumptions C42_uyvy_unsized.

(** Setting the number of levels: the mip-map flags say whether there is more than one. *)
Theorem C42_mip_flags : forall num d, 0 <= num < 2 ^ 31 -> 0 <= flags d < 2 ^ 32 -> 0 <= caps00 d < 2 ^ 32 ->
  exists d', NumMipmaps num d = Some d' /\ mipMapCount d' = num /\
    (forall b, 0 <= b < 32 -> Z.testbit (caps00 d') b = if (b =? 3) || (b =? 22) then 1 <? num else Z.testbit (caps00 d) b) /\
    (forall b, 0 <= b < 32 -> Z.testbit (flags d') b = if b =? 17 then 1 <? num else Z.testbit (flags d) b) /\
    width d' = width d /\ height d' = height d /\ pf d' = pf d /\ dxgiFormat d' = dxgiFormat d /\ alphaMode d' = alphaMode d.
Proof.
  intros num d Hn Hf Hc. unfold NumMipmaps. cbv zeta.
  assert (W : Flags_Proof.width 32) by (unfold Flags_Proof.width; tauto).
  destruct (Flags_Proof.set_testbit 32 (caps00 d) 3 (1 <? num) W Hc) as (c & E1 & R1 & T1); [lia|]. rewrite E1.
  destruct (Flags_Proof.set_testbit 32 c 22 (1 <? num) W R1) as (c' & E2 & R2 & T2); [lia|]. rewrite E2.
  destruct (Flags_Proof.set_testbit 32 (flags d) 17 (1 <? num) W Hf) as (f & E3 & R3 & T3); [lia|]. rewrite E3.
  eexists. split; [reflexivity|]. cbn [mipMapCount caps00 flags width height pf dxgiFormat alphaMode].
  split; [apply wrap_small; lia|]. split.
  - intros b Hb. rewrite T2, T1 by lia. destruct (b =? 3), (b =? 22); reflexivity.
  - split; [|auto 10]. intros b Hb. now apply T3.
Qed.
Print Assumptions C42_mip_flags.

(** *** C43: legacy formats *)
Ltac walk := repeat (match goal with |- context [if ?x =? ?y then _ else _] => destruct (Z.eqb_spec x y) end).

(** A format turned into its legacy description and read back is the same format, whatever the
    reader's header holds otherwise; premultiplied alpha survives for BC2 and BC3. *)
Theorem C43_legacy_round_trip : forall d d', ToLegacy false d = (true, d') ->
  forall e, pf e = pf d' -> exists e', FromLegacy e = (true, e') /\ dxgiFormat e' = dxgiFormat d /\ pf e' = DDSFormat_DX10 /\
    alphaMode e' = if ((dxgiFormat d =? F_BC2_UNORM) || (dxgiFormat d =? F_BC3_UNORM)) && (alphaMode d =? Premultiplied)
                   then Premultiplied else alphaMode e.
Proof.
  intros d d' H e He. unfold ToLegacy in H.
  destruct (to_legacy1 (dxgiFormat d) (alphaMode d)) as [p|] eqn:E; [|discriminate].
  assert (d' = set_pf d p) as -> by congruence. cbn [set_pf pf] in He. clear H.
  unfold to_legacy1, is in E. cbn [existsb] in E. rewrite !orb_false_r in E.
  repeat match type of E with (if ?x =? ?y then _ else _) = _ =>
    destruct (Z.eqb_spec x y) as [Ex|_] in E;
    [ rewrite Ex; destruct (alphaMode d =? Premultiplied); injection E as <-;
      unfold FromLegacy; rewrite He; eexists; (split; [vm_compute; reflexivity|]); repeat split
    | ] end.
  discriminate.
Qed.
Print Assumptions C43_legacy_round_trip.

Definition name_of (f : Z) : string := nth (Z.to_nat f) format_names ""%string.
(** With incompatibilities allowed the data is still described the same way. *)
Theorem C43_forced_round_trip : forall d d', ToLegacy true d = (true, d') ->
  forall e, pf e = pf d' -> exists e', FromLegacy e = (true, e') /\
    same_data (name_of (dxgiFormat d)) (name_of (dxgiFormat e')).
Proof.
  intros d d' H e He. destruct (to_legacy1 (dxgiFormat d) (alphaMode d)) as [p|] eqn:E.
  - destruct (C43_legacy_round_trip d d') with (e := e) as (e' & F & Q & _); [unfold ToLegacy in *; now rewrite E in *|exact He|].
    exists e'. split; [exact F|]. left. now rewrite Q.
  - unfold ToLegacy in H. rewrite E in H. clear E. destruct (to_legacy2 (dxgiFormat d)) as [p|] eqn:E; [|discriminate].
    assert (d' = set_pf d p) as -> by congruence. cbn [set_pf pf] in He. clear H.
    unfold to_legacy2, is in E. cbn [existsb] in E. rewrite !orb_false_r in E.
    repeat match type of E with (if ?x then _ else _) = _ =>
      destruct x eqn:Ex in E;
      [ rewrite ?orb_true_iff, !Z.eqb_eq in Ex; injection E as <-;
        unfold FromLegacy; rewrite He; eexists; (split; [vm_compute; reflexivity|]);
        decompose [or] Ex; match goal with K : dxgiFormat d = _ |- _ => rewrite K end; unfold same_data;
        first [left; reflexivity | right; left; reflexivity | right; right; split; reflexivity]
      | clear Ex ] end.
    discriminate.
Qed.
Print Assumptions C43_forced_round_trip.

(** The other way round: a legacy description that is understood is given back, up to synonyms
    (ATI1 = BC4U, BC5U = ATI2), unless the header already claimed premultiplied alpha. *)
Definition synonym (a b : Z) : Prop :=
  a = b \/ (a = fourcc "ATI1" /\ b = fourcc "BC4U") \/ (a = fourcc "BC5U" /\ b = fourcc "ATI2").
Theorem C43_modern_round_trip : forall d e, FromLegacy d = (true, e) -> alphaMode d <> Premultiplied ->
  exists e', ToLegacy true e = (true, e') /\ synonym (fourCC (pf d)) (fourCC (pf e')) /\
    (from_fourcc (fourCC (pf d)) = None -> same_format (pf d) (pf e') = true).
Proof.
  intros d e H Ha. apply Z.eqb_neq in Ha. unfold FromLegacy in H. destruct (from_fourcc (fourCC (pf d))) as [[f pre]|] eqn:E.
  - assert (e = set_pf (if pre then set_alpha (set_dxgi d f) Premultiplied else set_dxgi d f) DDSFormat_DX10) as -> by congruence.
    clear H. unfold from_fourcc, is in E. cbn [existsb] in E. rewrite !orb_false_r in E.
    repeat match type of E with (if ?x then _ else _) = _ =>
      destruct x eqn:Ex in E;
      [ rewrite ?orb_true_iff, !Z.eqb_eq in Ex; injection E as <- <-;
        unfold ToLegacy; cbn [dxgiFormat alphaMode set_pf set_dxgi set_alpha]; rewrite ?Ha;
        unfold to_legacy1, to_legacy2, is;
        eexists; (split; [cbn -[fourcc cc]; rewrite ?Ha; reflexivity|]); (split; [|discriminate]);
        decompose [or] Ex; match goal with K : fourCC _ = _ |- _ => rewrite K end; unfold synonym; cbn [pf set_pf fourCC cc];
        first [left; reflexivity | right; left; split; reflexivity | right; right; split; reflexivity]
      | clear Ex ] end.
    discriminate.
  - destruct (from_masks (pf d)) as [f|] eqn:E2; [|discriminate].
    assert (e = set_pf (set_dxgi d f) DDSFormat_DX10) as -> by congruence. clear H E.
    unfold from_masks in E2.
    repeat match type of E2 with (if ?x then _ else _) = _ =>
      destruct x eqn:Ex in E2;
      [ injection E2 as <-;
        unfold ToLegacy; cbn [dxgiFormat alphaMode set_pf set_dxgi];
        eexists; (split; [vm_compute; reflexivity|]); (split; [|intros _; exact Ex]);
        left; unfold same_format in Ex; rewrite !andb_true_iff, !Z.eqb_eq in Ex; cbn [pf set_pf]; tauto
      | clear Ex ] end.
    discriminate.
Qed.
Print Assumptions C43_modern_round_trip.

(** Not so with premultiplied alpha already claimed: DXT3 comes back as DXT2. *)
Theorem C43_premultiplied_not_cleared : forall d, pf d = DDSFormat_DXT3 -> alphaMode d = Premultiplied ->
  pf (snd (ToLegacy false (snd (FromLegacy d)))) = DDSFormat_DXT2.
Proof.
  intros d Ep Ea. unfold FromLegacy. rewrite Ep.
  change (from_fourcc (fourCC DDSFormat_DXT3)) with (Some (F_BC2_UNORM, false)). cbv iota beta.
  unfold ToLegacy. cbn [snd dxgiFormat alphaMode set_pf set_dxgi]. rewrite Ea. reflexivity.
Qed.
Print Assumptions C43_premultiplied_not_cleared.

(** A format or description that is not known leaves the header as it was; otherwise only the pixel
    format (and for FromLegacy the DXGI format and alpha mode) changes. *)
Theorem C43_other_fields_kept : forall force d ok d', ToLegacy force d = (ok, d') ->
  d' = (if ok then set_pf d (pf d') else d) /\
  forall ok2 e, FromLegacy d = (ok2, e) -> e = if ok2 then DDS (flags d) (height d) (width d) (mipMapCount d) DDSFormat_DX10 (caps00 d) (dxgiFormat e) (alphaMode e) else d.
Proof.
  intros force d ok d' H. split.
  - unfold ToLegacy in H. destruct (to_legacy1 _ _) as [p|].
    + assert (ok = true) as -> by congruence. assert (d' = set_pf d p) as -> by congruence. reflexivity.
    + destruct (if force then to_legacy2 _ else None) as [p|].
      * assert (ok = true) as -> by congruence. assert (d' = set_pf d p) as -> by congruence. reflexivity.
      * assert (ok = false) as -> by congruence. congruence.
  - intros ok2 e He. unfold FromLegacy in He. destruct (from_fourcc _) as [[f pre]|].
    + assert (ok2 = true) as -> by congruence.
      assert (e = set_pf (if pre then set_alpha (set_dxgi d f) Premultiplied else set_dxgi d f) DDSFormat_DX10) as -> by congruence.
      destruct pre; reflexivity.
    + destruct (from_masks _) as [f|].
      * assert (ok2 = true) as -> by congruence. assert (e = set_pf (set_dxgi d f) DDSFormat_DX10) as -> by congruence. reflexivity.
      * assert (ok2 = false) as -> by congruence. congruence.
Qed.
Print Assumptions C43_other_fields_kept.

(** Legacy and modern descriptions agree on the bits per texel, so the layout of C42 is the same. *)
Theorem C43_same_bits : forall force d d', ToLegacy force d = (true, d') ->
  nth_error bpps (Z.to_nat (dxgiFormat d)) = Some (bpp (pf d')).
Proof.
  intros force d d' H. unfold ToLegacy in H. destruct (to_legacy1 _ _) as [p|] eqn:E.
  - assert (d' = set_pf d p) as -> by congruence. clear H.
    unfold to_legacy1, is in E. cbn [existsb] in E. rewrite !orb_false_r in E.
    repeat match type of E with (if ?x =? ?y then _ else _) = _ =>
      destruct (Z.eqb_spec x y) as [Ex|_] in E; [ rewrite Ex; destruct (alphaMode d =? Premultiplied); injection E as <-; reflexivity | ] end.
    discriminate.
  - destruct force; [|discriminate]. clear E. destruct (to_legacy2 (dxgiFormat d)) as [p|] eqn:E; [|discriminate].
    assert (d' = set_pf d p) as -> by congruence. clear H.
    unfold to_legacy2, is in E. cbn [existsb] in E. rewrite !orb_false_r in E.
    repeat match type of E with (if ?x then _ else _) = _ =>
      destruct x eqn:Ex in E;
      [ rewrite ?orb_true_iff, !Z.eqb_eq in Ex; injection E as <-;
        decompose [or] Ex; match goal with K : dxgiFormat d = _ |- _ => rewrite K end; reflexivity
      | clear Ex ] end.
    discriminate.
Qed.
Print Assumptions C43_same_bits.

(** Channel masks of the formats described by masks: right for four of them; red and blue are
    exchanged for the 8:8:8:8 and 4:4:4:4 formats, and the 10:10:10:2 format loses its alpha. *)
Definition masks_right (f : Z) (p : pixel_format) : Prop :=
  RMask p = mask_of "R" (name_of f) /\ GMask p = mask_of "G" (name_of f) /\
  BMask p = mask_of "B" (name_of f) /\ AMask p = mask_of "A" (name_of f).
Definition red_blue_exchanged (f : Z) (p : pixel_format) : Prop :=
  RMask p = mask_of "B" (name_of f) /\ GMask p = mask_of "G" (name_of f) /\
  BMask p = mask_of "R" (name_of f) /\ AMask p = mask_of "A" (name_of f) /\ RMask p <> BMask p.
Theorem C43_channel_masks : forall d d', ToLegacy true d = (true, d') ->
  (In (dxgiFormat d) [F_R16G16_UNORM; F_A8_UNORM; F_B5G6R5_UNORM; F_B5G5R5A1_UNORM; F_R8_UNORM; F_R16_UNORM] ->
     masks_right (dxgiFormat d) (pf d')) /\
  (In (dxgiFormat d) [F_R8G8B8A8_UNORM; F_R8G8B8A8_UNORM_SRGB; F_B8G8R8A8_UNORM; F_B8G8R8A8_UNORM_SRGB; F_B8G8R8X8_UNORM; F_B8G8R8X8_UNORM_SRGB; F_B4G4R4A4_UNORM] ->
     red_blue_exchanged (dxgiFormat d) (pf d')) /\
  (dxgiFormat d = F_R10G10B10A2_UNORM -> AMask (pf d') = 0 /\ mask_of "A" (name_of (dxgiFormat d)) = 3 * 2 ^ 30 /\
     RMask (pf d') = mask_of "R" (name_of (dxgiFormat d)) /\ GMask (pf d') = mask_of "G" (name_of (dxgiFormat d)) /\
     BMask (pf d') = mask_of "B" (name_of (dxgiFormat d))).
Proof.
  intros d d' H. unfold ToLegacy in H. split; [|split]; intros Hf; cbn [In] in Hf.
  - decompose [or] Hf; try contradiction;
      match goal with K : _ = dxgiFormat d |- _ => rewrite <- K in * end;
      match type of H with match ?t with _ => _ end = _ => let v := eval cbn in t in change t with v in H end; cbv iota beta in H;
      try match type of H with match ?t with _ => _ end = _ => let v := eval cbn in t in change t with v in H end; cbv iota beta in H;
      match type of H with (true, set_pf d ?p) = _ => assert (d' = set_pf d p) as -> by congruence end;
      vm_compute; repeat split.
  - decompose [or] Hf; try contradiction;
      match goal with K : _ = dxgiFormat d |- _ => rewrite <- K in * end;
      match type of H with match ?t with _ => _ end = _ => let v := eval cbn in t in change t with v in H end; cbv iota beta in H;
      try match type of H with match ?t with _ => _ end = _ => let v := eval cbn in t in change t with v in H end; cbv iota beta in H;
      match type of H with (true, set_pf d ?p) = _ => assert (d' = set_pf d p) as -> by congruence end;
      vm_compute; repeat split; discriminate.
  - rewrite Hf in *. 
      match type of H with match ?t with _ => _ end = _ => let v := eval cbn in t in change t with v in H end; cbv iota beta in H.
      match type of H with (true, set_pf d ?p) = _ => assert (d' = set_pf d p) as -> by congruence end.
      vm_compute; repeat split.
Qed.
Print Assumptions C43_channel_masks.

(** Descriptions the header defines but FromLegacy refuses. *)
Theorem C43_refused : forall d, In (pf d) [DDSFormat_X8R8G8B8; DDSFormat_R8G8B8; DDSFormat_A4R4G4B4; DDSFormat_UYVY] ->
  FromLegacy d = (false, d).
Proof.
  intros d H. unfold FromLegacy. cbn [In] in H. decompose [or] H; try contradiction;
    match goal with K : _ = pf d |- _ => rewrite <- K end; reflexivity.
Qed.
Print Assumptions C43_refused.

(** *** The hypotheses are met *)
Example C42_case : ComputeBufferSize (DDS 0 256 512 10 DDSFormat_DXT5 0 0 0) =
  Some (174800, [(131072, 0); (32768, 131072); (8192, 163840); (2048, 172032); (512, 174080); (128, 174592);
                 (32, 174720); (16, 174752); (16, 174768); (16, 174784)]).
Proof. vm_compute. reflexivity. Qed.
Example C42_texture : texture (DDS 0 256 512 10 DDSFormat_DXT5 0 0 0) /\ small (DDS 0 256 512 10 DDSFormat_DXT5 0 0 0) 0.
Proof. unfold texture, small. cbn. lia. Qed.
Example C43_case : fst (ToLegacy false (DDS 0 4 4 1 DDSFormat_DX10 0 F_BC3_UNORM Premultiplied)) = true /\
  pf (snd (ToLegacy false (DDS 0 4 4 1 DDSFormat_DX10 0 F_BC3_UNORM Premultiplied))) = DDSFormat_DXT4 /\
  fst (ToLegacy true (DDS 0 4 4 1 DDSFormat_DX10 0 F_BC1_UNORM_SRGB 0)) = true /\
  fst (FromLegacy (DDS 0 4 4 1 DDSFormat_A8R8G8B8 0 0 0)) = true /\
  fst (ToLegacy true (DDS 0 4 4 1 DDSFormat_DX10 0 F_AYUV 0)) = false.
Proof. vm_compute. repeat split. Qed.
Example C42_legacy_case : ComputeBPP (DDS 0 4 4 1 (cc 111 0) 0 0 0) = Some (DDS 0 4 4 1 (cc 111 16) 0 0 0) /\
  fst (FromLegacy (DDS 0 4 4 1 (cc 111 0) 0 0 0)) = true.
Proof. vm_compute. auto. Qed.
