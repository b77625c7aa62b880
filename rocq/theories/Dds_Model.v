(** Model of the DDS header code, formats/DDS.hpp (all functions except operator= templates, which
    copy a base).  Numbers are uint32; [None] is an access outside an array. *)
From Coq Require Import String Ascii.
From Verif Require Import Base Flags_Model.
Local Open Scope Z_scope.

(** enum DXGI_FORMAT, formats/DDS.hpp:23-144: the enumerators in order, without their common prefix;
    an enumerator's value is its position. *)
Definition format_names : list string := [
  "UNKNOWN"; "R32G32B32A32_TYPELESS"; "R32G32B32A32_FLOAT"; "R32G32B32A32_UINT"; "R32G32B32A32_SINT";
  "R32G32B32_TYPELESS"; "R32G32B32_FLOAT"; "R32G32B32_UINT"; "R32G32B32_SINT"; "R16G16B16A16_TYPELESS";
  "R16G16B16A16_FLOAT"; "R16G16B16A16_UNORM"; "R16G16B16A16_UINT"; "R16G16B16A16_SNORM"; "R16G16B16A16_SINT";
  "R32G32_TYPELESS"; "R32G32_FLOAT"; "R32G32_UINT"; "R32G32_SINT"; "R32G8X24_TYPELESS";
  "D32_FLOAT_S8X24_UINT"; "R32_FLOAT_X8X24_TYPELESS"; "X32_TYPELESS_G8X24_UINT"; "R10G10B10A2_TYPELESS"; "R10G10B10A2_UNORM";
  "R10G10B10A2_UINT"; "R11G11B10_FLOAT"; "R8G8B8A8_TYPELESS"; "R8G8B8A8_UNORM"; "R8G8B8A8_UNORM_SRGB";
  "R8G8B8A8_UINT"; "R8G8B8A8_SNORM"; "R8G8B8A8_SINT"; "R16G16_TYPELESS"; "R16G16_FLOAT";
  "R16G16_UNORM"; "R16G16_UINT"; "R16G16_SNORM"; "R16G16_SINT"; "R32_TYPELESS";
  "D32_FLOAT"; "R32_FLOAT"; "R32_UINT"; "R32_SINT"; "R24G8_TYPELESS";
  "D24_UNORM_S8_UINT"; "R24_UNORM_X8_TYPELESS"; "X24_TYPELESS_G8_UINT"; "R8G8_TYPELESS"; "R8G8_UNORM";
  "R8G8_UINT"; "R8G8_SNORM"; "R8G8_SINT"; "R16_TYPELESS"; "R16_FLOAT";
  "D16_UNORM"; "R16_UNORM"; "R16_UINT"; "R16_SNORM"; "R16_SINT";
  "R8_TYPELESS"; "R8_UNORM"; "R8_UINT"; "R8_SNORM"; "R8_SINT";
  "A8_UNORM"; "R1_UNORM"; "R9G9B9E5_SHAREDEXP"; "R8G8_B8G8_UNORM"; "G8R8_G8B8_UNORM";
  "BC1_TYPELESS"; "BC1_UNORM"; "BC1_UNORM_SRGB"; "BC2_TYPELESS"; "BC2_UNORM";
  "BC2_UNORM_SRGB"; "BC3_TYPELESS"; "BC3_UNORM"; "BC3_UNORM_SRGB"; "BC4_TYPELESS";
  "BC4_UNORM"; "BC4_SNORM"; "BC5_TYPELESS"; "BC5_UNORM"; "BC5_SNORM";
  "B5G6R5_UNORM"; "B5G5R5A1_UNORM"; "B8G8R8A8_UNORM"; "B8G8R8X8_UNORM"; "R10G10B10_XR_BIAS_A2_UNORM";
  "B8G8R8A8_TYPELESS"; "B8G8R8A8_UNORM_SRGB"; "B8G8R8X8_TYPELESS"; "B8G8R8X8_UNORM_SRGB"; "BC6H_TYPELESS";
  "BC6H_UF16"; "BC6H_SF16"; "BC7_TYPELESS"; "BC7_UNORM"; "BC7_UNORM_SRGB";
  "AYUV"; "Y410"; "Y416"; "NV12"; "P010";
  "P016"; "420_OPAQUE"; "YUY2"; "Y210"; "Y216";
  "NV11"; "AI44"; "IA44"; "P8"; "A8P8";
  "B4G4R4A4_UNORM"; "P208"; "V208"; "V408"; "FORCE_UINT" ]%string.
(** The values used by the code below. *)
Definition F_UNKNOWN : Z := 0.
Definition F_R32G32B32A32_TYPELESS : Z := 1.
Definition F_R32G32B32A32_FLOAT : Z := 2.
Definition F_R32G32B32_TYPELESS : Z := 5.
Definition F_R16G16B16A16_TYPELESS : Z := 9.
Definition F_R16G16B16A16_FLOAT : Z := 10.
Definition F_R16G16B16A16_UNORM : Z := 11.
Definition F_R16G16B16A16_SNORM : Z := 13.
Definition F_R32G32_FLOAT : Z := 16.
Definition F_X32_TYPELESS_G8X24_UINT : Z := 22.
Definition F_R10G10B10A2_TYPELESS : Z := 23.
Definition F_R10G10B10A2_UNORM : Z := 24.
Definition F_R8G8B8A8_UNORM : Z := 28.
Definition F_R8G8B8A8_UNORM_SRGB : Z := 29.
Definition F_R16G16_FLOAT : Z := 34.
Definition F_R16G16_UNORM : Z := 35.
Definition F_R32_FLOAT : Z := 41.
Definition F_X24_TYPELESS_G8_UINT : Z := 47.
Definition F_R8G8_TYPELESS : Z := 48.
Definition F_R8G8_UNORM : Z := 49.
Definition F_R16_FLOAT : Z := 54.
Definition F_D16_UNORM : Z := 55.
Definition F_R16_UNORM : Z := 56.
Definition F_R16_SINT : Z := 59.
Definition F_R8_UNORM : Z := 61.
Definition F_A8_UNORM : Z := 65.
Definition F_R1_UNORM : Z := 66.
Definition F_R9G9B9E5_SHAREDEXP : Z := 67.
Definition F_R8G8_B8G8_UNORM : Z := 68.
Definition F_G8R8_G8B8_UNORM : Z := 69.
Definition F_BC1_TYPELESS : Z := 70.
Definition F_BC1_UNORM : Z := 71.
Definition F_BC1_UNORM_SRGB : Z := 72.
Definition F_BC2_TYPELESS : Z := 73.
Definition F_BC2_UNORM : Z := 74.
Definition F_BC2_UNORM_SRGB : Z := 75.
Definition F_BC3_TYPELESS : Z := 76.
Definition F_BC3_UNORM : Z := 77.
Definition F_BC3_UNORM_SRGB : Z := 78.
Definition F_BC4_TYPELESS : Z := 79.
Definition F_BC4_UNORM : Z := 80.
Definition F_BC4_SNORM : Z := 81.
Definition F_BC5_TYPELESS : Z := 82.
Definition F_BC5_UNORM : Z := 83.
Definition F_BC5_SNORM : Z := 84.
Definition F_B5G6R5_UNORM : Z := 85.
Definition F_B5G5R5A1_UNORM : Z := 86.
Definition F_B8G8R8A8_UNORM : Z := 87.
Definition F_B8G8R8X8_UNORM : Z := 88.
Definition F_B8G8R8A8_UNORM_SRGB : Z := 91.
Definition F_B8G8R8X8_UNORM_SRGB : Z := 93.
Definition F_BC6H_TYPELESS : Z := 94.
Definition F_BC6H_UF16 : Z := 95.
Definition F_BC6H_SF16 : Z := 96.
Definition F_BC7_TYPELESS : Z := 97.
Definition F_BC7_UNORM : Z := 98.
Definition F_BC7_UNORM_SRGB : Z := 99.
Definition F_AYUV : Z := 100.
Definition F_P016 : Z := 105.
Definition F_YUY2 : Z := 107.
Definition F_Y216 : Z := 109.
Definition F_B4G4R4A4_UNORM : Z := 115.

(** _bpps, :175-182 *)
Definition bpps : list Z := [
  0; 128; 128; 128; 128; 96; 96; 96; 96; 64; 64; 64; 64; 64; 64; 64; 64; 64; 64; 64;
  64; 64; 64; 32; 32; 32; 32; 32; 32; 32; 32; 32; 32; 32; 32; 32; 32; 32; 32; 32;
  32; 32; 32; 32; 32; 32; 32; 32; 16; 16; 16; 16; 16; 16; 16; 16; 16; 16; 16; 16;
  8; 8; 8; 8; 8; 8; 1; 32; 32; 32; 4; 4; 4; 8; 8; 8; 8; 8; 8; 4;
  4; 4; 8; 8; 8; 16; 16; 32; 32; 32; 32; 32; 32; 32; 8; 8; 8; 8; 8; 8;
  32; 32; 64; 12; 32; 64; 32; 32; 32; 64; 0; 0; 0; 0; 0; 16; 0; 0; 0; 0 ].

(** IsBC, :146-173 *)
Definition IsBC (fmt : Z) : bool := existsb (Z.eqb fmt) [
  F_BC1_TYPELESS; F_BC1_UNORM; F_BC1_UNORM_SRGB; F_BC2_TYPELESS; F_BC2_UNORM; F_BC2_UNORM_SRGB; F_BC3_TYPELESS; F_BC3_UNORM; F_BC3_UNORM_SRGB; F_BC4_TYPELESS; F_BC4_UNORM; F_BC4_SNORM; F_BC5_TYPELESS; F_BC5_UNORM; F_BC5_SNORM; F_BC6H_TYPELESS; F_BC6H_UF16; F_BC6H_SF16; F_BC7_TYPELESS; F_BC7_UNORM; F_BC7_UNORM_SRGB ].

(** CompileFourCC of a literal, datas/supercore.hpp (C09); evaluated at compile time *)
Fixpoint fourcc (s : string) : Z :=
  match s with EmptyString => 0 | String c r => Z.of_N (N_of_ascii c) + 256 * fourcc r end.
Arguments fourcc _%string.

(** DDS_PixelFormat, :262-301 *)
Record pixel_format := PF { pfSize : Z; pfFlags : Z; fourCC : Z; bpp : Z; RMask : Z; GMask : Z; BMask : Z; AMask : Z }.
(** the constructors :286-292; flags are given by their bit numbers *)
Definition cc (code bits : Z) : pixel_format := PF 32 (2 ^ 2) code bits 0 0 0 0.
Definition masks (flags : Z) (bits r g b a : Z) : pixel_format := PF 32 flags 0 bits r g b a.
Definition RGB_ : Z := 2 ^ 6.
Definition RGBA_ : Z := 2 ^ 6 + 2 ^ 0.
Definition LUM_ : Z := 2 ^ 17.
Definition LUMA_ : Z := 2 ^ 17 + 2 ^ 0.
Definition ALPHA_ : Z := 2 ^ 1.
(** operator==, :294-299 (pfSize is not compared) *)
Definition same_format (x y : pixel_format) : bool :=
  (pfFlags x =? pfFlags y) && (fourCC x =? fourCC y) && (bpp x =? bpp y) && (RMask x =? RMask y) &&
  (GMask x =? GMask y) && (BMask x =? BMask y) && (AMask x =? AMask y).

(** the constants :303-360 *)
Definition DDSFormat_DXT1 := cc (fourcc "DXT1") 4.
Definition DDSFormat_DXT2 := cc (fourcc "DXT2") 8.
Definition DDSFormat_DXT3 := cc (fourcc "DXT3") 8.
Definition DDSFormat_DXT4 := cc (fourcc "DXT4") 8.
Definition DDSFormat_DXT5 := cc (fourcc "DXT5") 8.
Definition DDSFormat_BC4U := cc (fourcc "BC4U") 4.
Definition DDSFormat_BC4S := cc (fourcc "BC4S") 4.
Definition DDSFormat_BC5U := cc (fourcc "BC5U") 8.
Definition DDSFormat_BC5S := cc (fourcc "BC5S") 8.
Definition DDSFormat_R8G8_B8G8 := cc (fourcc "RBGB") 32.
Definition DDSFormat_G8R8_G8B8 := cc (fourcc "GRGB") 32.
Definition DDSFormat_UYVY := cc (fourcc "UYVY") 32.
Definition DDSFormat_YUY2 := cc (fourcc "YUY2") 32.
Definition DDSFormat_ATI1 := cc (fourcc "ATI1") 4.
Definition DDSFormat_ATI2 := cc (fourcc "ATI2") 8.
Definition DDSFormat_DX10 := cc (fourcc "DX10") 0.
Definition DDSFormat_A2B10G10R10 := masks RGBA_ 32 1023 1047552 1072693248 0.
Definition DDSFormat_A8R8G8B8 := masks RGBA_ 32 16711680 65280 255 4278190080.
Definition DDSFormat_A1R5G5B5 := masks RGBA_ 16 31744 992 31 32768.
Definition DDSFormat_A4R4G4B4 := masks RGBA_ 16 3840 240 15 61440.
Definition DDSFormat_A8L8 := masks LUMA_ 16 255 0 0 65280.
Definition DDSFormat_X8R8G8B8 := masks RGB_ 32 16711680 65280 255 0.
Definition DDSFormat_G16R16 := masks RGB_ 32 65535 4294901760 0 0.
Definition DDSFormat_R8G8B8 := masks RGB_ 24 16711680 65280 255 0.
Definition DDSFormat_R5G6B5 := masks RGB_ 16 63488 2016 31 0.
Definition DDSFormat_L16 := masks LUM_ 16 65535 0 0 0.
Definition DDSFormat_L8 := masks LUM_ 8 255 0 0 0.
Definition DDSFormat_A8 := masks ALPHA_ 8 0 0 0 255.
(** the unnamed ones, :629-650 and :773-794 *)
Definition fmt_ABGR8 := masks RGBA_ 32 255 65280 16711680 4278190080.
Definition fmt_XBGR8 := masks RGBA_ 32 255 65280 16711680 0.
Definition fmt_ABGR4 := masks RGBA_ 16 15 240 3840 61440.

(** The whole header: DDS_Header :211-235, DDS_HeaderEnd :237-260, DDS_HeaderDX10 :362-387; the
    fields no function touches are left out. *)
Record dds := DDS { flags : Z; height : Z; width : Z; mipMapCount : Z; pf : pixel_format; caps00 : Z;
                    dxgiFormat : Z; alphaMode : Z }.
Definition set_pf (d : dds) (p : pixel_format) : dds :=
  DDS (flags d) (height d) (width d) (mipMapCount d) p (caps00 d) (dxgiFormat d) (alphaMode d).
Definition set_bpp (d : dds) (b : Z) : dds :=
  let p := pf d in set_pf d (PF (pfSize p) (pfFlags p) (fourCC p) b (RMask p) (GMask p) (BMask p) (AMask p)).
Definition set_dxgi (d : dds) (f : Z) : dds :=
  DDS (flags d) (height d) (width d) (mipMapCount d) (pf d) (caps00 d) f (alphaMode d).
Definition set_alpha (d : dds) (a : Z) : dds :=
  DDS (flags d) (height d) (width d) (mipMapCount d) (pf d) (caps00 d) (dxgiFormat d) a.
Definition Premultiplied : Z := 2.

(** NumMipmaps, :400-407 *)
Definition NumMipmaps (num : Z) (d : dds) : option dds :=
  let uses := 1 <? num in
  match Flags_set 32 (caps00 d) 3 uses with
  | None => None
  | Some c => match Flags_set 32 c 22 uses with
    | None => None
    | Some c' => match Flags_set 32 (flags d) 17 uses with
      | None => None
      | Some f => Some (DDS f (height d) (width d) (u32 num) (pf d) c' (dxgiFormat d) (alphaMode d))
      end end end.

Definition is (x : Z) (l : list Z) : bool := existsb (Z.eqb x) l.
(** ComputeBPP, :409-457; [None]: the format is no index of the table *)
Definition ComputeBPP (d : dds) : option dds :=
  let p := pf d in
  if negb (bpp p =? 0) then Some d
  else if same_format p DDSFormat_DX10 then
    match nth_error bpps (Z.to_nat (dxgiFormat d)) with Some b => Some (set_bpp d b) | None => None end
  else
    Some (if is (fourCC p) [36; 110; 113; 115] then set_bpp d 64
          else if is (fourCC p) [111] then set_bpp d 16
          else if is (fourCC p) [112; 114; fourcc "RBGB"; fourcc "GRGB"; fourcc "YUY2"] then set_bpp d 32
          else if is (fourCC p) [116] then set_bpp d 128
          else if is (fourCC p) [fourcc "DXT1"; fourcc "BC4U"; fourcc "ATI1"; fourcc "BC4S"] then set_bpp d 4
          else if is (fourCC p) [fourcc "DXT2"; fourcc "DXT3"; fourcc "DXT4"; fourcc "DXT5"; fourcc "BC5U"; fourcc "ATI2"; fourcc "BC5S"] then set_bpp d 8
          else d).

(** the switches of ComputeBufferSize, :475-514 *)
Definition useBlockCompression (d : dds) : bool :=
  if negb (dxgiFormat d =? 0) then is (dxgiFormat d) [
    F_BC1_UNORM; F_BC1_UNORM_SRGB; F_BC2_UNORM; F_BC2_UNORM_SRGB; F_BC3_UNORM; F_BC3_UNORM_SRGB; F_BC4_UNORM; F_BC4_SNORM; F_BC5_UNORM; F_BC5_SNORM; F_BC6H_UF16; F_BC6H_SF16; F_BC7_UNORM; F_BC7_UNORM_SRGB ]
  else is (fourCC (pf d)) [
    fourcc "DXT1"; fourcc "DXT2"; fourcc "DXT3"; fourcc "DXT4"; fourcc "DXT5"; fourcc "BC4U"; fourcc "ATI1"; fourcc "BC4S"; fourcc "BC5U"; fourcc "ATI2"; fourcc "BC5S" ].
(** the loop :516-529: level [m], the remaining number of levels, running width, height and total;
    result: the total and the (size, offset) pairs stored; storing at index 15 or more is [None] *)
Fixpoint mip_loop (block : bool) (bits : Z) (fuel : nat) (m : Z) (w h total : Z) : option (Z * list (Z * Z)) :=
  match fuel with
  | O => Some (total, [])
  | S fuel' =>
    if 15 <=? m then None
    else
      let '(w', h') := if block && (u32 (w * h) <? 16) then (4, 4) else (w, h) in
      let size := u32 (u32 (u32 (w' * h') * bits) + 7) / 8 in
      match mip_loop block bits fuel' (m + 1) (w / 2) (h / 2) (u32 (total + size)) with
      | None => None
      | Some (t, l) => Some (t, (size, total) :: l)
      end
  end.
(** ComputeBufferSize, :465-532 *)
Definition ComputeBufferSize (d : dds) : option (Z * list (Z * Z)) :=
  if bpp (pf d) =? 0 then Some (0, [])
  else
    let count := if mipMapCount d =? 0 then 1 else mipMapCount d in
    mip_loop (useBlockCompression d) (bpp (pf d)) (Z.to_nat count) 0 (width d) (height d) 0.

(** The first switch of FromLegacy, :537-604: the format for a fourCC, and whether the alpha is
    premultiplied *)
Definition from_fourcc (c : Z) : option (Z * bool) :=
  if is c [36] then Some (F_R16G16B16A16_UNORM, false) else
  if is c [110] then Some (F_R16G16B16A16_SNORM, false) else
  if is c [111] then Some (F_R16_FLOAT, false) else
  if is c [112] then Some (F_R16G16_FLOAT, false) else
  if is c [113] then Some (F_R16G16B16A16_FLOAT, false) else
  if is c [114] then Some (F_R32_FLOAT, false) else
  if is c [115] then Some (F_R32G32_FLOAT, false) else
  if is c [116] then Some (F_R32G32B32A32_FLOAT, false) else
  if is c [fourcc "DXT1"] then Some (F_BC1_UNORM, false) else
  if is c [fourcc "DXT2"] then Some (F_BC2_UNORM, true) else
  if is c [fourcc "DXT3"] then Some (F_BC2_UNORM, false) else
  if is c [fourcc "DXT4"] then Some (F_BC3_UNORM, true) else
  if is c [fourcc "DXT5"] then Some (F_BC3_UNORM, false) else
  if is c [fourcc "BC4U"; fourcc "ATI1"] then Some (F_BC4_UNORM, false) else
  if is c [fourcc "BC4S"] then Some (F_BC4_SNORM, false) else
  if is c [fourcc "BC5U"; fourcc "ATI2"] then Some (F_BC5_UNORM, false) else
  if is c [fourcc "BC5S"] then Some (F_BC5_SNORM, false) else
  if is c [fourcc "RBGB"] then Some (F_R8G8_B8G8_UNORM, false) else
  if is c [fourcc "GRGB"] then Some (F_G8R8_G8B8_UNORM, false) else
  if is c [fourcc "YUY2"] then Some (F_YUY2, false) else
  None.
(** the comparisons :611-649 *)
Definition from_masks (p : pixel_format) : option Z :=
  if same_format p DDSFormat_A2B10G10R10 then Some F_R10G10B10A2_UNORM else
  if same_format p DDSFormat_A8R8G8B8 then Some F_R8G8B8A8_UNORM else
  if same_format p DDSFormat_G16R16 then Some F_R16G16_UNORM else
  if same_format p DDSFormat_A8 then Some F_A8_UNORM else
  if same_format p DDSFormat_R5G6B5 then Some F_B5G6R5_UNORM else
  if same_format p DDSFormat_A1R5G5B5 then Some F_B5G5R5A1_UNORM else
  if same_format p DDSFormat_A8L8 then Some F_R8G8_UNORM else
  if same_format p DDSFormat_L16 then Some F_R16_UNORM else
  if same_format p DDSFormat_L8 then Some F_R8_UNORM else
  if same_format p fmt_ABGR8 then Some F_B8G8R8A8_UNORM else
  if same_format p fmt_XBGR8 then Some F_B8G8R8X8_UNORM else
  if same_format p fmt_ABGR4 then Some F_B4G4R4A4_UNORM else
  None.
(** FromLegacy, :534-655; the flag is its result being zero *)
Definition FromLegacy (d : dds) : bool * dds :=
  match from_fourcc (fourCC (pf d)) with
  | Some (f, pre) =>
    let d1 := set_dxgi d f in
    (true, set_pf (if pre then set_alpha d1 Premultiplied else d1) DDSFormat_DX10)
  | None =>
    match from_masks (pf d) with
    | Some f => (true, set_pf (set_dxgi d f) DDSFormat_DX10)
    | None => (false, d)
    end
  end.

(** The first switch of ToLegacy, :660-743 *)
Definition to_legacy1 (f alpha : Z) : option pixel_format :=
  if is f [F_R16G16B16A16_UNORM] then Some (cc 36 64) else
  if is f [F_R16G16B16A16_SNORM] then Some (cc 110 64) else
  if is f [F_R16G16B16A16_FLOAT] then Some (cc 113 64) else
  if is f [F_R10G10B10A2_UNORM] then Some DDSFormat_A2B10G10R10 else
  if is f [F_R8G8B8A8_UNORM] then Some DDSFormat_A8R8G8B8 else
  if is f [F_R16G16_UNORM] then Some DDSFormat_G16R16 else
  if is f [F_R16_FLOAT] then Some (cc 111 16) else
  if is f [F_R16G16_FLOAT] then Some (cc 112 32) else
  if is f [F_R32_FLOAT] then Some (cc 114 32) else
  if is f [F_R32G32_FLOAT] then Some (cc 115 64) else
  if is f [F_R32G32B32A32_FLOAT] then Some (cc 116 128) else
  if is f [F_A8_UNORM] then Some DDSFormat_A8 else
  if is f [F_R8G8_B8G8_UNORM] then Some DDSFormat_R8G8_B8G8 else
  if is f [F_G8R8_G8B8_UNORM] then Some DDSFormat_G8R8_G8B8 else
  if is f [F_BC1_UNORM] then Some DDSFormat_DXT1 else
  if is f [F_BC2_UNORM] then Some (if alpha =? Premultiplied then DDSFormat_DXT2 else DDSFormat_DXT3) else
  if is f [F_BC3_UNORM] then Some (if alpha =? Premultiplied then DDSFormat_DXT4 else DDSFormat_DXT5) else
  if is f [F_BC4_UNORM] then Some DDSFormat_BC4U else
  if is f [F_BC4_SNORM] then Some DDSFormat_BC4S else
  if is f [F_BC5_UNORM] then Some DDSFormat_ATI2 else
  if is f [F_BC5_SNORM] then Some DDSFormat_BC5S else
  if is f [F_B5G6R5_UNORM] then Some DDSFormat_R5G6B5 else
  if is f [F_B5G5R5A1_UNORM] then Some DDSFormat_A1R5G5B5 else
  if is f [F_YUY2] then Some DDSFormat_YUY2 else
  None.
(** the second, for forceIncompatibilities, :746-799 *)
Definition to_legacy2 (f : Z) : option pixel_format :=
  if is f [F_R8G8B8A8_UNORM_SRGB] then Some DDSFormat_A8R8G8B8 else
  if is f [F_R8G8_UNORM] then Some DDSFormat_A8L8 else
  if is f [F_D16_UNORM; F_R16_UNORM] then Some DDSFormat_L16 else
  if is f [F_R8_UNORM] then Some DDSFormat_L8 else
  if is f [F_BC1_UNORM_SRGB] then Some DDSFormat_DXT1 else
  if is f [F_BC2_UNORM_SRGB] then Some DDSFormat_DXT3 else
  if is f [F_BC3_UNORM_SRGB] then Some DDSFormat_DXT5 else
  if is f [F_B8G8R8A8_UNORM; F_B8G8R8A8_UNORM_SRGB] then Some fmt_ABGR8 else
  if is f [F_B8G8R8X8_UNORM; F_B8G8R8X8_UNORM_SRGB] then Some fmt_XBGR8 else
  if is f [F_B4G4R4A4_UNORM] then Some fmt_ABGR4 else
  None.
(** ToLegacy, :657-802 *)
Definition ToLegacy (force : bool) (d : dds) : bool * dds :=
  match to_legacy1 (dxgiFormat d) (alphaMode d) with
  | Some p => (true, set_pf d p)
  | None =>
    match (if force then to_legacy2 (dxgiFormat d) else None) with
    | Some p => (true, set_pf d p)
    | None => (false, d)
    end
  end.
