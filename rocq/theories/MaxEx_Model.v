(** Model of MAXex/MapsCore.h, CompositeTex.h, Mix.h, NormalBump.h, RGBMultiply.h, VertexColor.h and
    PhysicalMaterial.h: named accessors over the parameter blocks of 3ds Max.  The host program is
    modelled as far as its SDK documents it: a parameter block stores one value for each parameter number
    and table index. *)
From Coq Require Import Strings.Ascii Strings.String.
From Verif Require Import Base.
Local Open Scope string_scope.
Local Open Scope Z_scope.
Local Open Scope list_scope.

(** Values, by the type an accessor passes: int, float (its bits), Color, a pointer; enums go as int *)
Inductive ptype := TInt | TFloat | TColor | TPtr | TEnum.
Inductive pval := PInt (v : Z) | PFloat (bits : Z) | PColor (r g b : Z) | PPtr (p : Z).
Definition typed (t : ptype) (v : pval) : Prop :=
  match t, v with TInt, PInt _ | TEnum, PInt _ | TFloat, PFloat _ | TColor, PColor _ _ _ | TPtr, PPtr _ => True | _, _ => False end.

(** IParamBlock2: SetValue(id, 0, v, index) and GetValue(id, 0, v, ivalid, index); None: no value there,
    the variable passed to GetValue stays as it was, uninitialised *)
Definition block := Z -> Z -> option pval.
Definition SetValue (b : block) (id index : Z) (v : pval) : block :=
  fun i n => if ((i =? id) && (n =? index))%bool then Some v else b i n.
Definition GetValue (b : block) (id index : Z) : option pval := b id index.

(** A class: its Params_e enumeration, with the explicit values, and the accessors the ACCFUNC macros
    define *)
Record class := Class { params_e : list (string * option Z); accessors : list (string * ptype) }.
(** the numbers the compiler gives to enumerators *)
Fixpoint enum_values (next : Z) (l : list (string * option Z)) : list (string * Z) :=
  match l with
  | [] => []
  | (n, v) :: r => let v := match v with Some v => v | None => next end in (n, v) :: enum_values (v + 1) r
  end.
Definition lookup {A} (n : string) (l : list (string * A)) : option A := option_map snd (find (fun c => String.eqb (fst c) n) l).
(** MapsCore.h:6-13: ACCFUNC(fname, type) uses the enumerator e##fname; None: it does not compile *)
Definition param_id (c : class) (fname : string) : option Z := lookup ("e" ++ fname)%string (enum_values 0 (params_e c)).
(** MapsCore.h:19, through 6, 9 and 12; [index] is the member of the object (22), 0 (26) unless a layer *)
Definition set_acc (c : class) (fname : string) (index : Z) (b : block) (v : pval) : option block :=
  option_map (fun id => SetValue b id index v) (param_id c fname).
(** MapsCore.h:18, through 7, 10 and 13 *)
Definition get_acc (c : class) (fname : string) (index : Z) (b : block) : option pval :=
  match param_id c fname with Some id => GetValue b id index | None => None end.

(** CompositeTex.h:45-55, the parameters, and 60-66, the accessors *)
Definition Layer_c : class := Class
  [("eMapEnabled", Some 1); ("eMaskEnabled", Some 3); ("eBlendMode", Some 5); ("eName", None);
   ("eDialogOpened", None); ("eOpacity", None); ("eMap", None); ("eMask", None)]
  [("MapEnabled", TInt); ("MaskEnabled", TInt); ("BlendMode", TEnum); ("Name", TPtr); ("Opacity", TFloat);
   ("Map", TPtr); ("Mask", TPtr)].
(** Mix.h:6-21, the parameters, and 43-55, the accessors *)
Definition Mix_c : class := Class
  [("eMixAmmount", None); ("eLower", None); ("eUpper", None); ("eUseCurve", None); ("eColor1", None);
   ("eColor2", None); ("eMap1", None); ("eMap2", None); ("eMask", None); ("eMap1Active", None);
   ("eMap2Active", None); ("eMaskActive", None); ("eOutput", None)]
  [("MixAmmount", TFloat); ("Lower", TFloat); ("Upper", TFloat); ("UseCurve", TInt); ("Color1", TColor);
   ("Color2", TColor); ("Map1", TPtr); ("Map2", TPtr); ("Mask", TPtr); ("Map1Active", TInt); ("Map2Active", TInt);
   ("MaskActive", TInt); ("Output", TPtr)].
(** NormalBump.h:8-20, the parameters, and 40-49, the accessors *)
Definition NormalBump_c : class := Class
  [("eNormalAmmount", None); ("eBumpAmmount", None); ("eNormal", None); ("eBump", None); ("eNormalActive", None);
   ("eBumpActive", None); ("eMethod", None); ("eFlipX", None); ("eFlipY", None); ("eSwapXY", None)]
  [("Normal", TPtr); ("Bump", TPtr); ("NormalAmmount", TFloat); ("BumpAmmount", TFloat); ("NormalActive", TInt);
   ("BumpActive", TInt); ("Method", TEnum); ("FlipX", TInt); ("FlipY", TInt); ("SwapXY", TInt)].
(** RGBMultiply.h:6-15, the parameters, and 36-42, the accessors *)
Definition RGBMultiply_c : class := Class
  [("eColor1", None); ("eColor2", None); ("eMap1", None); ("eMap2", None); ("eMap1Active", None);
   ("eMap2Active", None); ("eAlphaFrom", None)]
  [("Color1", TColor); ("Color2", TColor); ("Map1", TPtr); ("Map2", TPtr); ("Map1Active", TInt);
   ("Map2Active", TInt); ("AlphaFrom", TEnum)].
(** VertexColor.h:6-10, the parameters, and 25-26, the accessors *)
Definition VertexColor_c : class := Class
  [("eUVChannel", None); ("eOutputColor", None)]
  [("UVChannel", TInt); ("OutputColor", TEnum)].
(** PhysicalMaterial.h:8-104, the parameters, and 169-237, the accessors *)
Definition PhysicalMaterial_c : class := Class
  [("eMaterialMode", None); ("eBaseWeight", None); ("eBaseColor", None); ("eReflectivity", None);
   ("eRoughness", None); ("eInvertRoughness", None); ("eMetalness", None); ("eReflectionColor", Some 10);
   ("eDiffRoughness", None); ("eBRDFMode", None); ("eBRDFLow", None); ("eBRDFHigh", None); ("eBRDFCurve", None);
   ("eAnisotropy", Some 20); ("eAnisotropyAngle", None); ("eAnisotropyMode", None); ("eAnisotropyChannel", None);
   ("eTransparency", Some 30); ("eTransparencyColor", None); ("eTransparencyDepth", None);
   ("eTransparencyRoughness", Some 35); ("eInvertTransparencyRoughness", None);
   ("eLockTransparencyRoughness", Some 34); ("eIOR", Some 33); ("eThinWalled", Some 37); ("eScattering", Some 40);
   ("eSSSColor", None); ("eSSSDepth", None); ("eSSSScale", None); ("eSSSScatterColor", None); ("eEmission", Some 50);
   ("eEmissionColor", None); ("eEmissionLuminance", None); ("eEmissionKelvin", Some 54); ("eCoating", Some 60);
   ("eCoatingColor", None); ("eCoatingRoughness", None); ("eInvertCoatingRoughness", None);
   ("eCoatingAffectColor", None); ("eCoatingAffectRoughness", None); ("eCoatingIOR", None);
   ("eBaseWeightMap", Some 100); ("eBaseColorMap", None); ("eReflectMap", None); ("eReflColorMap", None);
   ("eRoughnessMap", None); ("eMetalnessMap", None); ("eDiffRoughnessMap", None); ("eAnisotropyMap", None);
   ("eAnisoAngleMap", None); ("eTransparencyMap", None); ("eTransColorMap", None); ("eTransRoughnessMap", None);
   ("eIORMap", None); ("eScatteringMap", None); ("eSSSColorMap", None); ("sSSSScaleMap", None);
   ("eEmissionMap", None); ("eEmisionColorMap", None); ("eCoatingMap", None); ("eCoatingColorMap", None);
   ("eCoatingRoughnessMap", None); ("eBumpMap", Some 130); ("eCoatingBumpMap", None); ("eDisplacementMap", None);
   ("eCutoutMap", None); ("eBaseWeightMapActive", Some 150); ("eBaseColorMapActive", None);
   ("eReflectMapActive", None); ("eReflColorMapActive", None); ("eRoughnessMapActive", None);
   ("eMetalnessMapActive", None); ("eDiffRoughnessMapActive", None); ("eAnisotropyMapActive", None);
   ("eAnisoAngleMapActive", None); ("eTransparencyMapActive", None); ("eTransColorMapActive", None);
   ("eTransRoughnessMapActive", None); ("eIORMapActive", None); ("eScatteringMActiveap", None);
   ("eSSSColorMapActive", None); ("eSSSScaleMapActive", None); ("eEmissionMapActive", None);
   ("eEmisionColorMapActive", None); ("eCoatingMapActive", None); ("eCoatingColorMapActive", None);
   ("eCoatingRoughnessMapActive", None); ("eBumpMapActive", Some 180); ("eCoatingBumpMapActive", None);
   ("eDisplacementMapActive", None); ("eCutoutMapActive", None); ("eBumpMapAmmount", Some 230);
   ("eCoatingBumpMapAmmount", None); ("eDisplacementMapAmmount", None)]
  [("MaterialMode", TEnum); ("BaseWeight", TFloat); ("BaseColor", TColor); ("Reflectivity", TFloat);
   ("Roughness", TFloat); ("InvertRoughness", TInt); ("Metalness", TFloat); ("ReflectionColor", TColor);
   ("DiffRoughness", TFloat); ("BRDFMode", TEnum); ("BRDFLow", TFloat); ("BRDFHigh", TFloat); ("BRDFCurve", TFloat);
   ("Anisotropy", TFloat); ("AnisotropyAngle", TFloat); ("AnisotropyMode", TEnum); ("AnisotropyChannel", TInt);
   ("Transparency", TFloat); ("TransparencyColor", TColor); ("TransparencyDepth", TFloat);
   ("TransparencyRoughness", TFloat); ("InvertTransparencyRoughness", TInt); ("LockTransparencyRoughness", TInt);
   ("IOR", TFloat); ("ThinWalled", TInt); ("Scattering", TFloat); ("SSSColor", TColor); ("SSSDepth", TFloat);
   ("SSSScale", TFloat); ("SSSScatterColor", TColor); ("Emission", TFloat); ("EmissionColor", TColor);
   ("EmissionLuminance", TFloat); ("EmissionKelvin", TFloat); ("Coating", TFloat); ("CoatingColor", TColor);
   ("CoatingRoughness", TFloat); ("InvertCoatingRoughness", TInt); ("CoatingAffectColor", TFloat);
   ("CoatingAffectRoughness", TFloat); ("CoatingIOR", TFloat); ("BaseWeightMapActive", TInt);
   ("BaseColorMapActive", TInt); ("ReflectMapActive", TInt); ("ReflColorMapActive", TInt);
   ("RoughnessMapActive", TInt); ("MetalnessMapActive", TInt); ("DiffRoughnessMapActive", TInt);
   ("AnisotropyMapActive", TInt); ("AnisoAngleMapActive", TInt); ("TransparencyMapActive", TInt);
   ("TransColorMapActive", TInt); ("TransRoughnessMapActive", TInt); ("IORMapActive", TInt);
   ("ScatteringMActiveap", TInt); ("SSSColorMapActive", TInt); ("SSSScaleMapActive", TInt);
   ("EmissionMapActive", TInt); ("EmisionColorMapActive", TInt); ("CoatingMapActive", TInt);
   ("CoatingColorMapActive", TInt); ("CoatingRoughnessMapActive", TInt); ("BumpMapActive", TInt);
   ("CoatingBumpMapActive", TInt); ("DisplacementMapActive", TInt); ("CutoutMapActive", TInt);
   ("BumpMapAmmount", TFloat); ("CoatingBumpMapAmmount", TFloat); ("DisplacementMapAmmount", TFloat)].
(** PhysicalMaterial.h:121-148 *)
Definition Maps_e : list (string * option Z) :=
  [("BaseWeightMap", None); ("BaseColorMap", None); ("ReflectMap", None); ("ReflColorMap", None);
   ("RoughnessMap", None); ("MetalnessMap", None); ("DiffRoughnessMap", None); ("AnisotropyMap", None);
   ("AnisoAngleMap", None); ("TransparencyMap", None); ("TransColorMap", None); ("TransRoughnessMap", None);
   ("IORMap", None); ("ScatteringMap", None); ("SSSColorMap", None); ("SSSScaleMap", None); ("EmissionMap", None);
   ("EmissionColorMap", None); ("CoatingMap", None); ("CoatingColorMap", None); ("CoatingRoughnessMap", None);
   ("BumpMap", Some 30); ("CoatingBumpMap", None); ("DisplacementMap", None); ("CutoutMap", None)].
Definition classes : list class := [Layer_c; Mix_c; NormalBump_c; RGBMultiply_c; VertexColor_c; PhysicalMaterial_c].

(** a sequence of setter calls *)
Fixpoint sets (c : class) (b : block) (l : list (string * pval)) : option block :=
  match l with [] => Some b | (f, v) :: r => match set_acc c f 0 b v with Some b' => sets c b' r | None => None end end.
(** Mix.h:30-35 and 36-41, NormalBump.h:29-32, RGBMultiply.h:30-34: [b] is the block of the new map *)
Definition Mix_new (b : block) (map1 map2 mix : Z) : option block := sets Mix_c b [("Map1", PPtr map1); ("Map2", PPtr map2); ("MixAmmount", PFloat mix)]%string.
Definition Mix_new_mask (b : block) (map1 map2 mask : Z) : option block := sets Mix_c b [("Map1", PPtr map1); ("Map2", PPtr map2); ("Mask", PPtr mask)]%string.
Definition NormalBump_new (b : block) (input : Z) : option block := sets NormalBump_c b [("Normal", PPtr input)]%string.
Definition RGBMultiply_new (b : block) (map1 map2 : Z) : option block := sets RGBMultiply_c b [("Map1", PPtr map1); ("Map2", PPtr map2)]%string.

(** * CompositeTex: the host's layers, a list.  [fresh] is a layer as the host adds it; [odd] what the
    host does when told to delete a layer it has not. *)
Section Composite.
  Context {layer : Type} (fresh : layer) (odd : list layer -> Z -> list layer).
  Definition host_delete (l : list layer) (i : Z) : list layer :=
    if ((0 <=? i) && (i <? Z.of_nat (length l)))%bool then (firstn (Z.to_nat i) l ++ skipn (Z.to_nat i + 1) l)%list else odd l i.
  (** CompositeTex.h:84 *)
  Definition NumLayers (l : list layer) : Z := Z.of_nat (length l).
  (** CompositeTex.h:85; the layers and the index of the layer returned *)
  Definition AddLayer (l : list layer) : list layer * Z := let l' := (l ++ [fresh])%list in (l', NumLayers l' - 1).
  (** CompositeTex.h:86-103, built with NDEBUG *)
  Definition DeleteLayer (l : list layer) (index : Z) : list layer :=
    let numLayers := NumLayers l in
    if ((index <? 1) && (numLayers =? 1))%bool then l
    else if index >=? numLayers then l
    else host_delete l index.
  Fixpoint add_n (n : nat) (l : list layer) : list layer := match n with O => l | S m => add_n m (fst (AddLayer l)) end.
  (** the loop at 132-133: t from [t], [n] turns left *)
  Fixpoint del_n (n : nat) (t total : Z) (l : list layer) : list layer :=
    match n with O => l | S m => del_n m (t + 1) total (DeleteLayer l (total - t)) end.
  (** CompositeTex.h:108-135 *)
  Definition Resize (l : list layer) (newSize : Z) : list layer :=
    if newSize <? 1 then l
    else
      let numLayers := newSize - NumLayers l in
      if numLayers =? 0 then l
      else if 0 <? numLayers then add_n (Z.to_nat numLayers) l
      else del_n (Z.to_nat (- numLayers)) 1 (NumLayers l) l.
End Composite.
