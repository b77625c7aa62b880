(** What the names of the legacy pixel formats and of the video formats say (C42, C43). *)
From Coq Require Import String Ascii.
From Verif Require Import Base.
Local Open Scope Z_scope.

(** A legacy name lists its channels and their bits from the most significant ones down: A1R5G5B5 is alpha 1, red 5, green 5,
    blue 5.  [channels]: letters and bits in that order. *)
Definition digit_of (c : ascii) : option Z :=
  let n := Z.of_N (N_of_ascii c) in if (48 <=? n) && (n <=? 57) then Some (n - 48) else None.
Fixpoint channels (s : string) (cur : option (ascii * Z)) : list (ascii * Z) :=
  let done := match cur with Some p => [p] | None => [] end in
  match s with
  | EmptyString => done
  | String c r =>
    match digit_of c, cur with
    | Some d, Some (l, n) => channels r (Some (l, 10 * n + d))
    | _, _ => done ++ channels r (Some (c, 0))
    end
  end.
Definition channels_of (name : string) : list (ascii * Z) := channels name None.
Definition bits_of (l : list (ascii * Z)) : Z := fold_right (fun p n => snd p + n) 0 l.
(** the bits of channel [c]: those below it are the ones named after it *)
Fixpoint legacy_mask (c : ascii) (l : list (ascii * Z)) : Z :=
  match l with
  | [] => 0
  | (x, n) :: r => (if Ascii.eqb x c then (2 ^ n - 1) * 2 ^ bits_of r else 0) + legacy_mask c r
  end.
Definition has (c : ascii) (l : list (ascii * Z)) : bool := existsb (fun p => Ascii.eqb (fst p) c) l.
(** DDPF_ALPHAPIXELS, DDPF_ALPHA, DDPF_FOURCC, DDPF_RGB, DDPF_LUMINANCE of the DDS file format *)
Definition legacy_flags (l : list (ascii * Z)) : Z :=
  if has "R" l then 0x40 + (if has "A" l then 0x1 else 0)
  else if has "L" l then 0x20000 + (if has "A" l then 0x1 else 0)
  else 0x2.

Definition text (s : string) : list Z := map (fun c => Z.of_N (N_of_ascii c)) (list_ascii_of_string s).

(** The video formats: the bits a sample is kept in, and how many samples there are for two texels. *)
Definition s4444 := 8. Definition s444 := 6. Definition s422 := 4. Definition s420 := 3. Definition s411 := 3. Definition s400 := 2.
Definition video : list (string * Z * Z) :=
  [("AYUV", 8, s4444); ("Y416", 16, s4444); ("NV12", 8, s420); ("P010", 16, s420); ("P016", 16, s420); ("420_OPAQUE", 8, s420);
   ("YUY2", 8, s422); ("Y210", 16, s422); ("Y216", 16, s422); ("NV11", 8, s411); ("AI44", 8, s400); ("IA44", 8, s400); ("P8", 8, s400);
   ("A8P8", 16, s400); ("P208", 8, s422); ("V208", 8, s422); ("V408", 8, s444)]%string.
(** Y410 packs three times ten and two bits *)
Definition video_bits (name : string) : option Z :=
  if String.eqb name "Y410" then Some (10 + 10 + 10 + 2)
  else match List.find (fun p => String.eqb (fst (fst p)) name) video with
       | Some (_, bits, samples) => Some (bits * samples / 2)
       | None => None
       end.
