(** Model of SaveHKPreset, MAXex/hk_preset.hpp:40-60, on the document model of XmlRefl_Model.  The object scale and
    the elements of the correction matrix are single precision patterns. *)
From Coq Require Import Strings.Ascii Strings.String.
From Verif Require Import Base FileInfo_Model StringView_Model Reflector_Model XmlRefl_Model FloatText_Model NodeName_Model.
Local Open Scope list_scope.

Definition characters (s : string) : list Z := map (fun c => Z.of_nat (nat_of_ascii c)) (list_ascii_of_string s).
(** the comparisons of a float with zero, hk_preset.hpp:27-28: != 0.0f and < 0.0f; a nan is different from zero and not below it *)
Definition sign3 (w : Z) : sgn3 :=
  if (exp_field single w =? 0) && (frac_field single w =? 0) then Nul
  else if (exp_field single w =? 255) && negb (frac_field single w =? 0) then Pos
  else if sign_of single w then Neg else Pos.
Definition signs (m : list (list Z)) : option (row * row * row) :=
  match m with
  | [[a; b; c]; [d; e; f]; [g; h; i]] => Some ((sign3 a, sign3 b, sign3 c), (sign3 d, sign3 e, sign3 f), (sign3 g, sign3 h, sign3 i))
  | _ => None
  end.
(** snprintf into tmpBuffer_[0x10], hk_preset.hpp:46-47: at most 15 characters (GetFloat is %.6g for single precision) *)
Definition scale_text (w : Z) : list Z := firstn 15 (GetFloat single w).
(** hk_preset.hpp:40-60; None: text that append_buffer would take for markup, or not a 3x3 matrix *)
Definition SaveHKPreset (objectScale : Z) (corMat : list (list Z)) (presetName : list Z) (extensions : list (list Z)) (node : xml) : option xml :=
  match append_buffer (scale_text objectScale), option_map GetCorrectionMatrix (signs corMat) with
  | Some s, Some t =>
    match append_buffer t with
    | Some m =>
      Some (Elem (xname node) (xattrs node) (xkids node ++
        [Elem (characters "HavokPreset") [(characters "name", c_string presetName)]
           [Elem (characters "scale") [] s; Elem (characters "matrix") [] m;
            Elem (characters "extensions") [] (map (fun e => Elem (c_string e) [] []) extensions)]]))
    | None => None
    end
  | _, _ => None
  end.
