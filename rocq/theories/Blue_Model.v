(** Model of ComputeBC5Blue, formats/BlockDecoder.h:46-65. *)
From Verif Require Import Base Reflector_Model Float_Model.

(** Convert<float>() * (2.0f / UCHAR_MAX) - 1.f, :48-51, one component *)
Definition component (a : Z) : f32 := fsub (fmul (of_int a) (fdiv (of_int 2) (of_int 255))) (of_int 1).
(** :53-60; datas/vectors.hpp:126 (Dot) *)
Definition zcomp (a b : Z) : f32 :=
  let d := fadd (fmul (component a) (component a)) (fmul (component b) (component b)) in
  let z := if flt (of_int 1) d then of_int 1 else if flt d (of_int 0) then of_int 0 else d in
  fsqrt (fsub (of_int 1) z).
(** static_cast<char>(f), :62: out of the range of char is undefined; the stored byte *)
Definition to_char (char_signed : bool) (f : f32) : option Z :=
  match trunc f with
  | Some v => if (if char_signed then (-128 <=? v) && (v <? 128) else (0 <=? v) && (v <? 256)) then Some (u8 v) else None
  | None => None
  end.
Definition blue (char_signed : bool) (a b : Z) : option Z :=
  to_char char_signed (fmul (fadd (zcomp a b) (of_int 1)) (of_int 127)).
(** the loop over the pixels, :47; [fuel] bounds the iterations, running out is [None] *)
Fixpoint blue_loop (cs : bool) (fuel : nat) (p size : Z) (buf : list Z) : option (list Z) :=
  if p <? size then
    match fuel with
    | O => None
    | S fuel' =>
      match nth_error buf (Z.to_nat (p + 1)), nth_error buf (Z.to_nat (p + 2)) with
      | Some a, Some b =>
        match blue cs a b with
        | Some v =>
          match store [v] (Z.to_nat p) buf with
          | Some buf' => blue_loop cs fuel' (u32 (p + 3)) size buf'
          | None => None
          end
        | None => None
        end
      | _, _ => None
      end
    end
  else Some buf.
Definition ComputeBC5Blue (cs : bool) (buf : list Z) (size : Z) : option (list Z) :=
  blue_loop cs (Z.to_nat size) 0 size buf.
