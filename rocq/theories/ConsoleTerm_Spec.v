(** C82: a terminal, as ECMA-48 and ISO 8613-6 describe it, so far as the escape sequences of colours need it.
    Nothing of /repo is in this file. *)
From Verif Require Import Base.

Inductive shade := Standard | Direct (red green blue : Z).
(** how far the sequence being received has come: [Params ps n] has read the parameters [ps] (last first) and [n] of the one after;
    [Ignoring] waits for the end of a sequence that means nothing *)
Inductive reading := Ground | Escape | Params (ps : list Z) (n : Z) | Ignoring.
Record terminal := Terminal { at_ : reading; ink : shade; screen : list (Z * shade) (* what was printed, in which colour *) }.

(** select graphic rendition: 0 goes back to the standard colour, 38;2;r;g;b asks for a colour; anything else is skipped *)
Fixpoint rendition (ps : list Z) (s : shade) : shade :=
  match ps with
  | [] => s
  | 0 :: q => rendition q Standard
  | 38 :: 2 :: r :: g :: b :: q => rendition q (if (r <=? 255) && (g <=? 255) && (b <=? 255) then Direct r g b else s)
  | _ :: q => rendition q s
  end.
Definition receive (t : terminal) (c : Z) : terminal :=
  match at_ t with
  | Ground => if c =? 27 then Terminal Escape (ink t) (screen t) else Terminal Ground (ink t) (screen t ++ [(c, ink t)])
  | Escape => if c =? 91 then Terminal (Params [] 0) (ink t) (screen t) else Terminal Ground (ink t) (screen t)
  | Params ps n =>
    if (48 <=? c) && (c <=? 57) then Terminal (Params ps (n * 10 + (c - 48))) (ink t) (screen t)
    else if c =? 59 then Terminal (Params (n :: ps) 0) (ink t) (screen t)
    else if c =? 109 then Terminal Ground (rendition (rev (n :: ps)) (ink t)) (screen t)
    else if (64 <=? c) && (c <=? 126) then Terminal Ground (ink t) (screen t)
    else Terminal Ignoring (ink t) (screen t)
  | Ignoring => if (64 <=? c) && (c <=? 126) then Terminal Ground (ink t) (screen t) else t
  end.
Definition feed (text : list Z) (t : terminal) : terminal := fold_left receive text t.
