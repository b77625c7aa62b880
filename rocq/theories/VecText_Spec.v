(** Reading the texts back. *)
From Verif Require Import Base.

(** the words between single spaces *)
Fixpoint words_from (cur : list Z) (t : list Z) : list (list Z) :=
  match t with
  | [] => [cur]
  | c :: r => if c =? 32 then cur :: words_from [] r else words_from (cur ++ [c]) r
  end.
Definition words (t : list Z) : list (list Z) := words_from [] t.
(** a decimal number: one or more digits *)
Fixpoint digits_from (acc : Z) (t : list Z) : option Z :=
  match t with
  | [] => Some acc
  | c :: r => if (48 <=? c) && (c <=? 57) then digits_from (10 * acc + (c - 48)) r else None
  end.
Definition natural (t : list Z) : option Z := match t with [] => None | _ => digits_from 0 t end.
Definition integer (t : list Z) : option Z := match t with 45 :: r => option_map Z.opp (natural r) | _ => natural t end.
(** a number with six decimals, in millionths, and its sign *)
Definition fixed6 (t : list Z) (n : bool) (x : Z) : Prop :=
  exists a b, t = (if n then [45] else []) ++ a ++ [46] ++ b /\ length b = 6%nat /\ natural (a ++ b) = Some x /\ a <> [].
