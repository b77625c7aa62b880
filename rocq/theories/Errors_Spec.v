(** C72: how a tag and a number are shown. *)
From Verif Require Import Base Supercore_Spec.

(** The part of the value's bytes that is shown: at most [size], up to the first zero *)
Fixpoint shown (bytes : list Z) (size : nat) : list Z :=
  match bytes, size with
  | b :: r, S n => if b =? 0 then [] else b :: shown r n
  | _, _ => []
  end.
(** Digits of a number to a base, most significant first, no leading zero; as characters 0-9 A-F *)
Definition digit_char (d : Z) : Z := if d <? 10 then 48 + d else 65 + (d - 10).
Definition writes (base : Z) (n : Z) (t : list Z) : Prop :=
  exists ds, t = map digit_char ds /\ Forall (fun d => 0 <= d < base) ds /\ ds <> [] /\
    (hd 0 ds = 0 -> length ds = 1%nat) /\ fold_left (fun a d => a * base + d) ds 0 = n.
(** 0xNN followed by a space, for every byte *)
Inductive hex_list : list Z -> list Z -> Prop :=
| HNil : hex_list [] []
| HCons b s d t : writes 16 b d -> hex_list s t -> hex_list (b :: s) ([48; 120] ++ d ++ [32] ++ t).
Definition rendered (s t : list Z) : Prop := (Forall alnum s /\ t = s) \/ (~ Forall alnum s /\ hex_list s t).
(** a character isalnum may be asked about *)
Definition askable (c : Z) : Prop := 1 <= c < 128 \/ c = 255.
