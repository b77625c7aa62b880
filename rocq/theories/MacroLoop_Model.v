(** The preprocessor loops: datas/macroLoop.hpp.  A macro call is its list of arguments. *)
From Verif Require Import Base.

(** what the tail of VA_NARGS passes on: 23 *)
Definition counts : list nat :=
  [89; 87; 88; 86; 85; 84; 83; 82; 81; 80; 79; 78; 77; 76; 75; 74; 73; 72; 71; 70; 69; 68; 67; 66; 65; 64; 63; 62; 61; 60;
   59; 58; 57; 56; 55; 54; 53; 52; 51; 50; 49; 48; 47; 46; 45; 44; 43; 42; 41; 40; 39; 38; 37; 36; 35; 34; 33; 32; 31; 30;
   29; 28; 27; 26; 25; 24; 23; 22; 21; 20; 19; 18; 17; 16; 15; 14; 13; 12; 11; 10; 9; 8; 7; 6; 5; 4; 3; 2; 1]%nat.
(** VA_NARGS_IMPL: 21, its 90th argument; [inl] is one of the caller's own arguments, [inr] a number.
    At least one argument is given. *)
Definition VA_NARGS {A} (args : list A) : option (A + nat) := nth_error (map inl args ++ map inr counts) 89.

(** _StaticFor_ADD1 .. _StaticFor_ADD89: 29-118; [None] is an empty argument *)
Fixpoint StaticFor_ADD {A} (n : nat) (args : list A) : list (option A) :=
  match n with
  | O => []
  | S m => hd_error args :: match m with O => [] | _ => StaticFor_ADD m (tl args) end
  end.
(** StaticFor: 214.  [None]: the name pasted together is not one of the macros *)
Definition StaticFor {A} (args : list A) : option (list (option A)) :=
  match VA_NARGS args with
  | Some (inr n) => if (n <=? 89)%nat then Some (StaticFor_ADD n args) else None
  | _ => None
  end.
(** _StaticForArgID_ADD1 .. 89: 121-210, StaticForArgID: 215; the number starts at 0 *)
Fixpoint StaticForArgID_ADD {A} (n id : nat) (args : list A) : list (nat * option A) :=
  match n with
  | O => []
  | S m => (id, hd_error args) :: match m with O => [] | _ => StaticForArgID_ADD m (id + 1) (tl args) end
  end.
Definition StaticForArgID {A} (args : list A) : option (list (nat * option A)) :=
  match VA_NARGS args with
  | Some (inr n) => if (n <=? 89)%nat then Some (StaticForArgID_ADD n 0 args) else None
  | _ => None
  end.
