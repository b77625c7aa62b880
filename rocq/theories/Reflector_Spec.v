(** What C34-C38 mean, without the parser of the model. *)
From Verif Require Import Base.

(** [new] is [old] with the bytes from [addr] on replaced by [bs] (and nothing else). *)
Definition replaced (old : list Z) (addr : nat) (bs : list Z) (new : list Z) : Prop :=
  exists a m z, old = a ++ m ++ z /\ length a = addr /\ length m = length bs /\ new = a ++ bs ++ z.
Definition inside (addr n : nat) (mem : list Z) : Prop := (addr + n <= length mem)%nat.
(** the [n] bytes at [addr] *)
Definition bytes_at (addr n : nat) (mem : list Z) : list Z := firstn n (skipn addr mem).
(** no byte outside [addr .. addr+n) differs *)
Definition same_outside (addr n : nat) (a b : list Z) : Prop :=
  length a = length b /\ forall i, (i < addr \/ addr + n <= i)%nat -> nth_error a i = nth_error b i.

(** ** Numerals *)
Definition is_digit (base c d : Z) : Prop :=
  (48 <= c <= 57 /\ d = c - 48) \/
  (base = 16 /\ ((97 <= c <= 102 /\ d = c - 87) \/ (65 <= c <= 70 /\ d = c - 55))).
Inductive digits (base : Z) : list Z -> Z -> Prop :=
| digits_one c d : is_digit base c d -> digits base [c] d
| digits_more s v c d : digits base s v -> is_digit base c d -> digits base (s ++ [c]) (v * base + d).
Definition no_digit_first (base : Z) (s : list Z) : Prop :=
  match s with [] => True | c :: _ => forall d, ~ is_digit base c d end.
Definition blanks (s : list Z) : Prop := Forall (fun c => c = 32 \/ c = 9) s.

Definition minus := 45. Definition plus := 43. Definition letter_x := 120. Definition zero := 48.

(** [literal s neg m]: the text [s] is blanks, an optional sign, a decimal or 0x-prefixed
    number of magnitude [m], and anything after it. *)
Inductive literal : list Z -> bool -> Z -> Prop :=
| literal_dec b sg neg ds m rest :
    blanks b -> (sg = [] /\ neg = false \/ sg = [plus] /\ neg = false \/ sg = [minus] /\ neg = true) ->
    digits 10 ds m -> no_digit_first 10 rest ->
    (* not the beginning of a hexadecimal number *)
    (ds = [zero] -> forall r, rest <> letter_x :: r) ->
    literal (b ++ sg ++ ds ++ rest) neg m
| literal_hex b sg neg ds m rest :
    blanks b -> (sg = [] /\ neg = false \/ sg = [minus] /\ neg = true) ->
    digits 16 ds m -> no_digit_first 16 rest ->
    literal (b ++ sg ++ [zero; letter_x] ++ ds ++ rest) neg m.

(** No number can be read: whatever white space and sign are dropped, no digit follows. *)
Definition white (c : Z) : Prop := c = 32 \/ 9 <= c <= 13.
Definition malformed (s : list Z) : Prop := forall ws sg rest,
  s = ws ++ sg ++ rest -> Forall white ws -> (sg = [] \/ sg = [plus] \/ sg = [minus]) ->
  no_digit_first 10 rest.

Definition clamp (lo hi v : Z) : Z := Z.max lo (Z.min hi v).

(** ** Enums *)
(** the first entry with a property *)
Definition first_with {A} (P : A -> Prop) (l : list A) (x : A) : Prop :=
  exists a z, l = a ++ x :: z /\ P x /\ Forall (fun y => ~ P y) a.

(** ** Enumerators as the C++ compiler sees them: a name and maybe an initialiser *)
Inductive initialiser :=
| Dec (ds : list Z)    (* decimal digits, no leading zero unless the number is 0 *)
| Hex (ds : list Z).   (* 0x and hexadecimal digits *)
Definition initialiser_text (i : initialiser) : list Z :=
  match i with Dec ds => ds | Hex ds => [zero; letter_x] ++ ds end.
Definition initialiser_value (i : initialiser) (v : Z) : Prop :=
  match i with
  | Dec ds => digits 10 ds v /\ (ds = [zero] \/ forall r, ds <> zero :: r)
  | Hex ds => digits 16 ds v
  end.
(** the stringified enumerator: name, then optionally "= value" and a suffix such as ULL;
    [s1] [s2] are the spaces around the sign *)
Record enumerator := mkEnumerator {
  e_name : list Z; e_init : option (initialiser * Z); e_s1 : list Z; e_s2 : list Z; e_suffix : list Z }.
Definition enumerator_text (e : enumerator) : list Z :=
  match e_init e with
  | None => e_name e
  | Some (i, _) => e_name e ++ e_s1 e ++ [61] ++ e_s2 e ++ initialiser_text i ++ e_suffix e
  end.
Definition space := 32.
Definition enumerator_ok (e : enumerator) : Prop :=
  Forall (fun c => c <> 61 /\ c <> space /\ c <> 0) (e_name e) /\
  (e_s1 e = [] \/ e_s1 e = [space]) /\ (e_s2 e = [] \/ e_s2 e = [space]) /\
  (* suffix: letters u U l L *)
  Forall (fun c => In c [117; 85; 108; 76]) (e_suffix e) /\
  match e_init e with None => True | Some (i, v) => initialiser_value i v /\ v < 2 ^ 64 end.
(** the rule of the language: an explicit value, otherwise one more than the previous, 0 first *)
Fixpoint c_values (l : list enumerator) (next : Z) : list Z :=
  match l with
  | [] => []
  | e :: r => let v := match e_init e with Some (_, v) => v | None => next end in v :: c_values r (v + 1)
  end.

(** ** Array text: elements with blanks before them, separated by commas *)
Fixpoint array_text (l : list (list Z * list Z)) : list Z :=
  match l with
  | [] => []
  | [(b, e)] => b ++ e
  | (b, e) :: r => b ++ e ++ [44] ++ array_text r
  end.
Definition special (c : Z) : Prop := In c [44; 91; 93; 34; 40; 41; 123; 125].  (* comma, brackets, quote, parentheses, braces *)
(** an element without commas and brackets, or one in brackets *)
Definition plain_element (e : list Z) : Prop :=
  Forall (fun c => ~ special c) e /\ exists c r, e = c :: r /\ c <> 32 /\ c <> 9.
Definition bracketed_element (e : list Z) : Prop :=
  exists o body c, e = o :: body ++ [c] /\ In o [91; 40; 123] /\ In c [93; 41; 125] /\
    Forall (fun c => ~ In c [93; 34; 41; 125]) body.
