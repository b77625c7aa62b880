(** Vocabulary for C84: numbers written in decimal, and the values of IEEE-754 patterns. *)
From Coq Require Import QArith Qabs Qpower.
From Verif Require Import Base Reflector_Model.
Local Open Scope Q_scope.

(** * A number as written: -12.50e+3 has the sign minus, the digits 1 2 and 5 0, the exponent + 3 *)
Inductive sgn := Nothing | Plus | Minus.
Record written := Written { w_sign : sgn; w_int : list Z; w_point : bool; w_frac : list Z; w_exp : option (Z * sgn * list Z) }.
Definition sign_chars (s : sgn) : list Z := match s with Nothing => [] | Plus => [43%Z] | Minus => [45%Z] end.
Definition chars (ds : list Z) : list Z := map (fun d => 48 + d)%Z ds.
Definition text_of (d : written) : list Z :=
  sign_chars (w_sign d) ++ chars (w_int d) ++ (if w_point d then 46%Z :: chars (w_frac d) else []) ++
  match w_exp d with None => [] | Some (mark, s, ds) => mark :: sign_chars s ++ chars ds end.
Definition all_digits (ds : list Z) : Prop := Forall (fun d => 0 <= d <= 9)%Z ds.
Definition proper (d : written) : Prop :=
  all_digits (w_int d) /\ all_digits (w_frac d) /\ w_int d ++ w_frac d <> [] /\ (w_frac d <> [] -> w_point d = true) /\
  match w_exp d with None => True | Some (mark, s, ds) => (mark = 101 \/ mark = 69)%Z /\ all_digits ds /\ ds <> [] end.
(** the whole number with these digits *)
Fixpoint whole (acc : Z) (ds : list Z) : Z := match ds with [] => acc | d :: r => whole (10 * acc + d) r end.
Definition negated (s : sgn) : bool := match s with Minus => true | _ => false end.
Definition exponent_of (d : written) : Z :=
  match w_exp d with None => 0 | Some (_, s, ds) => if negated s then - whole 0 ds else whole 0 ds end%Z.
(** its value without sign *)
Definition size_of (d : written) : Q :=
  inject_Z (whole 0 (w_int d ++ w_frac d)) * inject_Z 10 ^ (exponent_of d - Z.of_nat (length (w_frac d))).
(** what may follow a number without becoming part of it *)
Definition ends_number (s : list Z) : Prop :=
  match s with [] => True | c :: _ => ~ (48 <= c <= 57)%Z /\ ~ In c [46; 101; 69; 120; 88]%Z end.

(** * Patterns *)
(** p bits of precision (p - 1 stored), b bits of exponent *)
Definition pattern (p b : Z) (neg : bool) (E M : Z) : Z := ((if neg then 2 ^ (p - 1 + b) else 0) + E * 2 ^ (p - 1) + M)%Z.
Definition fields (p b E M : Z) : Prop := (0 <= M < 2 ^ (p - 1))%Z /\ (0 <= E < 2 ^ b)%Z.
Definition finite (b E : Z) : Prop := (E < 2 ^ b - 1)%Z.
(** value without sign of a finite pattern: M * 2^-149 if E is 0, (2^23 + M) * 2^(E-150) otherwise, for
    single precision *)
Definition bias (b : Z) : Z := (2 ^ (b - 1) - 1)%Z.
Definition magnitude (p b E M : Z) : Q :=
  if (E =? 0)%Z then inject_Z M * inject_Z 2 ^ (1 - bias b - (p - 1))
  else inject_Z (2 ^ (p - 1) + M) * inject_Z 2 ^ (E - bias b - (p - 1)).
(** half way between the largest finite number and the next power of two *)
Definition too_large (p b : Z) : Q := inject_Z (2 ^ (p + 1) - 1) * inject_Z 2 ^ (bias b - p).
Definition smallest_normal (b : Z) : Q := inject_Z 2 ^ (1 - bias b).

(** * The style of %g with P digits: no zero at the end of the fraction and no point without one; plain notation
    exactly from 0.0001 to below 10^P, otherwise one digit before the point, e, a sign and two digits of exponent,
    more only if needed *)
Definition styled (P : Z) (d : written) : Prop :=
  last (w_frac d) 1%Z <> 0%Z /\ (w_point d = true <-> w_frac d <> []) /\
  match w_exp d with
  | None => (inject_Z 10 ^ (-4) <= size_of d /\ size_of d < inject_Z 10 ^ P) /\ (hd 0%Z (w_int d) <> 0%Z \/ w_int d = [0%Z])
  | Some (mark, s, ds) =>
      ~ (inject_Z 10 ^ (-4) <= size_of d /\ size_of d < inject_Z 10 ^ P) /\ (exists c, w_int d = [c] /\ c <> 0%Z) /\
      mark = 101%Z /\ s <> Nothing /\ (length ds = 2%nat \/ (2 < length ds)%nat /\ hd 0%Z ds <> 0%Z)
  end.
