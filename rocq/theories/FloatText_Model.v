(** Floating point members set from text and printed: datas/reflector.cpp:46-83 (SetNumber for float and double),
    444-452, 777-793.  std::stof and std::stod are libstdc++'s (strtof and strtod, an exception when nothing was
    read or errno became ERANGE); strtod, printf are the C library's, modelled here for decimal and hexadecimal
    numbers, infinity and nan in the C locale, correctly rounded to nearest, ties to even, as glibc does. *)
From Verif Require Import Base Reflector_Model.

(** A binary format: bits of the significand, bits of the exponent, digits printed (%.6g, %.13g) *)
Record fmt := mkFmt { prec : Z; ebits : Z; digs : Z }.
Definition single := mkFmt 24 8 6.
Definition double := mkFmt 53 11 13.
(** the unit of the subnormal numbers is 2^qmin *)
Definition qmin (f : fmt) : Z := 3 - 2 ^ (ebits f - 1) - prec f.
Definition inf_pattern (f : fmt) : Z := (2 ^ ebits f - 1) * 2 ^ (prec f - 1).
Definition nan_pattern (f : fmt) : Z := inf_pattern f + 2 ^ (prec f - 2).
Definition sign_bit (f : fmt) (s : bool) : Z := if s then 2 ^ (prec f - 1 + ebits f) else 0.
(** numeric_limits::max(), ::min() and 1.0 *)
Definition max_pattern (f : fmt) : Z := inf_pattern f - 1.
Definition min_pattern (f : fmt) : Z := 2 ^ (prec f - 1).
Definition one_pattern (f : fmt) : Z := (2 ^ (ebits f - 1) - 1) * 2 ^ (prec f - 1).

(** ** Exact arithmetic on positive fractions *)
(** times base^k *)
Definition mulp (base k : Z) (x : Z * Z) : Z * Z := (fst x * base ^ Z.max k 0, snd x * base ^ Z.max (- k) 0).
(** the whole part of a logarithm, which is [est] or one less *)
Definition ilog (base est : Z) (x : Z * Z) : Z :=
  let y := mulp base (- est) x in if snd y <=? fst y then est else est - 1.
Definition log2q (x : Z * Z) : Z := ilog 2 (Z.log2 (fst x) - Z.log2 (snd x)) x.
Fixpoint dlog (fuel : nat) (a : Z) : Z := match fuel with O => 0 | S g => if a <? 10 then 0 else 1 + dlog g (a / 10) end.
Definition digits_less_one (a : Z) : Z := dlog (Z.to_nat (Z.log2 a)) a.
Definition log10q (x : Z * Z) : Z := ilog 10 (digits_less_one (fst x) - digits_less_one (snd x)) x.
Definition round_even (x : Z * Z) : Z :=
  let q := fst x / snd x in let r := fst x mod snd x in
  if 2 * r <? snd x then q else if snd x <? 2 * r then q + 1 else if Z.even q then q else q + 1.

(** ** strtof, strtod *)
(** the text up to a NUL: c_str() *)
Fixpoint until_nul (s : list Z) : list Z := match s with c :: r => if c =? 0 then [] else c :: until_nul r | [] => [] end.
Inductive parsed := NoNumber | Infinity (neg : bool) | NotANumber (neg : bool) | Number (neg : bool) (x : Z * Z).
Definition digit_of (base c : Z) : option Z :=
  let v := if (48 <=? c) && (c <=? 57) then c - 48 else if (97 <=? c) && (c <=? 102) then c - 87
           else if (65 <=? c) && (c <=? 70) then c - 55 else 99 in
  if v <? base then Some v else None.
(** the digits at the start *)
Fixpoint span (base : Z) (s : list Z) : list Z * list Z :=
  match s with
  | [] => ([], [])
  | c :: r => match digit_of base c with Some d => let (ds, r') := span base r in (d :: ds, r') | None => ([], s) end
  end.
Definition number (base : Z) (ds : list Z) : Z := fold_left (fun a d => a * base + d) ds 0.
(** digits with an optional point among or around them *)
Definition mantissa (base : Z) (s : list Z) : option (list Z * list Z * list Z) :=
  let (i, r) := span base s in
  match r with
  | 46 :: r1 => let (f, r2) := span base r1 in match i ++ f with [] => None | _ => Some (i, f, r2) end
  | _ => match i with [] => None | _ => Some (i, [], r) end
  end.
(** [mark] is e or p; a mark without digits after it is not part of the number *)
Definition take_sign (s : list Z) : bool * list Z :=
  match s with c :: r => if c =? 45 then (true, r) else if c =? 43 then (false, r) else (false, s) | [] => (false, []) end.
Definition exponent (mark : Z) (s : list Z) : Z :=
  match s with
  | c :: r => if (c =? mark) || (c =? mark - 32)
              then let (n, r1) := take_sign r in
                   match fst (span 10 r1) with [] => 0 | ds => if n then - number 10 ds else number 10 ds end
              else 0
  | [] => 0
  end.
Definition fold_case (c : Z) : Z := if (65 <=? c) && (c <=? 90) then c + 32 else c.
Fixpoint starts (p s : list Z) : bool :=
  match p, s with [], _ => true | a :: p', c :: s' => (fold_case c =? a) && starts p' s' | _, [] => false end.
Definition decimal (n : bool) (s : list Z) : parsed :=
  match mantissa 10 s with
  | None => NoNumber
  | Some (i, f, r) => Number n (mulp 10 (exponent 101 r - Z.of_nat (length f)) (number 10 (i ++ f), 1))
  end.
(** Simplified: the payload of nan(...) is not modelled; such a text gives the plain nan. *)
Definition strtod (s : list Z) : parsed :=
  let (n, r) := take_sign (skip_space (until_nul s)) in
  if starts [105; 110; 102] r then Infinity n
  else if starts [110; 97; 110] r then NotANumber n
  else if starts [48; 120] r then
    match mantissa 16 (skipn 2 r) with
    | Some (i, f, r1) => Number n (mulp 2 (exponent 112 r1 - 4 * Z.of_nat (length f)) (number 16 (i ++ f), 1))
    | None => decimal n r
    end
  else decimal n r.

(** The nearest value of the format as a pattern without sign (the infinity pattern or more: overflow), and
    whether errno becomes ERANGE: too large, or inexact and below the normal numbers after rounding to the full
    precision. *)
Definition nearest (f : fmt) (x : Z * Z) : Z * bool :=
  let l := log2q x in
  let e := Z.max (qmin f) (l - (prec f - 1)) in
  let y := mulp 2 (- e) x in
  let p := (e - qmin f) * 2 ^ (prec f - 1) + round_even y in
  let emin := qmin f + prec f - 1 in
  let full := round_even (mulp 2 (- (l - (prec f - 1))) x) in
  let tiny := (l <? emin) && negb ((l =? emin - 1) && (full =? 2 ^ prec f)) in
  if inf_pattern f <=? p then (inf_pattern f, true)
  else (p, tiny && negb (round_even y * snd y =? fst y)).

(** SetNumber, reflector.cpp:56-83, on the pattern of the variable *)
Definition SetFloat (f : fmt) (input : list Z) (old : Z) : ErrorType * Z :=
  match strtod input with
  | NoNumber => (EInvalidFormat, old)
  | Infinity n => (ENone, sign_bit f n + inf_pattern f)
  | NotANumber n => (ENone, sign_bit f n + nan_pattern f)
  | Number n x =>
    if fst x =? 0 then (ENone, sign_bit f n)
    else
      let (p, erange) := nearest f x in
      if erange || (p <? min_pattern f) then
        let fVal := fst (nearest double x) in                      (* atof; the magnitude *)
        (EOutOfRange,
          if negb n && (0 <? fVal) then (if one_pattern double <? fVal then max_pattern f else min_pattern f)
          else sign_bit f true + (if n && (one_pattern double <? fVal) then max_pattern f else min_pattern f))
      else (ENone, sign_bit f n + p)
  end.

(** ** snprintf %.Pg *)
(** the P significant digits and the decimal exponent of a positive fraction *)
Definition scientific (P : Z) (x : Z * Z) : Z * Z :=
  let X := log10q x in
  let n := round_even (mulp 10 (P - 1 - X) x) in
  if n =? 10 ^ P then (10 ^ (P - 1), X + 1) else (n, X).
(** k decimal digits of n, with leading zeros *)
Fixpoint places (k : nat) (n : Z) : list Z := match k with O => [] | S m => places m (n / 10) ++ [48 + n mod 10] end.
Fixpoint drop_zeros (s : list Z) : list Z := match s with c :: r => if c =? 48 then drop_zeros r else s | [] => [] end.
Definition strip_zeros (s : list Z) : list Z := rev (drop_zeros (rev s)).
Definition point (s : list Z) : list Z := match s with [] => [] | _ => 46 :: s end.
(** without trailing zeros; in style %f, which at this precision shows the same digits, or %e *)
Definition percent_g (P n X : Z) : list Z :=
  let D := strip_zeros (places (Z.to_nat P) n) in
  if (-4 <=? X) && (X <? P) then
    if 0 <=? X then
      let i := (Z.to_nat X + 1)%nat in firstn i D ++ repeat 48 (i - length D) ++ point (skipn i D)
    else [48; 46] ++ repeat 48 (Z.to_nat (- X - 1)) ++ D
  else firstn 1 D ++ point (skipn 1 D) ++ [101; if X <? 0 then 45 else 43] ++
       (if Z.abs X <? 100 then places 2 (Z.abs X) else places 3 (Z.abs X)).
(** GetReflectedPrimitive, reflector.cpp:777-793: the buffer has 32 bytes *)
Definition exp_field (f : fmt) (w : Z) : Z := (w / 2 ^ (prec f - 1)) mod 2 ^ ebits f.
Definition frac_field (f : fmt) (w : Z) : Z := w mod 2 ^ (prec f - 1).
Definition sign_of (f : fmt) (w : Z) : bool := Z.testbit w (prec f - 1 + ebits f).
(** the value without sign of a finite pattern *)
Definition fraction (f : fmt) (w : Z) : Z * Z :=
  if exp_field f w =? 0 then mulp 2 (qmin f) (frac_field f w, 1)
  else mulp 2 (qmin f + exp_field f w - 1) (frac_field f w + 2 ^ (prec f - 1), 1).
Definition GetFloat (f : fmt) (w : Z) : list Z :=
  firstn 31 ((if sign_of f w then [45] else []) ++
    (if exp_field f w =? 2 ^ ebits f - 1 then (if frac_field f w =? 0 then [105; 110; 102] else [110; 97; 110])
     else if fst (fraction f w) =? 0 then [48]
     else let (n, X) := scientific (digs f) (fraction f w) in percent_g (digs f) n X)).

(** What Reflector_Model takes as parameters *)
Definition format_of (size : nat) : fmt := if (size =? 4)%nat then single else double.
Definition float_env (e : env) : env :=
  mkEnv (enums e)
    (fun size text old => let (err, w) := SetFloat (format_of size) text (le_value old) in (err, le_bytes size w))
    (fun size bs => GetFloat (format_of size) (le_value bs)).
