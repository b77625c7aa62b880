(** C84: floating point members set from text and printed. *)
From Coq Require Import Strings.Ascii Strings.String.
From Coq Require Import QArith Qabs Qpower Lqa Lia.
From Verif Require Import Base Supercore_Model Reflector_Model Reflector_Spec Reflector_Proof Reflector_Props.
From Verif Require Import FloatText_Model FloatText_Proof FloatText_Proof2 FloatText_Spec FloatText_Text FloatText_Near FloatText_Near2 FloatText_Print.
Local Open Scope Z_scope.

(** Member [id] is a float (24 bits of precision, 8 of exponent) or a double (53, 11). *)
Definition float_member (cls : list reflType) (id : nat) (t : reflType) (mem : list Z) (p b : Z) : Prop :=
  member_of cls id t /\ type t = RFloat /\ holds t mem /\ (subSize t = 4 /\ p = 24 /\ b = 8 \/ subSize t = 8 /\ p = 53 /\ b = 11).
(** The member contains this pattern; after: it does, and no other byte changed. *)
Definition contains (t : reflType) (mem : list Z) (w : Z) : Prop :=
  bytes_at (Z.to_nat (offset t)) (Z.to_nat (subSize t)) mem = le_bytes (Z.to_nat (subSize t)) w.
Definition now_contains (t : reflType) (mem : list Z) (w : Z) (new : list Z) : Prop :=
  replaced mem (Z.to_nat (offset t)) (le_bytes (Z.to_nat (subSize t)) w) new.
(** digits of precision of %.6g and %.13g *)
Definition digits_printed (p : Z) : Z := if p =? 24 then 6 else 13.

Section Api.
Context (e : env) (cls : list reflType) (id : nat) (t : reflType) (mem : list Z) (p b : Z) (Hm : float_member cls id t mem p b).
Let f := format_of (Z.to_nat (subSize t)).
Lemma member_format : (f = single \/ f = double) /\ prec f = p /\ ebits f = b /\ digs f = digits_printed p /\ 256 ^ Z.of_nat (Z.to_nat (subSize t)) = 2 ^ (p + b).
Proof. destruct Hm as (_ & _ & _ & [(S & -> & ->)|(S & -> & ->)]); unfold f; rewrite S; repeat split; auto. Qed.
Lemma set_api text err w : SetFloat f (skip_start text) (le_value (bytes_at (Z.to_nat (offset t)) (Z.to_nat (subSize t)) mem)) = (err, w) ->
  exists new, SetReflectedValue (float_env e) cls (Z.of_nat id) text mem = Some (err, new) /\ now_contains t mem w new.
Proof.
  intros H. destruct Hm as (M & T & (Ho & Hs & Hin) & Hsz). unfold SetReflectedValue. rewrite (by_id_ok _ _ _ M). unfold set_value, set_fuel. rewrite T. cbn [SetReflectedMember]. rewrite T.
  replace ((subSize t =? 4) || (subSize t =? 8)) with true by lia. unfold nat_offset. rewrite load_ok by exact Hin. cbn [float_env parse_float]. fold f. rewrite H. rewrite le_bytes_length, Nat.eqb_refl.
  destruct (store_ok (le_bytes (Z.to_nat (subSize t)) w) (Z.to_nat (offset t)) mem) as (new & -> & R); [rewrite le_bytes_length; exact Hin|]. exists new. split; [reflexivity|exact R].
Qed.
Lemma get_api : GetReflectedValue (float_env e) cls (Z.of_nat id) mem = Some (GetFloat f (le_value (bytes_at (Z.to_nat (offset t)) (Z.to_nat (subSize t)) mem))).
Proof.
  destruct Hm as (M & T & (Ho & Hs & Hin) & Hsz). unfold GetReflectedValue. rewrite (by_id_ok _ _ _ M). rewrite T. cbn [GetReflectedPrimitive]. rewrite T.
  replace ((subSize t =? 4) || (subSize t =? 8)) with true by lia. unfold nat_offset. rewrite load_ok by exact Hin. reflexivity.
Qed.
Lemma value_small w : 0 <= w < 2 ^ (p + b) -> le_value (le_bytes (Z.to_nat (subSize t)) w) = w.
Proof. intros H. rewrite le_value_bytes. destruct member_format as (_ & _ & _ & _ & ->). apply Z.mod_small. exact H. Qed.
Lemma still_member w new : now_contains t mem w new -> float_member cls id t new p b /\ contains t new w.
Proof.
  intros R. destruct Hm as (M & T & (Ho & Hs & Hin) & Hsz). split.
  - split; [exact M|]. split; [exact T|]. split; [|exact Hsz]. split; [exact Ho|]. split; [exact Hs|]. unfold inside in *. rewrite (replaced_length _ _ _ _ R). exact Hin.
  - unfold contains. pose proof (replaced_bytes _ _ _ _ R) as G. rewrite le_bytes_length in G. exact G.
Qed.
Lemma pattern_value neg E M : fields p b E M -> contains t mem (pattern p b neg E M) ->
  le_value (bytes_at (Z.to_nat (offset t)) (Z.to_nat (subSize t)) mem) = pattern p b neg E M.
Proof.
  intros F C. unfold contains in C. rewrite C. apply value_small. destruct member_format as (Hf & P & B & _). rewrite <- P, <- B in *.
  apply (pattern_fields f Hf neg E M F).
Qed.
Lemma unchanged w : contains t mem w -> now_contains t mem w mem.
Proof. intros C. unfold now_contains. rewrite <- C. apply replaced_self. apply Hm. Qed.
End Api.

Lemma text_starts d r : proper d -> exists c s, text_of d ++ r = c :: s /\ (c = 43 \/ c = 45 \/ c = 46 \/ 48 <= c <= 57).
Proof.
  intros (Hi & Hf & Hne & Hp & _). unfold text_of. destruct (w_sign d); cbn [sign_chars app]; eauto 6.
  destruct (w_int d) as [|x i]; cbn [chars map app].
  - cbn [app] in Hne. rewrite (Hp Hne). cbn [app]. eauto 8.
  - pose proof (Forall_inv Hi) as Hx. cbv beta in Hx. eexists. eexists. split; [reflexivity|]. lia.
Qed.
Lemma skip_start_text pre d tail : proper d -> spaces pre -> exists pre', spaces pre' /\ skip_start (pre ++ text_of d ++ tail) = pre' ++ text_of d ++ tail.
Proof.
  intros Hd Hs. induction Hs as [|c pre Hc Hs IH]; cbn [app].
  - exists []. split; [constructor|]. destruct (text_starts d tail Hd) as (c & s & -> & H). cbn [app]. apply skip_start_id; lia.
  - rewrite skip_start_eq. destruct (is_blank false c); [exact IH|]. exists (c :: pre). split; [constructor; assumption|reflexivity].
Qed.
Lemma normal_exp f : smallest_normal (ebits f) == pw 2 (emin f).
Proof. unfold smallest_normal, pw, emin. rewrite qmin_bias. replace (1 - bias (ebits f) - (prec f - 1) + prec f - 1) with (1 - bias (ebits f)) by lia. reflexivity. Qed.

(** ** Setting *)
Section Setting.
Context (e : env) (cls : list reflType) (id : nat) (t : reflType) (mem : list Z) (p b : Z) (Hm : float_member cls id t mem p b).
Context (d : written) (pre tail : list Z) (Hd : proper d) (Hp : spaces pre) (Ht : ends_number tail).
Let f := format_of (Z.to_nat (subSize t)).
Let text := pre ++ text_of d ++ tail.
Let neg := negated (w_sign d).
Lemma read_back : exists x, strtod (skip_start text) = Number neg x /\ 0 < snd x /\ frac x == size_of d /\ 0 <= fst x /\
  (fst x = 0 <-> size_of d == 0).
Proof.
  destruct (skip_start_text pre d tail Hd Hp) as (pre' & Hp' & E). unfold text. rewrite E. destruct (strtod_written d pre' tail Hd Hp' Ht) as (x & A & B & C & D & _).
  exists x. repeat split; try assumption.
  - intros Z. rewrite <- C. unfold frac. rewrite Z. apply Qmult_0_l.
  - intros Z. destruct (Z.eq_dec (fst x) 0) as [|N]; [assumption|]. pose proof (frac_pos x ltac:(lia) B). rewrite C, Z in H. discriminate.
Qed.
End Setting.

(** A decimal number within the normal range becomes the nearest value, of two equally near ones the even one;
    no error, no other byte changes. *)
Theorem C84_set_nearest e cls id t mem p b d pre tail :
  float_member cls id t mem p b -> proper d -> spaces pre -> ends_number tail ->
  (smallest_normal b <= size_of d)%Q -> (size_of d < too_large p b)%Q ->
  exists E M new, fields p b E M /\ finite b E /\ 1 <= E /\
    SetReflectedValue (float_env e) cls (Z.of_nat id) (pre ++ text_of d ++ tail) mem = Some (ENone, new) /\
    now_contains t mem (pattern p b (negated (w_sign d)) E M) new /\
    forall E' M', fields p b E' M' -> finite b E' ->
      (Qabs (size_of d - magnitude p b E M) <= Qabs (size_of d - magnitude p b E' M'))%Q /\
      (Qabs (size_of d - magnitude p b E' M') == Qabs (size_of d - magnitude p b E M) ->
       ~ magnitude p b E' M' == magnitude p b E M -> Z.even M = true)%Q.
Proof.
  intros Hm Hd Hp Ht Lo Hi. destruct (member_format cls id t mem p b Hm) as (Hf & P & B & _). set (f := format_of (Z.to_nat (subSize t))) in *. subst p b.
  destruct (read_back d pre tail Hd Hp Ht) as (x & Sx & X2 & XV & X0 & XZ). rewrite normal_exp in Lo. rewrite <- XV in Lo, Hi.
  assert (Hg : good f) by (destruct Hf as [->| ->]; [apply good_single|apply good_double]). pose proof (pw_pos 2 (emin f) ltac:(lia)) as Pe.
  assert (X1 : 0 < fst x). { assert (fst x <> 0) by (intros Z; apply XZ in Z; rewrite <- XV in Z; lra). lia. }
  destruct (near_normal f Hg x X1 X2 Lo Hi) as (E & M & N & F & Fi & E1 & Near & _).
  destruct (set_api e cls id t mem (prec f) (ebits f) Hm (pre ++ text_of d ++ tail) ENone (pattern (prec f) (ebits f) (negated (w_sign d)) E M)) as (new & S1 & S2).
  { fold f. rewrite (set_normal f _ _ x _ Sx X1 _ N); [rewrite pattern_split; reflexivity|]. unfold min_pattern. destruct F. nia. }
  exists E, M, new. split; [exact F|]. split; [exact Fi|]. split; [exact E1|]. split; [exact S1|]. split; [exact S2|]. intros E' M' F' _. specialize (Near E' M' F'). rewrite <- XV. exact Near.
Qed.
Print Assumptions C84_set_nearest.

Theorem C84_set_zero e cls id t mem p b d pre tail :
  float_member cls id t mem p b -> proper d -> spaces pre -> ends_number tail -> (size_of d == 0)%Q ->
  exists new, SetReflectedValue (float_env e) cls (Z.of_nat id) (pre ++ text_of d ++ tail) mem = Some (ENone, new) /\
    now_contains t mem (pattern p b (negated (w_sign d)) 0 0) new.
Proof.
  intros Hm Hd Hp Ht Z. destruct (member_format cls id t mem p b Hm) as (Hf & P & B & _). set (f := format_of (Z.to_nat (subSize t))) in *. subst p b.
  destruct (read_back d pre tail Hd Hp Ht) as (x & Sx & X2 & XV & X0 & XZ). apply XZ in Z.
  apply set_api with (p := prec f) (b := ebits f); [exact Hm|]. fold f. rewrite (set_zero f _ _ x _ Sx Z). rewrite pattern_split. f_equal. lia.
Qed.
Print Assumptions C84_set_zero.

(** Too large: reported, and the largest value with that sign. *)
Theorem C84_set_too_large e cls id t mem p b d pre tail :
  float_member cls id t mem p b -> proper d -> spaces pre -> ends_number tail -> (too_large p b <= size_of d)%Q ->
  exists new, SetReflectedValue (float_env e) cls (Z.of_nat id) (pre ++ text_of d ++ tail) mem = Some (EOutOfRange, new) /\
    now_contains t mem (pattern p b (negated (w_sign d)) (2 ^ b - 2) (2 ^ (p - 1) - 1)) new.
Proof.
  intros Hm Hd Hp Ht Z. destruct (member_format cls id t mem p b Hm) as (Hf & P & B & _). set (f := format_of (Z.to_nat (subSize t))) in *. subst p b.
  destruct (read_back d pre tail Hd Hp Ht) as (x & Sx & X2 & XV & X0 & XZ). rewrite <- XV in Z.
  assert (0 < too_large (prec f) (ebits f))%Q by (destruct Hf as [->| ->]; vm_compute; reflexivity).
  assert (X1 : 0 < fst x). { assert (fst x <> 0) by (intros K; apply XZ in K; rewrite <- XV in K; lra). lia. }
  apply set_api with (p := prec f) (b := ebits f); [exact Hm|]. fold f. rewrite (set_large f Hf _ _ x _ Sx X2 X1 Z). rewrite pattern_split. f_equal. unfold max_pattern, inf_pattern.
  replace (sign_bit f (negated (w_sign d)) + ((2 ^ ebits f - 2) * 2 ^ (prec f - 1) + (2 ^ (prec f - 1) - 1))) with (sign_bit f (negated (w_sign d)) + ((2 ^ ebits f - 1) * 2 ^ (prec f - 1) - 1)) by ring. reflexivity.
Qed.
Print Assumptions C84_set_too_large.

(** Not zero but below the normal numbers: the smallest normal value, with that sign unless the number is so
    small that even a double would be zero (then minus, see below); reported, unless the number would round up
    to the smallest normal value with one more bit than the format has. *)
Theorem C84_set_too_small e cls id t mem p b d pre tail :
  float_member cls id t mem p b -> proper d -> spaces pre -> ends_number tail ->
  (0 < size_of d)%Q -> (size_of d < smallest_normal b)%Q ->
  exists err new, SetReflectedValue (float_env e) cls (Z.of_nat id) (pre ++ text_of d ++ tail) mem = Some (err, new) /\
    (size_of d < (1 - inject_Z 2 ^ (- (p + 1))) * smallest_normal b -> err = EOutOfRange)%Q /\
    ((1 - inject_Z 2 ^ (- (p + 1))) * smallest_normal b <= size_of d -> err = ENone)%Q /\
    (inject_Z 2 ^ (-1075) < size_of d -> now_contains t mem (pattern p b (negated (w_sign d)) 1 0) new)%Q /\
    (size_of d <= inject_Z 2 ^ (-1075) -> now_contains t mem (pattern p b true 1 0) new)%Q.
Proof.
  intros Hm Hd Hp Ht Z1 Z2. destruct (member_format cls id t mem p b Hm) as (Hf & P & B & _). set (f := format_of (Z.to_nat (subSize t))) in *. subst p b.
  destruct (read_back d pre tail Hd Hp Ht) as (x & Sx & X2 & XV & X0 & XZ). rewrite normal_exp, <- XV in *.
  assert (X1 : 0 < fst x). { assert (fst x <> 0) by (intros K; apply XZ in K; rewrite K in Z1; apply Qlt_irrefl in Z1; exact Z1). lia. }
  pose proof (set_small f Hf _ _ x (le_value (bytes_at (Z.to_nat (offset t)) (Z.to_nat (subSize t)) mem)) Sx X2 X1 Z2) as St.
  destruct (set_api e cls id t mem (prec f) (ebits f) Hm (pre ++ text_of d ++ tail) _ _ St) as (new & S1 & S2).
  eexists. exists new. split; [exact S1|]. rewrite normal_exp, <- XV. change (inject_Z 2 ^ (- (prec f + 1)))%Q with (pw 2 (- (prec f + 1))). change (inject_Z 2 ^ (-1075))%Q with (pw 2 (-1075)).
  assert (Mp : forall s, (sign_bit f s + min_pattern f) = pattern (prec f) (ebits f) s 1 0) by (intros s; rewrite pattern_split; unfold min_pattern; lia). rewrite Mp in S2.
  destruct (Qlt_le_dec (frac x) ((1 - pw 2 (- (prec f + 1))) * pw 2 (emin f))) as [L|L]; destruct (Qlt_le_dec (pw 2 (-1075)) (frac x)) as [G|G];
    (split; [intros; try reflexivity; exfalso; lra|]; split; [intros; try reflexivity; exfalso; lra|]; split; intros; try exact S2; exfalso; lra).
Qed.
Print Assumptions C84_set_too_small.

(** Text without a number is refused and changes nothing. *)
Definition no_number (s : list Z) : Prop :=
  exists pre sg rest, s = pre ++ sign_chars sg ++ rest /\ spaces pre /\
    match rest with
    | [] => True
    | c :: r => ~ 48 <= c <= 57 /\ ~ In c [105; 73; 110; 78] /\ (c = 46 -> match r with [] => True | x :: _ => ~ 48 <= x <= 57 end) /\
                (sg = Nothing -> c <> 43 /\ c <> 45 /\ c_isspace c = false)
    end.
Lemma none_decimal n r : match r with [] => True | c :: s => ~ 48 <= c <= 57 /\ (c = 46 -> match s with [] => True | x :: _ => ~ 48 <= x <= 57 end) end -> decimal n r = NoNumber.
Proof.
  unfold decimal, mantissa. destruct r as [|c s]; [reflexivity|]. intros [H1 H2]. cbn [span]. rewrite digit_no by exact H1.
  destruct (Z.eq_dec c 46) as [->|N].
  - specialize (H2 eq_refl). destruct s as [|x s]; [reflexivity|]. cbn [span]. rewrite digit_no by exact H2. reflexivity.
  - assert (E : forall (A : Type) (u v : A), match c with 46 => u | _ => v end = v).
    { intros A u v. destruct c as [|q|q]; try reflexivity. repeat (destruct q as [q|q|]; try reflexivity; try (exfalso; apply N; reflexivity)). }
    rewrite E. reflexivity.
Qed.
Lemma no_number_strtod s : no_number s -> strtod s = NoNumber.
Proof.
  intros (pre & sg & rest & -> & Hs & Hr). unfold strtod. rewrite until_nul_app by (eapply Forall_impl; [|exact Hs]; intros c Hc; unfold c_isspace in Hc; cbv beta; lia).
  rewrite until_nul_app by (destruct sg; repeat constructor; discriminate). set (u := until_nul rest).
  assert (Hu : match u with [] => True | c :: r => ~ 48 <= c <= 57 /\ ~ In c [105; 73; 110; 78] /\ (c = 46 -> match r with [] => True | x :: _ => ~ 48 <= x <= 57 end) /\ (sg = Nothing -> c <> 43 /\ c <> 45 /\ c_isspace c = false) end).
  { unfold u. destruct rest as [|c r]; [exact I|]. cbn [until_nul]. destruct (c =? 0); [exact I|]. destruct Hr as (A & B & C & D). repeat split; try assumption; try (apply D; assumption).
    intros K. specialize (C K). destruct r as [|x r]; [exact I|]. cbn [until_nul]. destruct (x =? 0); [exact I|exact C]. }
  clearbody u. clear Hr rest. rewrite skip_spaces by exact Hs.
  assert (Sk : exists n, take_sign (skip_space (sign_chars sg ++ u)) = (n, u)).
  { destruct sg; cbn [sign_chars app]; [|exists false; reflexivity|exists true; reflexivity]. exists false. destruct u as [|c r]; [reflexivity|]. destruct Hu as (_ & _ & _ & D). destruct (D eq_refl) as (D1 & D2 & D3).
    cbn [skip_space]. rewrite D3. cbn [take_sign]. replace (c =? 45) with false by lia. replace (c =? 43) with false by lia. reflexivity. }
  destruct Sk as (n & ->). assert (Dn : decimal n u = NoNumber) by (apply none_decimal; destruct u as [|c r]; [exact I|]; destruct Hu as (A & _ & C & _); split; assumption).
  destruct u as [|c r]; [exact Dn|]. destruct Hu as (A & B & _ & _). cbn [In] in B.
  assert (FC : fold_case c <> 105 /\ fold_case c <> 110 /\ fold_case c <> 48) by (unfold fold_case; destruct ((65 <=? c) && (c <=? 90)) eqn:Q; lia).
  cbn [starts]. replace (fold_case c =? 105) with false by lia. replace (fold_case c =? 110) with false by lia. replace (fold_case c =? 48) with false by lia. exact Dn.
Qed.
Lemma no_number_skip s : no_number s -> no_number (skip_start s).
Proof.
  intros (pre & sg & rest & -> & Hs & Hr). induction Hs as [|c pre Hc Hs IH]; cbn [app].
  - exists [], sg, rest. split; [|split; [constructor|exact Hr]]. cbn [app]. destruct sg; cbn [sign_chars app]; try (apply skip_start_id; discriminate).
    destruct rest as [|c r]; [reflexivity|]. destruct Hr as (_ & _ & _ & D). destruct (D eq_refl) as (_ & _ & D3). unfold c_isspace in D3. apply skip_start_id; lia.
  - rewrite skip_start_eq. destruct (is_blank false c); [exact IH|]. exists (c :: pre), sg, rest. split; [reflexivity|]. split; [constructor; assumption|exact Hr].
Qed.
Theorem C84_invalid e cls id t mem p b text :
  float_member cls id t mem p b -> bytes_ok mem -> no_number text ->
  SetReflectedValue (float_env e) cls (Z.of_nat id) text mem = Some (EInvalidFormat, mem).
Proof.
  intros Hm Hb H. pose proof (no_number_strtod _ (no_number_skip _ H)) as S.
  destruct (set_api e cls id t mem p b Hm text EInvalidFormat (le_value (bytes_at (Z.to_nat (offset t)) (Z.to_nat (subSize t)) mem))) as (new & -> & R); [unfold SetFloat; rewrite S; reflexivity|].
  f_equal. f_equal. destruct Hm as (_ & _ & (_ & _ & Hin) & _). unfold now_contains in R.
  assert (L : length (bytes_at (Z.to_nat (offset t)) (Z.to_nat (subSize t)) mem) = Z.to_nat (subSize t)) by (apply bytes_at_length; exact Hin).
  rewrite <- L in R at 1. rewrite le_bytes_value in R; [|unfold bytes_at; apply Forall_forall; intros z Hz; apply firstn_In, skipn_In in Hz; revert z Hz; apply Forall_forall; exact Hb].
  apply (replaced_same mem (Z.to_nat (offset t)) (Z.to_nat (subSize t))); assumption.
Qed.
Print Assumptions C84_invalid.

(** ** Printing *)
(** What is printed is a decimal number, minus sign exactly for negative values, and no decimal number of at most
    6 (double: 13) digits is nearer to the value; it has the usual style, plain or with an exponent. *)
Theorem C84_print e cls id t mem p b neg E M :
  float_member cls id t mem p b -> fields p b E M -> finite b E -> contains t mem (pattern p b neg E M) -> ~ (E = 0 /\ M = 0) ->
  exists d n k, GetReflectedValue (float_env e) cls (Z.of_nat id) mem = Some (text_of d) /\ proper d /\ w_sign d = (if neg then Minus else Nothing) /\
    (size_of d == inject_Z n * inject_Z 10 ^ k)%Q /\ 0 < n < 10 ^ digits_printed p /\
    styled (digits_printed p) d /\
    (forall m j, 0 <= m < 10 ^ digits_printed p -> (Qabs (magnitude p b E M - size_of d) <= Qabs (magnitude p b E M - inject_Z m * inject_Z 10 ^ j))%Q).
Proof.
  intros Hm F Fi C NZ. rewrite (get_api e cls id t mem p b Hm), (pattern_value cls id t mem p b Hm neg E M F C).
  destruct (member_format cls id t mem p b Hm) as (Hf & P & B & D & _). set (f := format_of (Z.to_nat (subSize t))) in *. rewrite <- D. subst p b.
  assert (Hg : good f) by (destruct Hf as [->| ->]; [apply good_single|apply good_double]).
  destruct (get_number f Hf neg E M F Fi NZ) as (d & Gd & Pd & Sd & Vd & Nd & _ & _ & Yd). cbv zeta in Vd, Nd. destruct (fraction_magnitude f E M Hg F) as (X2 & XV & X0 & X1 & _).
  assert (HP : 1 <= digs f) by (destruct Hg as (_ & _ & ? & _); lia).
  eexists d, _, _. split; [rewrite Gd; reflexivity|]. split; [exact Pd|]. split; [exact Sd|]. split; [exact Vd|]. split; [assert (0 < 10 ^ (digs f - 1)) by (apply Z.pow_pos_nonneg; lia); lia|]. split; [exact Yd|].
  intros m j Hmj. rewrite Vd, <- XV. apply sci_nearest; try assumption. lia.
Qed.
Print Assumptions C84_print.
Theorem C84_print_zero e cls id t mem p b neg :
  float_member cls id t mem p b -> contains t mem (pattern p b neg 0 0) ->
  GetReflectedValue (float_env e) cls (Z.of_nat id) mem = Some (if neg then [45; 48] else [48]) /\
  SetReflectedValue (float_env e) cls (Z.of_nat id) (if neg then [45; 48] else [48]) mem = Some (ENone, mem).
Proof.
  intros Hm C. assert (F : fields p b 0 0) by (destruct Hm as (_ & _ & _ & [(_ & -> & ->)|(_ & -> & ->)]); unfold fields; lia). split.
  - rewrite (get_api e cls id t mem p b Hm), (pattern_value cls id t mem p b Hm neg 0 0 F C).
    destruct (member_format cls id t mem p b Hm) as (Hf & P & B & _). set (f := format_of (Z.to_nat (subSize t))) in *. subst p b. destruct Hf as [->| ->]; destruct neg; reflexivity.
  - destruct (C84_set_zero e cls id t mem p b (Written (if neg then Minus else Nothing) [0] false [] None) [] [] Hm) as (new & S & R).
    + unfold proper. cbn. repeat split; try constructor; try lia; try discriminate; try constructor. congruence.
    + constructor.
    + exact I.
    + reflexivity.
    + assert (T : [] ++ text_of (Written (if neg then Minus else Nothing) [0] false [] None) ++ [] = (if neg then [45; 48] else [48])) by (destruct neg; reflexivity). rewrite T in S. rewrite S. f_equal. f_equal.
      assert (Ng : negated (w_sign (Written (if neg then Minus else Nothing) [0] false [] None)) = neg) by (destruct neg; reflexivity). rewrite Ng in R. unfold now_contains in R. rewrite <- C in R.
      apply (replaced_same mem (Z.to_nat (offset t)) (Z.to_nat (subSize t))); [apply Hm|exact R].
Qed.
Print Assumptions C84_print_zero.

(** Infinity comes back as it was; a nan as a nan. *)
Theorem C84_special e cls id t mem p b neg M :
  float_member cls id t mem p b -> 0 <= M < 2 ^ (p - 1) -> contains t mem (pattern p b neg (2 ^ b - 1) M) ->
  exists s new M', GetReflectedValue (float_env e) cls (Z.of_nat id) mem = Some s /\
    s = (if neg then [45] else []) ++ (if M =? 0 then [105; 110; 102] else [110; 97; 110]) /\
    SetReflectedValue (float_env e) cls (Z.of_nat id) s mem = Some (ENone, new) /\
    now_contains t mem (pattern p b neg (2 ^ b - 1) M') new /\ (M = 0 -> new = mem) /\ (M <> 0 -> 0 < M' < 2 ^ (p - 1)).
Proof.
  intros Hm HM C. assert (F : fields p b (2 ^ b - 1) M) by (split; [exact HM|]; destruct Hm as (_ & _ & _ & [(_ & -> & ->)|(_ & -> & ->)]); lia).
  rewrite (get_api e cls id t mem p b Hm), (pattern_value cls id t mem p b Hm neg _ M F C).
  destruct (member_format cls id t mem p b Hm) as (Hf & P & B & _). set (f := format_of (Z.to_nat (subSize t))) in *. subst p b.
  set (s := (if neg then [45] else []) ++ (if M =? 0 then [105; 110; 102] else [110; 97; 110])). set (M' := if M =? 0 then 0 else 2 ^ (prec f - 2)).
  assert (G : GetFloat f (pattern (prec f) (ebits f) neg (2 ^ ebits f - 1) M) = s).
  { destruct (pattern_fields f Hf neg _ M F) as (E1 & E2 & E3 & _). unfold GetFloat. rewrite E1, E2, E3, Z.eqb_refl. unfold s. destruct neg, (M =? 0); reflexivity. }
  assert (Sk : skip_start s = s) by (unfold s; destruct neg, (M =? 0); reflexivity).
  assert (St : forall old, SetFloat f s old = (ENone, pattern (prec f) (ebits f) neg (2 ^ ebits f - 1) M')).
  { intros old. rewrite pattern_split. unfold s, M'. destruct Hf as [->| ->]; destruct neg, (M =? 0); reflexivity. }
  destruct (set_api e cls id t mem (prec f) (ebits f) Hm s ENone (pattern (prec f) (ebits f) neg (2 ^ ebits f - 1) M')) as (new & S1 & S2); [fold f; rewrite Sk; apply St|].
  exists s, new, M'. split; [rewrite G; reflexivity|]. split; [reflexivity|]. split; [exact S1|]. split; [exact S2|]. unfold M' in *. split.
  - intros ->. cbn [Z.eqb] in S2. unfold now_contains in S2. rewrite <- C in S2. apply (replaced_same mem (Z.to_nat (offset t)) (Z.to_nat (subSize t))); [apply Hm|exact S2].
  - intros N. destruct (Z.eqb_spec M 0); [contradiction|]. destruct Hf as [->| ->]; cbn; lia.
Qed.
Print Assumptions C84_special.

(** ** Text and value *)
(** Printing a normal value, reading the text back and printing again gives the same text.  The only error that
    can be reported is for a value that printed below the smallest normal value; then the member holds that
    value. *)
Theorem C84_text_stable e cls id t mem p b neg E M :
  float_member cls id t mem p b -> fields p b E M -> finite b E -> 1 <= E -> contains t mem (pattern p b neg E M) ->
  exists s err E' M' new, GetReflectedValue (float_env e) cls (Z.of_nat id) mem = Some s /\
    SetReflectedValue (float_env e) cls (Z.of_nat id) s mem = Some (err, new) /\
    now_contains t mem (pattern p b neg E' M') new /\ fields p b E' M' /\ finite b E' /\ 1 <= E' /\
    GetReflectedValue (float_env e) cls (Z.of_nat id) new = Some s /\
    (err = ENone \/ err = EOutOfRange /\ E' = 1 /\ M' = 0 /\ exists d, s = text_of d /\ proper d /\ (size_of d < smallest_normal b)%Q).
Proof.
  intros Hm F Fi E1 C. rewrite (get_api e cls id t mem p b Hm), (pattern_value cls id t mem p b Hm neg E M F C).
  destruct (member_format cls id t mem p b Hm) as (Hf & P & B & _). set (f := format_of (Z.to_nat (subSize t))) in *. subst p b.
  destruct (stable f Hf neg E M (le_value (bytes_at (Z.to_nat (offset t)) (Z.to_nat (subSize t)) mem)) F Fi E1) as (err & E' & M' & S & F' & Fi' & E1' & Same & Err).
  set (s := GetFloat f (pattern (prec f) (ebits f) neg E M)) in *.
  assert (Sk : skip_start s = s).
  { destruct (get_number f Hf neg E M F Fi ltac:(lia)) as (d & Gd & Pd & _). fold s in Gd. destruct (text_starts d [] Pd) as (c & r & T & H). rewrite app_nil_r in T. rewrite Gd, T. apply skip_start_id; lia. }
  destruct (set_api e cls id t mem (prec f) (ebits f) Hm s err (pattern (prec f) (ebits f) neg E' M')) as (new & S1 & S2); [fold f; rewrite Sk; exact S|].
  destruct (still_member cls id t mem (prec f) (ebits f) Hm _ _ S2) as [Hm' C'].
  exists s, err, E', M', new. split; [reflexivity|]. split; [exact S1|]. split; [exact S2|]. split; [exact F'|]. split; [exact Fi'|]. split; [exact E1'|]. split; [|exact Err].
  rewrite (get_api e cls id t new (prec f) (ebits f) Hm'), (pattern_value cls id t new (prec f) (ebits f) Hm' neg E' M' F' C'). fold f. rewrite Same. reflexivity.
Qed.
Print Assumptions C84_text_stable.

(** A number of at most 6 (double: 13) digits in the normal range survives: set from text, it prints as a number
    of the same value. *)
Theorem C84_digits_survive e cls id t mem p b d pre tail m j :
  float_member cls id t mem p b -> proper d -> spaces pre -> ends_number tail ->
  (smallest_normal b <= size_of d)%Q -> (size_of d < too_large p b)%Q ->
  (size_of d == inject_Z m * inject_Z 10 ^ j)%Q -> m < 10 ^ digits_printed p ->
  exists new d', SetReflectedValue (float_env e) cls (Z.of_nat id) (pre ++ text_of d ++ tail) mem = Some (ENone, new) /\
    GetReflectedValue (float_env e) cls (Z.of_nat id) new = Some (text_of d') /\ proper d' /\
    (size_of d' == size_of d)%Q /\ negated (w_sign d') = negated (w_sign d).
Proof.
  intros Hm Hd Hp Ht Lo Hi Ev Hmm. destruct (member_format cls id t mem p b Hm) as (Hf & P & B & D & _). set (f := format_of (Z.to_nat (subSize t))) in *. rewrite <- D in Hmm. clear D. subst p b.
  destruct (read_back d pre tail Hd Hp Ht) as (x & Sx & X2 & XV & X0 & XZ). rewrite normal_exp in Lo. rewrite <- XV in Lo, Hi. pose proof (pw_pos 2 (emin f) ltac:(lia)) as Pe.
  assert (Hg : good f) by (destruct Hf as [->| ->]; [apply good_single|apply good_double]). assert (HP : 1 <= digs f) by (destruct Hg as (_ & _ & ? & _); lia).
  assert (X1 : 0 < fst x). { assert (fst x <> 0) by (intros Z; apply XZ in Z; rewrite <- XV in Z; lra). lia. }
  change (inject_Z 10 ^ j)%Q with (pw 10 j) in Ev. pose proof (pw_pos 10 j ltac:(lia)) as Pj.
  assert (Hm0 : 0 < m).
  { rewrite inj_lt. change (inject_Z 0) with 0%Q. apply (Qmult_lt_r _ _ (pw 10 j)); [exact Pj|]. rewrite <- Ev, <- XV. lra. }
  assert (Nz : exists n k, 10 ^ (digs f - 1) <= n < 10 ^ digs f /\ (size_of d == inject_Z n * pw 10 k)%Q).
  { destruct (digits_spec m Hm0) as (A & B1 & B2). set (u := digits_less_one m) in *. assert (u < digs f) by (apply (Z.pow_lt_mono_r_iff 10); lia).
    exists (m * 10 ^ (digs f - 1 - u)), (j - (digs f - 1 - u)). assert (0 < 10 ^ (digs f - 1 - u)) by (apply Z.pow_pos_nonneg; lia).
    assert (Q1 : 10 ^ (digs f - 1) = 10 ^ u * 10 ^ (digs f - 1 - u)) by (rewrite <- Z.pow_add_r by lia; f_equal; lia).
    assert (Q2 : 10 ^ digs f = 10 ^ (u + 1) * 10 ^ (digs f - 1 - u)) by (rewrite <- Z.pow_add_r by lia; f_equal; lia).
    split; [rewrite Q1, Q2; split; [apply Z.mul_le_mono_nonneg_r; lia|apply Z.mul_lt_mono_pos_r; lia]|].
    rewrite Ev, inject_Z_mult, <- pw_nat, <- Qmult_assoc, <- pw_add by lia. replace (digs f - 1 - u + (j - (digs f - 1 - u))) with j by lia. reflexivity. }
  destruct Nz as (n & k & Hn & Vn). destruct (near_normal f Hg x X1 X2 Lo Hi) as (E & M & N & F & Fi & E1 & _ & Near).
  destruct (set_api e cls id t mem (prec f) (ebits f) Hm (pre ++ text_of d ++ tail) ENone (pattern (prec f) (ebits f) (negated (w_sign d)) E M)) as (new & S1 & S2).
  { fold f. rewrite (set_normal f _ _ x _ Sx X1 _ N); [rewrite pattern_split; reflexivity|]. unfold min_pattern. destruct F. nia. }
  destruct (still_member cls id t mem (prec f) (ebits f) Hm _ _ S2) as [Hm' C'].
  destruct (get_number f Hf (negated (w_sign d)) E M F Fi ltac:(lia)) as (d' & Gd & Pd & Sd & Vd & Nd & _). cbv zeta in Vd.
  destruct (fraction_magnitude f E M Hg F) as (Z2 & ZV & Z0 & Z1 & _).
  assert (Sc : scientific (digs f) (fraction f (E * 2 ^ (prec f - 1) + M)) = (n, k + digs f - 1)).
  { apply sci_close; try assumption; [lia|]. rewrite ZV, <- Vn, <- XV, Qabs_Qminus. rewrite XV in *.
    assert (4 * inject_Z (10 ^ digs f) <= pw 2 (prec f))%Q.
    { rewrite pw_nat by (destruct Hg; lia). change 4%Q with (inject_Z 4). rewrite <- inject_Z_mult, <- inj_le. destruct Hg as (_ & _ & _ & G). exact G. }
    pose proof (Qabs_nonneg (size_of d - magnitude (prec f) (ebits f) E M)). eapply Qle_trans; [|exact Near]. rewrite (Qmult_comm _ (4 * _)), (Qmult_comm _ (pw 2 (prec f))). apply Qmult_le_compat_r; assumption. }
  exists new, d'. split; [exact S1|]. split; [rewrite (get_api e cls id t new (prec f) (ebits f) Hm'), (pattern_value cls id t new (prec f) (ebits f) Hm' _ E M F C'); fold f; rewrite Gd; reflexivity|].
  split; [exact Pd|]. rewrite Sc in Vd. cbn [fst snd] in Vd. split; [rewrite Vd, Vn; replace (k + digs f - 1 - digs f + 1) with k by lia; reflexivity|]. rewrite Sd. destruct (negated (w_sign d)); reflexivity.
Qed.
Print Assumptions C84_digits_survive.

(** ** What does not hold, and examples *)
Definition ex_float := mkRefl RFloat RNone 4 0 1 0 0 0.
Definition ex_double := mkRefl RFloat RNone 8 0 1 0 0 0.
Definition ex_env := float_env (mkEnv (fun _ => None) (fun _ _ old => (ENone, old)) (fun _ _ => [])).
Fixpoint txt (s : string) : list Z := match s with EmptyString => [] | String c r => Z.of_nat (nat_of_ascii c) :: txt r end.

(** A value is not restored from its text: the float above one prints as 1. *)
Theorem C84_precision_refuted :
  GetReflectedValue ex_env [ex_float] 0 (le_bytes 4 (pattern 24 8 false 127 1)) = Some (txt "1") /\
  SetReflectedValue ex_env [ex_float] 0 (txt "1") (le_bytes 4 (pattern 24 8 false 127 1)) = Some (ENone, le_bytes 4 (pattern 24 8 false 127 0)).
Proof. split; vm_compute; reflexivity. Qed.
Print Assumptions C84_precision_refuted.
(** The smallest normal value cannot be read back without an error. *)
Theorem C84_smallest_normal_refuted :
  GetReflectedValue ex_env [ex_float] 0 (le_bytes 4 (pattern 24 8 false 1 0)) = Some (txt "1.17549e-38") /\
  SetReflectedValue ex_env [ex_float] 0 (txt "1.17549e-38") (le_bytes 4 (pattern 24 8 false 1 0)) = Some (EOutOfRange, le_bytes 4 (pattern 24 8 false 1 0)).
Proof. split; vm_compute; reflexivity. Qed.
Print Assumptions C84_smallest_normal_refuted.
(** Subnormal values print but do not come back. *)
Theorem C84_subnormal_refuted :
  GetReflectedValue ex_env [ex_float] 0 (le_bytes 4 (pattern 24 8 false 0 1)) = Some (txt "1.4013e-45") /\
  SetReflectedValue ex_env [ex_float] 0 (txt "1.4013e-45") (le_bytes 4 (pattern 24 8 false 0 1)) = Some (EOutOfRange, le_bytes 4 (pattern 24 8 false 1 0)).
Proof. split; vm_compute; reflexivity. Qed.
Print Assumptions C84_subnormal_refuted.
(** A positive number too small for a double becomes a negative value. *)
Theorem C84_sign_refuted :
  SetReflectedValue ex_env [ex_float] 0 (txt "1e-400") (le_bytes 4 0) = Some (EOutOfRange, le_bytes 4 (pattern 24 8 true 1 0)).
Proof. vm_compute; reflexivity. Qed.
Print Assumptions C84_sign_refuted.
(** What follows the number is ignored. *)
Theorem C84_trailing_text_refuted :
  SetReflectedValue ex_env [ex_float] 0 (txt "1.5xyz") (le_bytes 4 0) = Some (ENone, le_bytes 4 (pattern 24 8 false 127 (2 ^ 22))).
Proof. vm_compute; reflexivity. Qed.
Print Assumptions C84_trailing_text_refuted.

Example ex_member : float_member [ex_float] 0 ex_float (repeat 7 6) 24 8 /\ float_member [ex_double] 0 ex_double (repeat 7 8) 53 11.
Proof. split; (split; [reflexivity|]; split; [reflexivity|]; split; [unfold holds, inside; cbn; lia|]); [left|right]; repeat split; reflexivity. Qed.
Example ex_text : let d := Written Minus [1; 2] true [5; 0] (Some (101, Plus, [3])) in
  proper d /\ text_of d = txt "-12.50e+3" /\ (size_of d == 12500)%Q /\ spaces [32; 9] /\ ends_number (txt " kg") /\
  (smallest_normal 8 <= size_of d)%Q /\ (size_of d < too_large 24 8)%Q.
Proof. cbv zeta. repeat split; try (repeat constructor; lia); try discriminate; try (vm_compute; congruence); vm_compute; intuition congruence. Qed.
Example ex_set : let new := le_bytes 4 (pattern 24 8 true 140 4411392) ++ [7; 7] in
  SetReflectedValue ex_env [ex_float] 0 (txt " -12.50e+3 kg") (repeat 7 6) = Some (ENone, new) /\
  GetReflectedValue ex_env [ex_float] 0 new = Some (txt "-12500").
Proof. split; vm_compute; reflexivity. Qed.
Example ex_tie : SetReflectedValue ex_env [ex_float] 0 (txt "16777217") (repeat 7 4) = Some (ENone, le_bytes 4 (pattern 24 8 false 151 0)).
Proof. vm_compute. reflexivity. Qed.
Example ex_large : SetReflectedValue ex_env [ex_float] 0 (txt "-3.4028236e38") (repeat 7 4) = Some (EOutOfRange, le_bytes 4 (pattern 24 8 true 254 (2 ^ 23 - 1))).
Proof. vm_compute. reflexivity. Qed.
Example ex_double_text : GetReflectedValue ex_env [ex_double] 0 (le_bytes 8 (pattern 53 11 false 1021 (2 ^ 52 / 3))) = Some (txt "0.3333333333333").
Proof. vm_compute. reflexivity. Qed.
Example ex_invalid : no_number (txt "  -.e5") /\ no_number (txt "abc") /\ no_number [].
Proof.
  split; [exists [32; 32], Minus, (txt ".e5")|split; [exists [], Nothing, (txt "abc")|exists [], Nothing, []]]; (split; [reflexivity|]; split; [repeat constructor|]); cbn; try exact I;
    repeat split; try lia; intros; try discriminate; lia.
Qed.
Example ex_normal : fields 24 8 130 77 /\ finite 8 130 /\ contains ex_float (le_bytes 4 (pattern 24 8 true 130 77)) (pattern 24 8 true 130 77).
Proof. repeat split; vm_compute; try congruence; reflexivity. Qed.
