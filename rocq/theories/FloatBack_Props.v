(** C84, C67: floating point values that come back from their own text. *)
From Coq Require Import Strings.Ascii Strings.String.
From Coq Require Import QArith Qabs Qpower Lqa Lia.
From Verif Require Import Base Supercore_Model Jenkins_Model Reflector_Model Reflector_Spec Reflector_Proof Reflector_Props.
From Verif Require Import FloatText_Model FloatText_Proof FloatText_Proof2 FloatText_Spec FloatText_Text FloatText_Near FloatText_Near2 FloatText_Print FloatText_Props FloatBack_Proof.
From Verif Require Import XmlRefl_Model XmlRefl_Spec XmlRefl_Leaf_Proof.
Local Open Scope Z_scope.

(** The value is nearer to [v] than any other value of the format is. *)
Definition closest_to (p b E M : Z) (v : Q) : Prop :=
  fields p b E M /\ finite b E /\
  forall E' M', fields p b E' M' -> finite b E' -> (E', M') <> (E, M) -> (Qabs (v - magnitude p b E M) < Qabs (v - magnitude p b E' M'))%Q.
(** Zero, infinity, and what a decimal number of at most 6 (double: 13) digits stands for. *)
Definition few_digits (p b E M : Z) : Prop :=
  (E = 0 /\ M = 0) \/ (E = 2 ^ b - 1 /\ M = 0) \/
  exists n k, 0 < n < 10 ^ digits_printed p /\
    (smallest_normal b <= inject_Z n * inject_Z 10 ^ k)%Q /\ (inject_Z n * inject_Z 10 ^ k < too_large p b)%Q /\
    closest_to p b E M (inject_Z n * inject_Z 10 ^ k).

Lemma digs_printed f : f = single \/ f = double -> digs f = digits_printed (prec f).
Proof. intros [->| ->]; reflexivity. Qed.
(** the text of such a value, and what is read from it *)
Lemma few_back f : f = single \/ f = double -> forall neg E M, fields (prec f) (ebits f) E M -> few_digits (prec f) (ebits f) E M ->
  let s := GetFloat f (pattern (prec f) (ebits f) neg E M) in
  (forall old, SetFloat f s old = (ENone, pattern (prec f) (ebits f) neg E M)) /\
  plain_element s /\ Forall (fun c => 32 <= c <= 126 /\ c <> 60 /\ c <> 38) s /\ skip_start s = s.
Proof.
  intros Hf neg E M F [(-> & ->)|[(-> & ->)|(n & k & Hn & Lo & Hi & C)]] s.
  - assert (Es : s = if neg then [45; 48] else [48]) by (unfold s; destruct Hf as [->| ->]; destruct neg; reflexivity). rewrite Es.
    split; [intros old; destruct Hf as [->| ->]; destruct neg; reflexivity|]. split; [|split; [destruct neg; repeat constructor; lia|destruct neg; reflexivity]].
    split; [destruct neg; repeat constructor; unfold special; cbn [In]; lia|]. destruct neg; eexists; eexists; split; try reflexivity; lia.
  - assert (Es : s = if neg then [45; 105; 110; 102] else [105; 110; 102]) by (unfold s; destruct Hf as [->| ->]; destruct neg; vm_compute; reflexivity). rewrite Es.
    split; [intros old; destruct Hf as [->| ->]; destruct neg; vm_compute; reflexivity|]. split; [|split; [destruct neg; repeat constructor; lia|destruct neg; reflexivity]].
    split; [destruct neg; repeat constructor; unfold special; cbn [In]; lia|]. destruct neg; eexists; eexists; split; try reflexivity; lia.
  - assert (Hg : good f) by (destruct Hf as [->| ->]; [apply good_single|apply good_double]). rewrite <- digs_printed in Hn by exact Hf. change (inject_Z 10 ^ k)%Q with (pw 10 k) in *.
    set (x := mulp 10 k (n, 1)). assert (X2 : 0 < snd x) by (apply mulp_pos; cbn; lia). assert (X1 : 0 < fst x) by (apply mulp_num_pos; cbn; lia).
    assert (XV : (frac x == inject_Z n * pw 10 k)%Q). { unfold x. rewrite frac_mulp by (cbn; lia). unfold frac. cbn [fst snd]. change (inject_Z 1) with 1%Q. field. }
    rewrite normal_exp in Lo. rewrite <- XV in Lo, Hi. destruct (near_normal f Hg x X1 X2 Lo Hi) as (E1 & M1 & N1 & F1 & Fi1 & H1 & Best & Near).
    assert (EM : (E1, M1) = (E, M)).
    { destruct C as (_ & _ & C). destruct (Z.eq_dec E1 E) as [->|NE]; [destruct (Z.eq_dec M1 M) as [->|NM]; [reflexivity|]|]; exfalso;
        (specialize (C _ _ F1 Fi1 ltac:(congruence)); destruct (Best _ _ F) as [Le _]; rewrite <- XV in C; lra). }
    injection EM as -> ->. destruct (shows f Hf neg E M n k (frac x) F Fi1 H1 Hn XV Near) as (d & G & P & Sg & V). fold s in G.
    destruct (text_plain d P) as [T1 T2]. rewrite G. split; [|split; [exact T1|split; [exact T2|]]].
    + destruct (strtod_written d [] [] P ltac:(constructor) I) as (y & Sy & Y2 & YV & Y0 & _). cbn [app] in Sy. rewrite app_nil_r in Sy.
      assert (Ng : negated (w_sign d) = neg) by (rewrite Sg; destruct neg; reflexivity). rewrite Ng in Sy. assert (FE : (frac y == frac x)%Q) by (rewrite YV, V; reflexivity).
      assert (Y1 : 0 < fst y). { destruct (Z.eq_dec (fst y) 0) as [Z|]; [|lia]. pose proof (frac_pos x X1 X2) as Fx. rewrite <- FE in Fx. unfold frac in Fx. rewrite Z in Fx. change (inject_Z 0) with 0%Q in Fx. unfold Qdiv in Fx. rewrite Qmult_0_l in Fx. lra. }
      intros old. destruct (near_normal f Hg y Y1 Y2) as (E2 & M2 & N2 & F2 & _ & H2 & _); [rewrite FE; exact Lo|rewrite FE; exact Hi|].
      pose proof (nearest_eq f y x Y1 Y2 X1 X2 FE) as Q. rewrite N1, N2 in Q. cbn [fst] in Q.
      rewrite (set_normal f _ neg y old Sy Y1 _ N2); [|unfold min_pattern; destruct F2; nia]. rewrite Q, pattern_split. reflexivity.
    + destruct (text_starts d [] P) as (c & r & T & H). rewrite app_nil_r in T. rewrite T. apply skip_start_id; lia.
Qed.

(** Such a value is restored: its text, set again in any object of the class, stores the same bytes without an
    error. *)
Theorem C84_restored e cls id t mem p b neg E M :
  float_member cls id t mem p b -> contains t mem (pattern p b neg E M) -> fields p b E M -> few_digits p b E M ->
  exists s, GetReflectedValue (float_env e) cls (Z.of_nat id) mem = Some s /\
    SetReflectedValue (float_env e) cls (Z.of_nat id) s mem = Some (ENone, mem) /\
    forall mem2, float_member cls id t mem2 p b ->
      exists new, SetReflectedValue (float_env e) cls (Z.of_nat id) s mem2 = Some (ENone, new) /\ now_contains t mem2 (pattern p b neg E M) new.
Proof.
  intros Hm C F Few. rewrite (get_api e cls id t mem p b Hm), (pattern_value cls id t mem p b Hm neg E M F C).
  destruct (member_format cls id t mem p b Hm) as (Hf & P & B & _). destruct (few_back (format_of (Z.to_nat (subSize t))) Hf neg E M) as (S & _ & _ & Sk); [rewrite P, B; exact F|rewrite P, B; exact Few|].
  rewrite P, B in S, Sk. eexists. split; [reflexivity|].
  assert (A : forall mem2, float_member cls id t mem2 p b -> exists new, SetReflectedValue (float_env e) cls (Z.of_nat id) (GetFloat (format_of (Z.to_nat (subSize t))) (pattern p b neg E M)) mem2 = Some (ENone, new) /\ now_contains t mem2 (pattern p b neg E M) new).
  { intros mem2 Hm2. apply set_api with (p := p) (b := b); [exact Hm2|]. rewrite Sk. apply S. }
  split; [|exact A]. destruct (A mem Hm) as (new & -> & R). f_equal. f_equal. unfold now_contains in R. rewrite <- C in R. apply (replaced_same mem (Z.to_nat (offset t)) (Z.to_nat (subSize t))); [apply Hm|exact R].
Qed.
Print Assumptions C84_restored.

(** What a text of at most 6 (double: 13) digits stored is printed as a text that stores the same bytes in any
    object of the class, also where two values were equally near. *)
Theorem C84_decimal_restored e cls id t mem p b d pre tail n k :
  float_member cls id t mem p b -> proper d -> spaces pre -> ends_number tail ->
  (smallest_normal b <= size_of d)%Q -> (size_of d < too_large p b)%Q ->
  (size_of d == inject_Z n * inject_Z 10 ^ k)%Q -> n < 10 ^ digits_printed p ->
  exists new s, SetReflectedValue (float_env e) cls (Z.of_nat id) (pre ++ text_of d ++ tail) mem = Some (ENone, new) /\
    GetReflectedValue (float_env e) cls (Z.of_nat id) new = Some s /\
    forall mem2, float_member cls id t mem2 p b ->
      exists new2, SetReflectedValue (float_env e) cls (Z.of_nat id) s mem2 = Some (ENone, new2) /\
        replaced mem2 (Z.to_nat (offset t)) (bytes_at (Z.to_nat (offset t)) (Z.to_nat (subSize t)) new) new2.
Proof.
  intros Hm Hd Hp Ht Lo Hi Ev Hn. destruct (member_format cls id t mem p b Hm) as (Hf & P & B & D & _). set (f := format_of (Z.to_nat (subSize t))) in *. rewrite <- D in Hn. clear D. subst p b.
  assert (Hg : good f) by (destruct Hf as [->| ->]; [apply good_single|apply good_double]).
  destruct (read_back d pre tail Hd Hp Ht) as (x & Sx & X2 & XV & X0 & XZ). pose proof Lo as Lo'. pose proof Hi as Hi'. rewrite normal_exp in Lo. rewrite <- XV in Lo, Hi. pose proof (pw_pos 2 (emin f) ltac:(lia)) as Pe.
  assert (X1 : 0 < fst x). { assert (fst x <> 0) by (intros Z; apply XZ in Z; rewrite <- XV in Z; lra). lia. }
  destruct (near_normal f Hg x X1 X2 Lo Hi) as (E & M & N & F & _ & E1 & _).
  assert (St : forall old, SetFloat f (skip_start (pre ++ text_of d ++ tail)) old = (ENone, pattern (prec f) (ebits f) (negated (w_sign d)) E M)).
  { intros old. rewrite (set_normal f _ _ x _ Sx X1 _ N); [rewrite pattern_split; reflexivity|]. unfold min_pattern. destruct F. nia. }
  destruct (set_api e cls id t mem (prec f) (ebits f) Hm (pre ++ text_of d ++ tail) _ _ (St _)) as (new & S1 & S2).
  destruct (still_member cls id t mem (prec f) (ebits f) Hm _ _ S2) as [Hm' C'].
  destruct (strtod_written d [] [] Hd ltac:(constructor) I) as (y & Sy & Y2 & YV & Y0 & _). cbn [app] in Sy. rewrite app_nil_r in Sy.
  assert (Y1 : 0 < fst y). { destruct (Z.eq_dec (fst y) 0) as [Z|]; [|lia]. exfalso. assert (Q : (frac y == 0)%Q) by (unfold frac; rewrite Z; apply Qmult_0_l). rewrite YV, <- XV in Q. lra. }
  assert (Sd : SetFloat f (text_of d) 0 = (ENone, pattern (prec f) (ebits f) (negated (w_sign d)) E M)).
  { eapply (same_number f Hf _ _ _ x y 0 0 E M Sx Sy X1 X2 Y1 Y2); [rewrite XV, YV; reflexivity|exact Lo|exact Hi|apply St]. }
  exists new, (GetFloat f (pattern (prec f) (ebits f) (negated (w_sign d)) E M)). split; [exact S1|].
  split; [rewrite (get_api e cls id t new (prec f) (ebits f) Hm'), (pattern_value cls id t new (prec f) (ebits f) Hm' _ E M F C'); reflexivity|].
  intros mem2 Hm2. unfold contains in C'. rewrite C'. apply set_api with (p := prec f) (b := ebits f); [exact Hm2|]. fold f.
  destruct (decimal_back f Hf (text_of d) d 0 E M n k Hd eq_refl Lo' Hi' Ev Hn Sd F (le_value (bytes_at (Z.to_nat (offset t)) (Z.to_nat (subSize t)) mem2))) as (Bk & d' & G' & P').
  assert (Sk : skip_start (text_of d') = text_of d') by (destruct (text_starts d' [] P') as (c & r & T & H); rewrite app_nil_r in T; rewrite T; apply skip_start_id; lia).
  rewrite G' in *. rewrite Sk. exact Bk.
Qed.
Print Assumptions C84_decimal_restored.

(** A normal value changes at most once: the text printed for it stores some value, and printing and setting that
    value again leaves it as it is. *)
Lemma set_any f s old old' err w : SetFloat f s old = (err, w) -> err <> EInvalidFormat -> SetFloat f s old' = (err, w).
Proof. unfold SetFloat. destruct (strtod s); try (intros <- ?; reflexivity); try (intros H ?; exact H). intros H N. injection H as <- <-. exfalso. apply N. reflexivity. Qed.
Theorem C84_settles e cls id t mem p b neg E M :
  float_member cls id t mem p b -> fields p b E M -> finite b E -> 1 <= E -> contains t mem (pattern p b neg E M) ->
  exists s err new, GetReflectedValue (float_env e) cls (Z.of_nat id) mem = Some s /\
    SetReflectedValue (float_env e) cls (Z.of_nat id) s mem = Some (err, new) /\
    GetReflectedValue (float_env e) cls (Z.of_nat id) new = Some s /\
    SetReflectedValue (float_env e) cls (Z.of_nat id) s new = Some (err, new).
Proof.
  intros Hm F Fi E1 C. rewrite (get_api e cls id t mem p b Hm), (pattern_value cls id t mem p b Hm neg E M F C).
  destruct (member_format cls id t mem p b Hm) as (Hf & P & B & _). set (f := format_of (Z.to_nat (subSize t))) in *. subst p b.
  destruct (stable f Hf neg E M 0 F Fi E1) as (err & E' & M' & S & F' & Fi' & E1' & Same & Err). assert (NI : err <> EInvalidFormat) by (destruct Err as [->|(-> & _)]; discriminate).
  set (s := GetFloat f (pattern (prec f) (ebits f) neg E M)) in *.
  assert (Sk : skip_start s = s).
  { destruct (get_number f Hf neg E M F Fi ltac:(lia)) as (d & Gd & Pd & _). fold s in Gd. destruct (text_starts d [] Pd) as (c & r & T & H). rewrite app_nil_r in T. rewrite Gd, T. apply skip_start_id; lia. }
  destruct (set_api e cls id t mem (prec f) (ebits f) Hm s err (pattern (prec f) (ebits f) neg E' M')) as (new & S1 & S2); [fold f; rewrite Sk; apply (set_any f s 0); [exact S|exact NI]|].
  destruct (still_member cls id t mem (prec f) (ebits f) Hm _ _ S2) as [Hm' C'].
  exists s, err, new. split; [reflexivity|]. split; [exact S1|]. split.
  - rewrite (get_api e cls id t new (prec f) (ebits f) Hm'), (pattern_value cls id t new (prec f) (ebits f) Hm' neg E' M' F' C'). fold f. rewrite Same. reflexivity.
  - destruct (set_api e cls id t new (prec f) (ebits f) Hm' s err (pattern (prec f) (ebits f) neg E' M')) as (new2 & S3 & S4); [fold f; rewrite Sk; apply (set_any f s 0); [exact S|exact NI]|].
    rewrite S3. f_equal. f_equal. unfold now_contains in S4. rewrite <- C' in S4. apply (replaced_same new (Z.to_nat (offset t)) (Z.to_nat (subSize t))); [apply Hm'|exact S4].
Qed.
Print Assumptions C84_settles.

(** ** In XML *)
(** A float or double holding such a value is one whose text says it all, as C67 and C68 require of members. *)
Theorem C67_float_values e t addr a p b neg E M :
  type t = RFloat -> (subSize t = 4 /\ p = 24 /\ b = 8 \/ subSize t = 8 /\ p = 53 /\ b = 11) ->
  inside addr (Z.to_nat (subSize t)) a -> bytes_at addr (Z.to_nat (subSize t)) a = le_bytes (Z.to_nat (subSize t)) (pattern p b neg E M) ->
  fields p b E M -> few_digits p b E M ->
  single_value (float_env e) t addr a.
Proof.
  intros T Sz In Bt F Few. unfold single_value. rewrite T. split; [exact In|]. split; [lia|]. cbv zeta. cbn [float_env print_float parse_float]. rewrite Bt.
  set (f := format_of (Z.to_nat (subSize t))). assert (X : (f = single \/ f = double) /\ prec f = p /\ ebits f = b /\ 256 ^ Z.of_nat (Z.to_nat (subSize t)) = 2 ^ (p + b)) by (destruct Sz as [(S & -> & ->)|(S & -> & ->)]; unfold f; rewrite S; repeat split; auto).
  destruct X as (Hf & P & B & W). assert (V : le_value (le_bytes (Z.to_nat (subSize t)) (pattern p b neg E M)) = pattern p b neg E M).
  { rewrite le_value_bytes, W. apply Z.mod_small. rewrite <- P, <- B in *. apply (pattern_fields f Hf neg E M F). }
  rewrite V. destruct (few_back f Hf neg E M) as (S & P1 & P2 & _); [rewrite P, B; exact F|rewrite P, B; exact Few|]. rewrite P, B in S, P1, P2.
  split; [exact P1|]. split; [exact P2|]. intros old _. rewrite S. reflexivity.
Qed.
Print Assumptions C67_float_values.

(** ** Examples *)
(** two finite patterns of one magnitude are the same *)
Lemma magnitude_in f : good f -> forall E M, fields (prec f) (ebits f) E M -> 1 <= E ->
  (pw 2 (qmin f + E - 1 + (prec f - 1)) <= magnitude (prec f) (ebits f) E M)%Q /\ (magnitude (prec f) (ebits f) E M < pw 2 (qmin f + E - 1 + (prec f - 1) + 1))%Q.
Proof.
  intros Hg E M F H. destruct (magnitude_grid f E M Hg F) as (m & j & -> & Hm & -> & ->). replace (E =? 0) with false in * by lia.
  replace (qmin f + E - 1 + (prec f - 1) + 1) with (prec f + (qmin f + (E - 1))) by lia. replace (qmin f + E - 1 + (prec f - 1)) with (prec f - 1 + (qmin f + (E - 1))) by lia.
  pose proof (pw_pos 2 (qmin f + (E - 1)) ltac:(lia)) as P. rewrite !(pw_add 2 _ (qmin f + (E - 1))) by lia. rewrite !(pw_nat 2) by (destruct Hg; lia).
  split; [apply Qmult_le_compat_r; [rewrite <- inj_le; destruct F; lia|lra]|apply (proj2 (Qmult_lt_r _ _ _ P)); rewrite (pw_nat 2) by (destruct Hg; lia); rewrite <- inj_lt; lia].
Qed.
Lemma magnitude_low f : good f -> forall M, fields (prec f) (ebits f) 0 M -> (magnitude (prec f) (ebits f) 0 M < pw 2 (emin f))%Q.
Proof.
  intros Hg M F. destruct (magnitude_grid f 0 M Hg F) as (m & j & -> & Hm & -> & ->). cbn [Z.eqb]. unfold emin. replace (qmin f + prec f - 1) with (prec f - 1 + (qmin f + 0)) by lia.
  assert (A : (pw 2 (prec f - 1 + (qmin f + 0)) == inject_Z (2 ^ (prec f - 1)) * pw 2 (qmin f + 0))%Q) by (rewrite pw_add by lia; rewrite (pw_nat 2 (prec f - 1)) by (destruct Hg; lia); reflexivity). rewrite A. apply (proj2 (Qmult_lt_r _ _ _ (pw_pos 2 (qmin f + 0) ltac:(lia)))). rewrite <- inj_lt. destruct F. lia.
Qed.
Lemma magnitude_inj f : good f -> forall E M E' M', fields (prec f) (ebits f) E M -> fields (prec f) (ebits f) E' M' ->
  (magnitude (prec f) (ebits f) E M == magnitude (prec f) (ebits f) E' M')%Q -> E = E' /\ M = M'.
Proof.
  intros Hg E M E' M' F F' Q. assert (EE : E = E').
  { destruct (Z.eq_dec E 0) as [->|N]; destruct (Z.eq_dec E' 0) as [->|N']; [reflexivity| | |].
    - pose proof (magnitude_low f Hg M F) as L. destruct (magnitude_in f Hg E' M' F' ltac:(destruct F'; lia)) as [L' _]. pose proof (pw_le 2 (emin f) (qmin f + E' - 1 + (prec f - 1)) ltac:(lia) ltac:(unfold emin; destruct F'; lia)). lra.
    - pose proof (magnitude_low f Hg M' F') as L. destruct (magnitude_in f Hg E M F ltac:(destruct F; lia)) as [L' _]. pose proof (pw_le 2 (emin f) (qmin f + E - 1 + (prec f - 1)) ltac:(lia) ltac:(unfold emin; destruct F; lia)). lra.
    - destruct (magnitude_in f Hg E M F ltac:(destruct F; lia)) as [A B]. destruct (magnitude_in f Hg E' M' F' ltac:(destruct F'; lia)) as [A' B']. rewrite <- Q in A', B'.
      pose proof (log_unique 2 _ _ _ ltac:(lia) A B A' B'). lia. }
  split; [exact EE|]. subst E'. destruct (magnitude_grid f E M Hg F) as (m & j & Q1 & _ & Hm & Hj). destruct (magnitude_grid f E M' Hg F') as (m' & j' & Q2 & _ & Hm' & Hj').
  rewrite Q1, Q2 in Q. replace j' with j in Q by lia. pose proof (pw_pos 2 j ltac:(lia)) as P.
  assert (Qi : (inject_Z m == inject_Z m')%Q) by (apply Qmult_inj_r in Q; [exact Q|lra]). unfold Qeq in Qi. cbn in Qi. destruct (E =? 0); lia.
Qed.
(** a value that is exactly a decimal number of few digits *)
Lemma exact_few f : f = single \/ f = double -> forall E M n k, fields (prec f) (ebits f) E M -> finite (ebits f) E -> 1 <= E ->
  0 < n < 10 ^ digits_printed (prec f) -> (magnitude (prec f) (ebits f) E M == inject_Z n * inject_Z 10 ^ k)%Q -> few_digits (prec f) (ebits f) E M.
Proof.
  intros Hf E M n k F Fi H Hn Q. assert (Hg : good f) by (destruct Hf as [->| ->]; [apply good_single|apply good_double]). right. right. exists n, k. split; [exact Hn|].
  split; [rewrite <- Q, normal_exp; apply magnitude_normal; assumption|]. split.
  - rewrite <- Q. rewrite (too_large_at f Hg (1, 1)). eapply Qle_lt_trans; [apply magnitude_max; eassumption|]. apply (proj2 (Qmult_lt_r _ _ _ (pw_pos 2 _ ltac:(lia)))). rewrite inject_sub. change (inject_Z 1) with 1%Q. lra.
  - split; [exact F|]. split; [exact Fi|]. intros E' M' F' Fi' N.
    assert (Z : (Qabs (inject_Z n * inject_Z 10 ^ k - magnitude (prec f) (ebits f) E M) == 0)%Q) by (rewrite Q; setoid_replace (inject_Z n * inject_Z 10 ^ k - inject_Z n * inject_Z 10 ^ k)%Q with 0%Q by ring; reflexivity).
    rewrite Z. destruct (Qlt_le_dec 0 (Qabs (inject_Z n * inject_Z 10 ^ k - magnitude (prec f) (ebits f) E' M'))) as [|L]; [assumption|]. exfalso. apply N.
    apply Qabs_Qle_condition in L. destruct (magnitude_inj f Hg E' M' E M F' F) as [-> ->]; [rewrite Q; lra|reflexivity].
Qed.
(** a value that is nearest to a decimal number of few digits, and odd, so that no other is as near *)
Lemma odd_few f : f = single \/ f = double -> forall E M n k, fields (prec f) (ebits f) E M -> finite (ebits f) E ->
  0 < n < 10 ^ digits_printed (prec f) -> (smallest_normal (ebits f) <= inject_Z n * inject_Z 10 ^ k)%Q -> (inject_Z n * inject_Z 10 ^ k < too_large (prec f) (ebits f))%Q ->
  fst (nearest f (mulp 10 k (n, 1))) = E * 2 ^ (prec f - 1) + M -> Z.even M = false -> few_digits (prec f) (ebits f) E M.
Proof.
  intros Hf E M n k F Fi Hn Lo Hi Ne Od. assert (Hg : good f) by (destruct Hf as [->| ->]; [apply good_single|apply good_double]). right. right. exists n, k. repeat split; try assumption; try apply F; try lia.
  change (inject_Z 10 ^ k)%Q with (pw 10 k) in *. set (x := mulp 10 k (n, 1)) in *. assert (X2 : 0 < snd x) by (apply mulp_pos; cbn; lia). assert (X1 : 0 < fst x) by (apply mulp_num_pos; cbn; lia).
  assert (XV : (frac x == inject_Z n * pw 10 k)%Q). { unfold x. rewrite frac_mulp by (cbn; lia). unfold frac. cbn [fst snd]. change (inject_Z 1) with 1%Q. field. }
  rewrite normal_exp in Lo. rewrite <- XV in Lo, Hi. destruct (near_normal f Hg x X1 X2 Lo Hi) as (E1 & M1 & N1 & F1 & _ & _ & Best & _). rewrite N1 in Ne. cbn [fst] in Ne.
  assert (EM : E1 = E /\ M1 = M) by (destruct F as [[? ?] _], F1 as [[? ?] _]; assert (E1 = E) by nia; split; [assumption|nia]). destruct EM as [-> ->].
  intros E' M' F' _ NE. destruct (Best E' M' F') as [Le Tie]. rewrite <- XV. destruct (Qeq_dec (Qabs (frac x - magnitude (prec f) (ebits f) E' M')) (Qabs (frac x - magnitude (prec f) (ebits f) E M))) as [Q|Q]; [exfalso|destruct (Qle_lt_or_eq _ _ Le) as [|K]; [assumption|exfalso; apply Q; rewrite K; reflexivity]].
  destruct (Qeq_dec (magnitude (prec f) (ebits f) E' M') (magnitude (prec f) (ebits f) E M)) as [K|K].
  - destruct (magnitude_inj f Hg E' M' E M F' F K) as [-> ->]. apply NE. reflexivity.
  - rewrite (Tie Q K) in Od. discriminate.
Qed.
Example ex_tenth : few_digits 24 8 123 5033165 /\ fields 24 8 123 5033165.                                  (* 0.1 *)
Proof.
  split; [|unfold fields; lia]. apply (odd_few single (or_introl eq_refl) 123 5033165 1 (-1)); try (vm_compute; split; congruence); try reflexivity; try (vm_compute; congruence); try (cbn; lia).
  all: unfold fields; cbn; lia.
Qed.
Example ex_eighths : few_digits 53 11 1021 (2 ^ 51) /\ fields 53 11 1021 (2 ^ 51).                          (* 0.375 *)
Proof. split; [|unfold fields; lia]. apply (exact_few double (or_intror eq_refl) 1021 (2 ^ 51) 375 (-3)); try reflexivity; try lia; try (cbn; lia). unfold fields; cbn; lia. Qed.

(** an object with a float that is restored, and one that is not *)
Definition f_cls : xcls := Eval vm_compute in mkX [70] (jenkins 64 [70]) [mkRefl RFloat RNone 4 0 0 0 (jenkins 64 [102]) 0] (Some [[102]]) None.
Definition f_tenth : list Z := Eval vm_compute in le_bytes 4 (pattern 24 8 false 123 5033165).
Example ex_float_writable : writable 1 ex_env (fun _ => None) (f_cls, 0%nat) f_tenth.
Proof.
  cbn [writable]. split; [|split; [cbn; lia|]].
  - split; [cbn; repeat (apply NoDup_cons; [cbn [In]; lia|]); apply NoDup_nil|]. split; [|split; [reflexivity|]].
    + intros i t H. destruct i as [|[|i]]; try discriminate H. injection H as <-. split; [reflexivity|vm_compute; split; congruence].
    + split; [reflexivity|]. split; [constructor; [|constructor]; split; [discriminate|]; constructor; [lia|constructor]|vm_compute; reflexivity].
  - intros t [<-|[]]. split; [intros [[K|K]|[[K|K] _]]; discriminate K|]. intros _ _. split.
    + split; [cbn; lia|]. left. destruct ex_tenth as [A B]. apply C67_float_values with (p := 24) (b := 8) (neg := false) (E := 123) (M := 5033165); [reflexivity|left; repeat split; reflexivity|unfold inside; cbn; lia|vm_compute; reflexivity|exact B|exact A].
    + intros s Hs. vm_compute in Hs. injection Hs as <-. reflexivity.
Qed.
Example ex_float_xml : exists doc, Save 1 ex_env (fun _ => None) (f_cls, 0%nat) f_tenth (Elem [114] [] []) false = Some doc /\
  xkids doc = [Elem [102] [] [Txt (txt "0.1")]] /\
  Load 1 ex_env (fun _ => None) (f_cls, 0%nat) doc false [1; 2; 3; 4] = Some f_tenth.
Proof. eexists. split; [vm_compute; reflexivity|]. split; vm_compute; reflexivity. Qed.
(** The float above one does not survive a file. *)
Theorem C67_float_refuted : exists doc,
  Save 1 ex_env (fun _ => None) (f_cls, 0%nat) (le_bytes 4 (pattern 24 8 false 127 1)) (Elem [114] [] []) false = Some doc /\
  Load 1 ex_env (fun _ => None) (f_cls, 0%nat) doc false [1; 2; 3; 4] = Some (le_bytes 4 (pattern 24 8 false 127 0)).
Proof. eexists. split; [vm_compute; reflexivity|]. vm_compute; reflexivity. Qed.
Print Assumptions C67_float_refuted.
