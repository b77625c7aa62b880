(** C84: values with the same text are near each other, so that printing and setting keeps six (thirteen) digits. *)
From Coq Require Import Strings.Ascii Strings.String.
From Coq Require Import QArith Qabs Qpower Lqa Lia.
From Verif Require Import Base Supercore_Model Jenkins_Model Reflector_Model Reflector_Spec Reflector_Proof Reflector_Props.
From Verif Require Import FloatText_Model FloatText_Proof FloatText_Proof2 FloatText_Spec FloatText_Text FloatText_Near FloatText_Near2 FloatText_Print FloatText_Props FloatBack_Proof.
Local Open Scope Z_scope.

Lemma one_scale P n n' k k' : 1 <= P -> 10 ^ (P - 1) <= n < 10 ^ P -> 10 ^ (P - 1) <= n' < 10 ^ P ->
  (inject_Z n * pw 10 k == inject_Z n' * pw 10 k')%Q -> k = k' /\ n = n'.
Proof.
  intros HP Hn Hn' E.
  assert (B : forall m j, 10 ^ (P - 1) <= m < 10 ^ P -> (pw 10 (P - 1 + j) <= inject_Z m * pw 10 j)%Q /\ (inject_Z m * pw 10 j < pw 10 (P - 1 + j + 1))%Q).
  { intros m j Hm. pose proof (pw_pos 10 j ltac:(lia)) as Pj. replace (P - 1 + j + 1) with (P + j) by lia. rewrite (pw_add 10 (P - 1) j), (pw_add 10 P j) by lia. rewrite (pw_nat 10 (P - 1)), (pw_nat 10 P) by lia.
    split; [apply Qmult_le_compat_r; [rewrite <- inj_le; lia|lra]|apply (proj2 (Qmult_lt_r _ _ _ Pj)); rewrite <- inj_lt; lia]. }
  destruct (B n k Hn) as [A1 A2]. destruct (B n' k' Hn') as [B1 B2]. rewrite <- E in B1, B2. pose proof (log_unique 10 _ _ _ ltac:(lia) A1 A2 B1 B2) as K.
  assert (k = k') by lia. subst k'. split; [reflexivity|]. pose proof (pw_pos 10 k ltac:(lia)) as Pk. apply Qmult_inj_r in E; [|lra]. unfold Qeq in E. cbn in E. lia.
Qed.

Lemma same_text_near f : f = single \/ f = double -> forall neg E M neg' E' M',
  fields (prec f) (ebits f) E M -> finite (ebits f) E -> ~ (E = 0 /\ M = 0) ->
  fields (prec f) (ebits f) E' M' -> finite (ebits f) E' -> ~ (E' = 0 /\ M' = 0) ->
  GetFloat f (pattern (prec f) (ebits f) neg E M) = GetFloat f (pattern (prec f) (ebits f) neg' E' M') ->
  neg = neg' /\ (Qabs (magnitude (prec f) (ebits f) E' M' - magnitude (prec f) (ebits f) E M) <= inject_Z 10 ^ (1 - digs f) * magnitude (prec f) (ebits f) E M)%Q.
Proof.
  intros Hf neg E M neg' E' M' F Fi NZ F' Fi' NZ' T. assert (Hg : good f) by (destruct Hf as [->| ->]; [apply good_single|apply good_double]).
  assert (HP : 1 <= digs f) by (destruct Hg as (_ & _ & ? & _); lia).
  destruct (get_number f Hf neg E M F Fi NZ) as (d & Gd & Pd & Sd & Vd & Nd & _). destruct (get_number f Hf neg' E' M' F' Fi' NZ') as (d' & Gd' & Pd' & Sd' & Vd' & Nd' & _). cbv zeta in *.
  rewrite Gd, Gd' in T. destruct (strtod_written d [] [] Pd ltac:(constructor) I) as (y & Sy & _ & YV & _). destruct (strtod_written d' [] [] Pd' ltac:(constructor) I) as (y' & Sy' & _ & YV' & _).
  cbn [app] in Sy, Sy'. rewrite app_nil_r in Sy, Sy'. rewrite T, Sy' in Sy. injection Sy as Ng Ey. subst y'. rewrite Sd, Sd' in Ng.
  split; [destruct neg, neg'; cbn in Ng; congruence|].
  destruct (fraction_magnitude f E M Hg F) as (X2 & XV & X0 & X1 & _). destruct (fraction_magnitude f E' M' Hg F') as (X2' & XV' & X0' & X1' & _).
  set (x := fraction f (E * 2 ^ (prec f - 1) + M)) in *. set (x' := fraction f (E' * 2 ^ (prec f - 1) + M')) in *.
  assert (Hx1 : 0 < fst x) by lia. assert (Hx1' : 0 < fst x') by lia.
  destruct (sci_spec (digs f) x HP Hx1 X2) as (_ & S1 & S2). destruct (sci_spec (digs f) x' HP Hx1' X2') as (_ & S1' & _).
  set (n := fst (scientific (digs f) x)) in *. set (X := snd (scientific (digs f) x)) in *. set (n' := fst (scientific (digs f) x')) in *. set (X' := snd (scientific (digs f) x')) in *.
  assert (EV : (inject_Z n * pw 10 (X - digs f + 1) == inject_Z n' * pw 10 (X' - digs f + 1))%Q) by (rewrite <- Vd, <- Vd', <- YV, <- YV'; reflexivity).
  destruct (one_scale (digs f) n n' _ _ HP Nd Nd' EV) as [Ek En]. rewrite <- En, <- Ek in S1'. set (k := X - digs f + 1) in *. pose proof (pw_pos 10 k ltac:(lia)) as Pk.
  change (inject_Z 10 ^ (1 - digs f))%Q with (pw 10 (1 - digs f)). rewrite XV in S1, S2. rewrite XV' in S1'.
  set (m := magnitude (prec f) (ebits f) E M) in *. set (m' := magnitude (prec f) (ebits f) E' M') in *. set (v := (inject_Z n * pw 10 k)%Q) in *.
  assert (P1 : (0 < pw 10 (1 - digs f))%Q) by (apply pw_pos; lia).
  apply Qabs_Qle_condition in S1'. destruct S2 as [(EX & _)|(EX & E1 & _ & S3)].
  - destruct (log10q_spec x Hx1 X2) as [Lo _]. rewrite XV in Lo. fold m in Lo. rewrite <- EX in Lo.
    assert (Q : (pw 10 k <= pw 10 (1 - digs f) * m)%Q). { eapply Qle_trans; [|apply Qmult_le_l; [exact P1|exact Lo]]. rewrite <- pw_add by lia. replace (1 - digs f + X) with k by (unfold k; lia). apply Qle_refl. }
    apply Qabs_Qle_condition in S1. apply Qabs_Qle_condition. split; lra.
  - apply Qabs_Qle_condition in S3. assert (V1 : (v == pw 10 (digs f - 1 + k))%Q) by (unfold v; rewrite E1; rewrite pw_add by lia; rewrite (pw_nat 10 (digs f - 1)) by lia; reflexivity).
    assert (Q : (pw 10 (1 - digs f) * v == pw 10 k)%Q) by (rewrite V1, <- pw_add by lia; replace (1 - digs f + (digs f - 1 + k)) with k by lia; reflexivity).
    assert (P2 : (pw 10 (1 - digs f) <= 1)%Q) by (change 1%Q with (pw 10 0); apply pw_le; lia).
    assert (Q2 : (pw 10 (1 - digs f) * (v - (1 # 20) * pw 10 k) <= pw 10 (1 - digs f) * m)%Q) by (apply Qmult_le_l; [exact P1|lra]).
    assert (Q3 : (pw 10 (1 - digs f) * pw 10 k <= 1 * pw 10 k)%Q) by (apply Qmult_le_compat_r; lra).
    assert (Q4 : (pw 10 (1 - digs f) * (v - (1 # 20) * pw 10 k) == pw 10 (1 - digs f) * v - (1 # 20) * (pw 10 (1 - digs f) * pw 10 k))%Q) by ring.
    apply Qabs_Qle_condition. split; lra.
Qed.

(** Two finite values that print the same have one sign, and differ by less than one unit in the sixth (thirteenth)
    digit. *)
Theorem C84_same_text e cls id t mem mem' p b neg E M neg' E' M' :
  float_member cls id t mem p b -> contains t mem (pattern p b neg E M) -> fields p b E M -> finite b E -> ~ (E = 0 /\ M = 0) ->
  float_member cls id t mem' p b -> contains t mem' (pattern p b neg' E' M') -> fields p b E' M' -> finite b E' -> ~ (E' = 0 /\ M' = 0) ->
  GetReflectedValue (float_env e) cls (Z.of_nat id) mem = GetReflectedValue (float_env e) cls (Z.of_nat id) mem' ->
  neg = neg' /\ (Qabs (magnitude p b E' M' - magnitude p b E M) <= inject_Z 10 ^ (1 - digits_printed p) * magnitude p b E M)%Q.
Proof.
  intros Hm C F Fi NZ Hm' C' F' Fi' NZ'. rewrite (get_api e cls id t mem p b Hm), (pattern_value cls id t mem p b Hm neg E M F C), (get_api e cls id t mem' p b Hm'), (pattern_value cls id t mem' p b Hm' neg' E' M' F' C').
  destruct (member_format cls id t mem p b Hm) as (Hf & P & B & D & _). set (f := format_of (Z.to_nat (subSize t))) in *. rewrite <- D. clear D. subst p b. intros T. assert (T2 : GetFloat f (pattern (prec f) (ebits f) neg E M) = GetFloat f (pattern (prec f) (ebits f) neg' E' M')) by congruence.
  apply same_text_near; assumption.
Qed.
Print Assumptions C84_same_text.

(** Printing a normal value and setting the text changes it by no more than that. *)
Theorem C84_accuracy e cls id t mem p b neg E M :
  float_member cls id t mem p b -> fields p b E M -> finite b E -> 1 <= E -> contains t mem (pattern p b neg E M) ->
  exists s err E' M' new, GetReflectedValue (float_env e) cls (Z.of_nat id) mem = Some s /\
    SetReflectedValue (float_env e) cls (Z.of_nat id) s mem = Some (err, new) /\ now_contains t mem (pattern p b neg E' M') new /\
    fields p b E' M' /\ finite b E' /\
    (Qabs (magnitude p b E' M' - magnitude p b E M) <= inject_Z 10 ^ (1 - digits_printed p) * magnitude p b E M)%Q.
Proof.
  intros Hm F Fi H1 C. destruct (C84_text_stable e cls id t mem p b neg E M Hm F Fi H1 C) as (s & err & E' & M' & new & G & S & N & F' & Fi' & H1' & G' & _).
  exists s, err, E', M', new. repeat (split; [assumption|]). destruct (still_member cls id t mem p b Hm _ _ N) as [Hm' C'].
  apply (C84_same_text e cls id t mem new p b neg E M neg E' M'); try assumption; try lia. rewrite G, G'. reflexivity.
Qed.
Print Assumptions C84_accuracy.

(** 1 and 1.0000001 *)
Example ex_same_text : float_member [ex_float] 0 ex_float (le_bytes 4 (pattern 24 8 false 127 0)) 24 8 /\
  float_member [ex_float] 0 ex_float (le_bytes 4 (pattern 24 8 false 127 1)) 24 8 /\
  GetReflectedValue ex_env [ex_float] 0 (le_bytes 4 (pattern 24 8 false 127 0)) = GetReflectedValue ex_env [ex_float] 0 (le_bytes 4 (pattern 24 8 false 127 1)) /\
  (magnitude 24 8 127 1 - magnitude 24 8 127 0 == 1 # 8388608)%Q.
Proof. split; [|split; [|split; [vm_compute; reflexivity|vm_compute; reflexivity]]]; (split; [reflexivity|]; split; [reflexivity|]; split; [unfold holds, inside; cbn; lia|]); left; repeat split; reflexivity. Qed.
(** 1.000005 and 0.9999995, almost as far from each other as the bound allows *)
Example ex_same_text_far : let a := pattern 24 8 false 127 41 in let b := pattern 24 8 false 126 8388600 in
  GetFloat single a = txt "1" /\ GetFloat single b = txt "1" /\ (5 # 1000000 < magnitude 24 8 127 41 - magnitude 24 8 126 8388600)%Q.
Proof. vm_compute. repeat split; reflexivity. Qed.
