From Verif Require Import Base Bitfield_Model Flags_Model Flags_Spec.

Definition width (w : Z) : Prop := w = 8 \/ w = 16 \/ w = 32 \/ w = 64.

Lemma mask_small w p : width w -> 0 <= p < w -> MakeMask_ w p = Some (2 ^ p).
Proof.
  intros Hw Hp. unfold MakeMask_, shift_ok, promoted.
  replace ((0 <=? p) && (p <? Z.max w 32)) with true by lia.
  rewrite Z.shiftl_mul_pow2, Z.mul_1_l by lia. f_equal. apply wrap_small.
  split; [apply Z.lt_le_incl, pow2_pos; lia|]. apply Z.pow_lt_mono_r; lia.
Qed.

Lemma width_pos w : width w -> 8 <= w <= 64.
Proof. unfold width; lia. Qed.

Lemma get_testbit w v p : width w -> 0 <= p < w -> Flags_get w v p = Some (Z.testbit v p).
Proof.
  intros Hw Hp. unfold Flags_get. rewrite mask_small by assumption. f_equal.
  destruct (Z.testbit v p) eqn:E.
  - apply negb_true_iff, Z.eqb_neq. intros H.
    assert (Z.testbit (Z.land v (2 ^ p)) p = true).
    { rewrite Z.land_spec, E, Z.pow2_bits_true by lia. reflexivity. }
    rewrite H, Z.bits_0 in *. discriminate.
  - apply negb_false_iff, Z.eqb_eq. apply Z.bits_inj'. intros i Hi.
    rewrite Z.land_spec, Z.bits_0. destruct (Z.eq_dec i p) as [->|Hne].
    + rewrite E. reflexivity.
    + rewrite Z.pow2_bits_false by lia. apply andb_false_r.
Qed.

Lemma set_testbit w v p b : width w -> 0 <= v < 2 ^ w -> 0 <= p < w ->
  exists v', Flags_set w v p b = Some v' /\ 0 <= v' < 2 ^ w /\
    forall q, 0 <= q < w -> Z.testbit v' q = if q =? p then b else Z.testbit v q.
Proof.
  intros Hw Hv Hp. pose proof (width_pos w Hw).
  unfold Flags_set. rewrite mask_small by assumption. eexists; split; [reflexivity|].
  destruct b.
  - split; [apply wrap_range; lia|]. intros q Hq. rewrite wrap_testbit, Z.lor_spec, Z.pow2_bits_eqb by lia.
    replace (q <? w) with true by lia. cbn [andb]. rewrite (Z.eqb_sym p q).
    destruct (q =? p); [apply orb_true_r|apply orb_false_r].
  - split; [apply wrap_range; lia|]. intros q Hq.
    rewrite wrap_testbit, Z.land_spec, Z.lnot_spec, Z.pow2_bits_eqb by lia.
    replace (q <? w) with true by lia. cbn [andb]. rewrite (Z.eqb_sym p q).
    destruct (q =? p); [apply andb_false_r|apply andb_true_r].
Qed.

Lemma run_spec w ops : width w -> forall v, 0 <= v < 2 ^ w ->
  Forall (fun o => 0 <= fst o < w) ops ->
  exists v', Flags_run w v ops = Some v' /\ 0 <= v' < 2 ^ w /\
    forall p, 0 <= p < w -> Flags_get w v' p = Some (last_op ops p (Z.testbit v p)).
Proof.
  intros Hw. induction ops as [|[q b] ops IH]; intros v Hv Hops.
  - exists v. cbn [Flags_run last_op]. split; [reflexivity|]. split; [exact Hv|].
    intros; apply get_testbit; assumption.
  - inversion Hops as [|? ? Hq Hops']; subst. cbn [fst] in Hq.
    destruct (set_testbit w v q b Hw Hv Hq) as (v1 & E1 & Hv1 & B1).
    destruct (IH v1 Hv1 Hops') as (v' & E & Hv' & B).
    exists v'. cbn [Flags_run last_op]. rewrite E1. split; [exact E|]. split; [exact Hv'|].
    intros p Hp. rewrite B by assumption. rewrite B1 by assumption. reflexivity.
Qed.

Lemma run_spec_from_get w ops : width w -> forall v, 0 <= v < 2 ^ w ->
  Forall (fun o => 0 <= fst o < w) ops ->
  exists v', Flags_run w v ops = Some v' /\
    forall p, 0 <= p < w -> exists b0,
      Flags_get w v p = Some b0 /\ Flags_get w v' p = Some (last_op ops p b0).
Proof.
  intros Hw v Hv Hops. destruct (run_spec w ops Hw v Hv Hops) as (v' & E & _ & B).
  exists v'. split; [exact E|]. intros p Hp. exists (Z.testbit v p).
  split; [apply get_testbit; assumption|apply B; assumption].
Qed.

Lemma unpack_spec w l : width w -> forall init, 0 <= init < 2 ^ w ->
  Forall (fun p => 0 <= p < w) l ->
  exists v, Flags_unpack w init l = Some v /\ 0 <= v < 2 ^ w /\
    forall p, 0 <= p < w ->
      (Flags_get w v p = Some true <-> (Flags_get w init p = Some true \/ In p l)).
Proof.
  intros Hw. pose proof (width_pos w Hw).
  induction l as [|q l IH]; intros init Hi Hl.
  - exists init. split; [reflexivity|]. split; [assumption|]. intros; cbn [In]; tauto.
  - inversion Hl as [|? ? Hq Hl']; subst. cbn [Flags_unpack]. rewrite mask_small by assumption.
    assert (Hb : 0 <= 2 ^ q < 2 ^ w).
    { split; [apply Z.lt_le_incl, pow2_pos; lia|]. apply Z.pow_lt_mono_r; lia. }
    destruct (IH (Z.lor init (2 ^ q)) ltac:(apply lor_bounds; lia) Hl') as (v & E & Hv & B).
    exists v. split; [exact E|]. split; [exact Hv|]. intros p Hp. rewrite B by assumption.
    rewrite !get_testbit by assumption. rewrite Z.lor_spec, Z.pow2_bits_eqb by lia.
    cbn [In]. destruct (Z.eqb_spec q p) as [->|Hne].
    + rewrite orb_true_r. tauto.
    + rewrite orb_false_r. split; [intros [H0|H0]; tauto|]. intros [H0|[H0|H0]]; [tauto|lia|tauto].
Qed.

Lemma eq_spec w a b : width w -> 0 <= a < 2 ^ w -> 0 <= b < 2 ^ w ->
  (Flags_eq a b = true <-> forall p, 0 <= p < w -> Flags_get w a p = Flags_get w b p).
Proof.
  intros Hw Ha Hb. pose proof (width_pos w Hw). unfold Flags_eq. rewrite Z.eqb_eq. split; [intros ->; reflexivity|].
  intros Hp. apply Z.bits_inj'. intros i Hi. destruct (Z.lt_ge_cases i w) as [Hl|Hl].
  - specialize (Hp i ltac:(lia)). rewrite !get_testbit in Hp by (assumption || lia). congruence.
  - rewrite (testbit_above w a), (testbit_above w b) by lia. reflexivity.
Qed.

(** An index between the store width and the promoted width is silently dropped. *)
Lemma narrow_dropped w v p : (w = 8 \/ w = 16) -> w <= p < 32 -> 0 <= v < 2 ^ w ->
  Flags_set w v p true = Some v.
Proof.
  intros Hw Hp Hv. unfold Flags_set, MakeMask_, shift_ok, promoted.
  replace ((0 <=? p) && (p <? Z.max w 32)) with true by lia.
  f_equal. replace (wrap w (Z.shiftl 1 p)) with 0.
  - rewrite Z.lor_0_r. apply wrap_small; assumption.
  - symmetry. rewrite Z.shiftl_mul_pow2, Z.mul_1_l by lia. unfold wrap.
    replace p with (w + (p - w)) by lia. rewrite Z.pow_add_r, Z.mul_comm by lia.
    apply Z.mod_mul. apply Z.pow_nonzero; lia.
Qed.
