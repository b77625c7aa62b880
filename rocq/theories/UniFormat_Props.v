(** C47-C49: the vertex format codecs, sampling, the registry. *)
From Coq Require Import Floats.SpecFloat.
From Verif Require Import Base Float_Model Float_Proof HalfFloat_Model HalfFloat_Spec HalfFloat_Proof HalfFloat_Props Vector_Model Vector_Spec Vector_Proof Float_Mul_Proof
  UniFormat_Model UniFormat_Spec UniFormat_Proof UniFormat_Float_Proof UniFormat_Norm_Proof UniFormat_Read_Proof.

(** UINT: every component zero-extended, missing components 0. *)
Theorem C47_UINT : forall d mem, bytes_ok mem -> d <> CUSTOM -> (reach UINT d <= length mem)%nat ->
  exists v, GetValue_int (UINT, d) mem = Returns v /\ length v = 4%nat /\
    (forall i, (i < 4)%nat -> nth i v 0 = component d mem i) /\
    (forall i, (length (layout d) <= i)%nat -> nth i v 0 = 0).
Proof.
  intros d mem B Hd L. exists (components d mem). unfold GetValue_int. cbn [is_int fst snd codec_value]. rewrite (uint_ok d mem B Hd L).
  split; [reflexivity|]. split; [reflexivity|]. split.
  - intros [|[|[|[|i]]]] Hi; try lia; reflexivity.
  - intros i Hi. destruct i as [|[|[|[|i]]]]; try (now apply component_none). cbn. now destruct i.
Qed.
Print Assumptions C47_UINT.

(** INT: every component sign-extended to int32. *)
Theorem C47_INT : forall d mem, bytes_ok mem -> d <> CUSTOM -> (reach INT d <= length mem)%nat ->
  exists v, GetValue_int (INT, d) mem = Returns v /\ length v = 4%nat /\
    (forall i, (i < 4)%nat -> sgn 32 (nth i v 0) = signed_component d mem i) /\
    (forall i, (length (layout d) <= i)%nat -> nth i v 0 = 0).
Proof.
  intros d mem B Hd L. exists (map (wrap 32) (signed_components d mem)). unfold GetValue_int. cbn [is_int fst snd codec_value]. rewrite (int_ok d mem B Hd L).
  split; [reflexivity|]. split; [reflexivity|]. split.
  - intros i Hi. unfold signed_components. destruct i as [|[|[|[|i]]]]; try lia; cbn [map nth]; rewrite wrap_sgn by lia; apply sgn_small; try lia; apply signed_range.
  - intros i Hi. unfold signed_components. destruct i as [|[|[|[|i]]]]; cbn [map nth]; try (rewrite signed_none by exact Hi; reflexivity). now destruct i.
Qed.
Print Assumptions C47_INT.

Lemma ubits_used d i : (i < length (layout d))%nat -> In (ubits d i) used.
Proof. destruct d; destruct i as [|[|[|[|i]]]]; cbn; try lia; intros _; tauto. Qed.
Lemma nbits_used d i : (i < length (layout d))%nat -> In (nbits d i) used.
Proof. destruct d; destruct i as [|[|[|[|i]]]]; cbn; try lia; intros _; tauto. Qed.
Lemma uraw_bound d mem i : 0 <= uraw d mem i < 2 ^ 31.
Proof.
  pose proof (component_word d mem i) as W. pose proof (component_range d mem i) as R. unfold is_word in W. unfold uraw.
  change (2 ^ 32) with 4294967296 in W. change (2 ^ 31) with 2147483648.
  assert (S : width d i <= 31 -> component d mem i < 2147483648) by (intros H; apply component_small; exact H).
  assert (C : (width d i = 32 \/ width d i = 1 \/ (width d i <> 32 /\ width d i <> 1))) by lia.
  pose proof (layout_fits d i) as (_ & Wd & _).
  destruct C as [E|[E|[E1 E2]]].
  - rewrite E. lia.
  - rewrite E in *. change (2 ^ 1) with 2 in R. lia.
  - specialize (S ltac:(lia)). destruct d; destruct i as [|[|[|[|[|i]]]]]; cbn in E1, E2 |- *; try congruence; lia.
Qed.
Lemma signed_abs d mem i : Z.abs (signed_component d mem i) <= 2 ^ 31.
Proof. pose proof (signed_range d mem i) as H. unfold is_sword in H. change (32 - 1) with 31 in H. lia. Qed.

(** UNORM: component i of n bits becomes component/(2^n-1) up to a relative error of 2^-22, 0 being
    exactly +0 and full scale exactly 1; 32-bit components lose their lowest bit first. *)
Theorem C47_UNORM : forall d mem, bytes_ok mem -> d <> CUSTOM -> (reach UNORM d <= length mem)%nat ->
  exists v, GetValue_float (UNORM, d) mem = Returns v /\ length v = 4%nat /\
    (forall i, clean d i ->
       (width d i < 32 -> stands_for (nth i v 0) (component d mem i) (full (width d i))) /\
       (width d i = 32 -> stands_for (nth i v 0) (component d mem i / 2) (2 ^ 31 - 1)) /\
       (component d mem i = 0 -> nth i v 0 = 0) /\
       (component d mem i = full (width d i) -> nth i v 0 = one)) /\
    (forall i, (length (layout d) <= i)%nat -> nth i v 0 = 0).
Proof.
  intros d mem B Hd L. destruct (unorm_lanes d mem B Hd L) as (v & E & Lv & V & V0). exists v.
  unfold GetValue_float. cbn [is_int fst snd codec_value]. rewrite E. split; [reflexivity|]. split; [exact Lv|]. split; [|exact V0].
  intros i C. rewrite (V i C). pose proof C as (Hi & _). pose proof (ubits_used d i Hi) as U. pose proof (uraw_bound d mem i) as Ub.
  pose proof (scaled_stands (ubits d i) (uraw d mem i) U ltac:(lia)) as S. pose proof (width_pos d i Hi) as Wp. pose proof (layout_fits d i) as (_ & Wd & _).
  pose proof (component_range d mem i) as R.
  assert (Cs : (width d i = 32 /\ ubits d i = 31 /\ uraw d mem i = component d mem i / 2) \/
              (width d i = 1 /\ ubits d i = 5 /\ uraw d mem i = 31 * component d mem i) \/
              (width d i < 32 /\ width d i <> 1 /\ ubits d i = width d i /\ uraw d mem i = component d mem i)).
  { clear. destruct d; destruct i as [|[|[|[|[|i]]]]]; cbn; intuition lia. }
  destruct Cs as [(W & U1 & U2)|[(W & U1 & U2)|(W & W1 & U1 & U2)]]; rewrite U1, U2 in *; unfold full, one.
  - split; [lia|]. split; [intros _; exact S|]. rewrite W. split; [intros ->; exact (scaled_zero 31 U)|].
    intros ->. exact (one_used 31 U).
  - rewrite W in *. change (2 ^ 1) with 2 in *. set (c := component d mem i) in *. assert (Cc : c = 0 \/ c = 1) by lia.
    split; [|split; [lia|]].
    + intros _. destruct Cc as [-> | ->]; [exists false, 0|exists false, (2 ^ 149)]; (split; [vm_compute; reflexivity|]); (split; [reflexivity|]); vm_compute; congruence.
    + split; [intros ->; exact (scaled_zero 5 U)|intros ->; exact (one_used 5 U)].
  - split; [intros _; exact S|]. split; [lia|]. split; [intros ->; exact (scaled_zero _ U)|intros ->; exact (one_used _ U)].
Qed.
Print Assumptions C47_UNORM.

(** NORM: two's complement component over 2^(n-1)-1, full scale exactly 1 and -1. *)
Theorem C47_NORM : forall d mem, bytes_ok mem -> d <> CUSTOM -> (reach NORM d <= length mem)%nat ->
  exists v, GetValue_float (NORM, d) mem = Returns v /\ length v = 4%nat /\
    (forall i, clean d i ->
       let a := signed_component d mem i in
       stands_for (nth i v 0) a (signed_full (width d i)) /\
       (a = 0 -> nth i v 0 = 0) /\
       (a = signed_full (width d i) -> nth i v 0 = one) /\ (a = - signed_full (width d i) -> nth i v 0 = minus_one)) /\
    (forall i, (length (layout d) <= i)%nat -> nth i v 0 = 0).
Proof.
  intros d mem B Hd L. destruct (norm_lanes d mem B Hd L) as (v & E & Lv & V & V0). exists v.
  unfold GetValue_float. cbn [is_int fst snd codec_value]. rewrite E. split; [reflexivity|]. split; [exact Lv|]. split; [|exact V0].
  intros i C. set (a := signed_component d mem i). rewrite (V i C). pose proof C as (Hi & _). pose proof (nbits_used d i Hi) as U.
  pose proof (scaled_stands (nbits d i) a U (signed_abs d mem i)) as S.
  assert (Fu : signed_full (width d i) = 2 ^ nbits d i - 1). { clear - Hi. destruct d; destruct i as [|[|[|[|i]]]]; cbn in Hi; try lia; vm_compute; reflexivity. }
  rewrite Fu. fold a. unfold one, minus_one. split; [exact S|]. split; [intros ->; exact (scaled_zero _ U)|]. split; [intros ->; exact (one_used _ U)|intros ->; exact (minus_one_used _ U)].
Qed.
Print Assumptions C47_NORM.

(** The order of the components is the order of the floats. *)
Theorem C47_normalised_monotone : forall d mem mem' i v v', bytes_ok mem -> bytes_ok mem' -> d <> CUSTOM -> clean d i ->
  (reach UNORM d <= length mem)%nat -> (reach UNORM d <= length mem')%nat ->
  (GetValue_float (UNORM, d) mem = Returns v -> GetValue_float (UNORM, d) mem' = Returns v' -> component d mem i <= component d mem' i ->
   exists x y, number_of (nth i v 0) = Some x /\ number_of (nth i v' 0) = Some y /\ 0 <= x <= y /\ y <= 2 ^ 149) /\
  (GetValue_float (NORM, d) mem = Returns v -> GetValue_float (NORM, d) mem' = Returns v' -> signed_component d mem i <= signed_component d mem' i ->
   exists x y, number_of (nth i v 0) = Some x /\ number_of (nth i v' 0) = Some y /\ x <= y <= 2 ^ 149).
Proof.
  intros d mem mem' i v v' B B' Hd C L L'. pose proof C as (Hi & _). split; intros E E' H.
  - destruct (unorm_lanes d mem B Hd L) as (u & Eu & _ & V & _). destruct (unorm_lanes d mem' B' Hd L') as (u' & Eu' & _ & V' & _).
    unfold GetValue_float in E, E'. cbn [is_int fst snd codec_value] in E, E'. rewrite Eu in E. rewrite Eu' in E'. assert (u = v) by (cbn in E; congruence). assert (u' = v') by (cbn in E'; congruence). subst u u'.
    rewrite (V i C), (V' i C). pose proof (ubits_used d i Hi) as U. pose proof (uraw_bound d mem i) as A. pose proof (uraw_bound d mem' i) as A'.
    eexists; eexists. split; [apply number_val, scaled_finite; [exact U|lia]|]. split; [apply number_val, scaled_finite; [exact U|lia]|].
    assert (Mo : uraw d mem i <= uraw d mem' i).
    { unfold uraw. clear - H. assert (G : component d mem i / 2 <= component d mem' i / 2) by (apply Z.div_le_mono; lia).
      destruct (width d i) as [|p|p]; try exact H. repeat (destruct p as [p|p|]; try exact H; try exact G; try lia). }
    split; [split; [|apply scaled_mono; (exact U || lia)]|].
    + replace 0 with (val (scaled (ubits d i) 0)) by (rewrite scaled_zero by exact U; reflexivity). apply scaled_mono; (exact U || lia).
    + assert (Top : uraw d mem' i <= 2 ^ ubits d i - 1).
      { pose proof (component_range d mem' i) as R. clear - R Hi. unfold uraw, ubits. destruct d; destruct i as [|[|[|[|i]]]]; cbn in Hi; try lia;
          match type of R with context [width ?d ?i] => let w := eval vm_compute in (width d i) in change (width d i) with w in * end; cbv iota;
          match type of R with _ <= ?c < 2 ^ ?w => let p := eval vm_compute in (2 ^ w) in change (2 ^ w) with p in R; set (x := c) in *; clearbody x end;
          match goal with |- _ <= 2 ^ ?w - 1 => let p := eval vm_compute in (2 ^ w) in change (2 ^ w) with p end; lia. }
      apply Z.le_trans with (val (scaled (ubits d i) (2 ^ ubits d i - 1))).
      * apply scaled_mono; try exact U; try lia. clear - U. cbn in U. repeat (destruct U as [<-|U]; [vm_compute; congruence|]). contradiction.
      * unfold scaled. rewrite one_used by exact U. vm_compute. congruence.
  - destruct (norm_lanes d mem B Hd L) as (u & Eu & _ & V & _). destruct (norm_lanes d mem' B' Hd L') as (u' & Eu' & _ & V' & _).
    unfold GetValue_float in E, E'. cbn [is_int fst snd codec_value] in E, E'. rewrite Eu in E. rewrite Eu' in E'. assert (u = v) by (cbn in E; congruence). assert (u' = v') by (cbn in E'; congruence). subst u u'.
    rewrite (V i C), (V' i C). pose proof (nbits_used d i Hi) as U. pose proof (signed_abs d mem i) as A. pose proof (signed_abs d mem' i) as A'.
    eexists; eexists. split; [apply number_val, scaled_finite; assumption|]. split; [apply number_val, scaled_finite; assumption|].
    split; [apply scaled_mono; assumption|].
    assert (Top : signed_component d mem' i <= 2 ^ nbits d i - 1).
    { pose proof (width_pos d i Hi) as Wp. rewrite signed_sgn by exact Wp. pose proof (sgn_range (width d i) (component d mem' i) Wp) as R. unfold is_sword in R.
      clear - R Hi. unfold nbits. destruct d; destruct i as [|[|[|[|i]]]]; cbn in Hi; try lia;
          match type of R with context [width ?d ?i] => let w := eval vm_compute in (width d i) in change (width d i) with w in * end; cbv iota; 
          match type of R with _ <= _ < 2 ^ ?w => let p := eval vm_compute in (2 ^ w) in change (2 ^ w) with p in R end;
          match goal with |- _ <= 2 ^ ?w - 1 => let p := eval vm_compute in (2 ^ w) in change (2 ^ w) with p end; lia. }
    apply Z.le_trans with (val (scaled (nbits d i) (2 ^ nbits d i - 1))).
    * apply scaled_mono; try assumption. clear - U. cbn in U. repeat (destruct U as [<-|U]; [vm_compute; congruence|]). contradiction.
    * unfold scaled. rewrite one_used by exact U. vm_compute. congruence.
Qed.
Print Assumptions C47_normalised_monotone.

(** The remaining lanes (red and blue of R5G6B5, blue of R11G11B10) are read one bit too wide:
    twice the component, plus for blue the top bit of green. *)
Theorem C47_lanes_that_mix : forall d mem i, bytes_ok mem -> (element_size d <= length mem)%nat ->
  (d = R5G6B5 /\ (i = 0 \/ i = 2)%nat) \/ (d = R11G11B10 /\ i = 2%nat) ->
  let green_top := if Nat.eqb i 2 then component d mem 1 / 2 ^ (width d 1 - 1) else 0 in
  exists u n, GetValue_float (UNORM, d) mem = Returns u /\ GetValue_float (NORM, d) mem = Returns n /\
    stands_for (nth i u 0) (2 * component d mem i + green_top) (full (width d i + 1)) /\
    stands_for (nth i n 0) (2 * signed_component d mem i + green_top) (full (width d i)).
Proof.
  intros d mem i B L M. cbv zeta. destruct (mixed_lanes d mem i B L M) as (u & n & Eu & En & Lu & Ln). exists u, n.
  unfold GetValue_float. cbn [is_int fst snd codec_value]. rewrite Eu, En. do 2 (split; [reflexivity|]). rewrite Lu, Ln.
  assert (Hd : d = R5G6B5 \/ d = R11G11B10) by (destruct M as [[-> _]|[-> _]]; auto). pose proof (top_bit d mem Hd) as T.
  assert (Bd : Z.abs (mixed d mem i (component d mem i)) <= 2 ^ 31 /\ Z.abs (mixed d mem i (signed_component d mem i)) <= 2 ^ 31).
  { assert (W : 1 <= width d i <= 10) by (destruct M as [[-> [-> | ->]]|[-> ->]]; cbn; lia).
    pose proof (component_range d mem i) as R. rewrite signed_sgn by lia. pose proof (sgn_range (width d i) (component d mem i) ltac:(lia)) as R'.
    unfold is_sword in R'. assert (P : 2 ^ width d i <= 2 ^ 10) by (apply Z.pow_le_mono_r; lia). assert (P' : 2 ^ (width d i - 1) <= 2 ^ 10) by (apply Z.pow_le_mono_r; lia).
    change (2 ^ 10) with 1024 in *. change (2 ^ 31) with 2147483648. unfold mixed. destruct (Nat.eqb i 2); lia. }
  assert (U : In (width d i + 1) used /\ In (width d i) used) by (destruct M as [[-> [-> | ->]]|[-> ->]]; cbn; tauto).
  unfold full. split; [apply (scaled_stands (width d i + 1)); tauto|apply (scaled_stands (width d i)); tauto].
Qed.
Print Assumptions C47_lanes_that_mix.

Lemma stands_two w a D b E : stands_for w a D -> stands_for w b E -> 0 < D -> 0 < E ->
  (a <? 0) = (b <? 0) /\ 2 ^ 22 * Z.abs (Z.abs a * E - Z.abs b * D) <= Z.abs a * E + Z.abs b * D.
Proof.
  intros (n & M & Hi & S1 & H) (n' & M' & Hi' & S2 & H') HD HE. rewrite Hi in Hi'. injection Hi' as <- <-. split; [congruence|].
  assert (Ha : 0 <= Z.abs a) by lia. assert (Hb : 0 <= Z.abs b) by lia. clear S1 S2. set (x := Z.abs a) in *. set (y := Z.abs b) in *. clearbody x y.
  assert (P : 0 < 2 ^ 149) by reflexivity. set (q := 2 ^ 149) in *. clearbody q. change (2 ^ 22) with 4194304 in *.
  assert (A : 4194304 * Z.abs (M * D * E - x * q * E) <= x * q * E).
  { replace (M * D * E - x * q * E) with ((M * D - x * q) * E) by ring. rewrite Z.abs_mul, (Z.abs_eq E) by lia. rewrite Z.mul_assoc. apply Z.mul_le_mono_nonneg_r; lia. }
  assert (A' : 4194304 * Z.abs (M * D * E - y * q * D) <= y * q * D).
  { replace (M * D * E - y * q * D) with ((M * E - y * q) * D) by ring. rewrite Z.abs_mul, (Z.abs_eq D) by lia. rewrite Z.mul_assoc. apply Z.mul_le_mono_nonneg_r; lia. }
  assert (S : 4194304 * Z.abs ((x * E - y * D) * q) <= (x * E + y * D) * q).
  { replace ((x * E - y * D) * q) with (x * q * E - y * q * D) by ring. replace ((x * E + y * D) * q) with (x * q * E + y * q * D) by ring. lia. }
  rewrite Z.abs_mul, (Z.abs_eq q), Z.mul_assoc in S by lia. apply (Zmult_le_reg_r _ _ q); lia.
Qed.
Lemma stands_same w a D b E : 0 < D -> 0 < E -> a * E = b * D -> stands_for w a D -> stands_for w b E.
Proof.
  intros HD HE X (n & M & Hi & S & H). exists n, M. split; [exact Hi|].
  assert (Sg : (a <? 0) = (b <? 0)).
  { destruct (Z.ltb_spec a 0), (Z.ltb_spec b 0); try reflexivity; exfalso.
    - assert (a * E < 0) by (apply Z.mul_neg_pos; lia). assert (0 <= b * D) by (apply Z.mul_nonneg_nonneg; lia). lia.
    - assert (b * D < 0) by (apply Z.mul_neg_pos; lia). assert (0 <= a * E) by (apply Z.mul_nonneg_nonneg; lia). lia. }
  split; [congruence|]. assert (X' : Z.abs a * E = Z.abs b * D) by (pose proof (f_equal Z.abs X) as Y; rewrite !Z.abs_mul, (Z.abs_eq E), (Z.abs_eq D) in Y by lia; exact Y).
  set (x := Z.abs a) in *. set (y := Z.abs b) in *. assert (0 <= x) by (unfold x; lia). assert (0 <= y) by (unfold y; lia). clearbody x y. clear S Sg X Hi.
  assert (P : 0 < 2 ^ 149) by reflexivity. set (q := 2 ^ 149) in *. clearbody q. change (2 ^ 22) with 4194304 in *.
  apply (Zmult_le_reg_r _ _ D); [lia|]. rewrite <- Z.mul_assoc. rewrite <- (Z.abs_eq D) at 1 by lia. rewrite <- Z.abs_mul.
  replace ((M * E - y * q) * D) with (E * (M * D - x * q)) by nia. replace (y * q * D) with (E * (x * q)) by nia.
  rewrite Z.abs_mul, (Z.abs_eq E) by lia. nia.
Qed.
(** Such a lane is right only at 0 with green's top bit clear, or at full scale with it set
    (red of R5G6B5: only at 0). *)
Theorem C47_lanes_that_mix_wrong : forall d mem i u n, bytes_ok mem -> (element_size d <= length mem)%nat ->
  (d = R5G6B5 /\ (i = 0 \/ i = 2)%nat) \/ (d = R11G11B10 /\ i = 2%nat) ->
  GetValue_float (UNORM, d) mem = Returns u -> GetValue_float (NORM, d) mem = Returns n ->
  let green_top := if Nat.eqb i 2 then component d mem 1 / 2 ^ (width d 1 - 1) else 0 in
  (stands_for (nth i u 0) (component d mem i) (full (width d i)) <-> component d mem i = full (width d i) * green_top) /\
  (stands_for (nth i n 0) (signed_component d mem i) (signed_full (width d i)) <-> signed_component d mem i = signed_full (width d i) * green_top).
Proof.
  intros d mem i u n B L M Eu En t. destruct (C47_lanes_that_mix d mem i B L M) as (u' & n' & Eu' & En' & Su & Sn).
  assert (u = u') by congruence. assert (n = n') by congruence. subst u' n'. fold t in Su, Sn.
  assert (Hd : d = R5G6B5 \/ d = R11G11B10) by (destruct M as [[-> _]|[-> _]]; auto). pose proof (top_bit d mem Hd) as T.
  assert (Ht : 0 <= t <= 1) by (unfold t; destruct (Nat.eqb i 2); lia). clearbody t.
  assert (W : 1 <= width d i) by (destruct M as [[-> [-> | ->]]|[-> ->]]; cbn; lia).
  pose proof (component_range d mem i) as R. rewrite signed_sgn in * by exact W. pose proof (sgn_range (width d i) (component d mem i) W) as R'. unfold is_sword in R'.
  set (c := component d mem i) in *. set (s := sgn (width d i) c) in *. clearbody c s.
  assert (Ww : width d i = 5 \/ width d i = 10) by (destruct M as [[-> [-> | ->]]|[-> ->]]; cbn; lia). clear - Su Sn Ht R R' Ww.
  destruct Ww as [Ww|Ww]; rewrite Ww in *; clear Ww;
    [change (full (5 + 1)) with 63 in *; change (full 5) with 31 in *; change (signed_full 5) with 15 in *; change (2 ^ 5) with 32 in R; change (2 ^ (5 - 1)) with 16 in R'
    |change (full (10 + 1)) with 2047 in *; change (full 10) with 1023 in *; change (signed_full 10) with 511 in *; change (2 ^ 10) with 1024 in R; change (2 ^ (10 - 1)) with 512 in R'].
  - split; split; intros H.
    + pose proof (stands_two _ _ _ _ _ H Su) as X. destruct X as [_ X]; [lia|lia|]. change (2 ^ 22) with 4194304 in X. lia.
    + eapply stands_same; [| | |exact Su]; lia.
    + pose proof (stands_two _ _ _ _ _ H Sn) as X. destruct X as [Y X]; [lia|lia|]. change (2 ^ 22) with 4194304 in X. lia.
    + eapply stands_same; [| | |exact Sn]; lia.
  - split; split; intros H.
    + pose proof (stands_two _ _ _ _ _ H Su) as X. destruct X as [_ X]; [lia|lia|]. change (2 ^ 22) with 4194304 in X. lia.
    + eapply stands_same; [| | |exact Su]; lia.
    + pose proof (stands_two _ _ _ _ _ H Sn) as X. destruct X as [Y X]; [lia|lia|]. change (2 ^ 22) with 4194304 in X. lia.
    + eapply stands_same; [| | |exact Sn]; lia.
Qed.
Print Assumptions C47_lanes_that_mix_wrong.

(** The most negative signed value of up to 16 bits decodes below -1: NORM does not clamp. *)
Theorem C47_NORM_unclamped : forall d mem i v, bytes_ok mem -> d <> CUSTOM -> (reach NORM d <= length mem)%nat -> clean d i -> 2 <= width d i <= 16 ->
  GetValue_float (NORM, d) mem = Returns v -> signed_component d mem i = - 2 ^ (width d i - 1) ->
  exists x, number_of (nth i v 0) = Some x /\ x < - 2 ^ 149.
Proof.
  intros d mem i v B Hd L C Wd E S. destruct (norm_lanes d mem B Hd L) as (u & Eu & _ & V & _).
  unfold GetValue_float in E. cbn [is_int fst snd codec_value] in E. rewrite Eu in E. assert (u = v) by (cbn in E; congruence). subst u.
  pose proof C as (Hi & _). rewrite (V i C), S. clear - Hi Wd.
  destruct d; destruct i as [|[|[|[|i]]]]; cbn in Hi, Wd; try lia; eexists; (split; [vm_compute; reflexivity|vm_compute; reflexivity]).
Qed.
Print Assumptions C47_NORM_unclamped.

(** FLOAT, 32-bit components: the very bits. *)
Theorem C47_FLOAT_single : forall d mem, bytes_ok mem -> In d [R32G32B32A32; R32G32B32; R32G32; R32] -> (element_size d <= length mem)%nat ->
  GetValue_float (FLOAT, d) mem = Returns (map (component d mem) (seq 0 4)).
Proof.
  intros d mem B Hd L. unfold GetValue_float. cbn [is_int fst snd codec_value].
  assert (V : forall i, wrap 32 (component d mem i) = component d mem i) by (intros; apply wrap_small, component_word).
  assert (N : forall i, (length (layout d) <= i)%nat -> component d mem i = 0) by (intros; now apply component_none).
  cbn [In] in Hd. destruct Hd as [<-|[<-|[<-|[<-|[]]]]]; cbn [float_value].
  1-3: rewrite rdv_ok by (cbn in *; lia); cbn [map seq of_read]; apply f_equal; unfold vec4; cbn [map].
  4: rewrite rd_ok by (cbn in *; lia); cbn [map seq of_read]; apply f_equal; unfold vec4; cbn [map].
  all: repeat (apply f_equal2; [first [rewrite N by (cbn; lia); reflexivity
    |etransitivity; [|apply V]; apply f_equal;
     match goal with |- word ?s ?m = component ?d ?mm ?i => first [apply chunk_component|change (word s mm) with (word s (skipn 0 mm)); apply chunk_component] end; auto; cbn; lia]|]); reflexivity.
Qed.
Print Assumptions C47_FLOAT_single.

(** FLOAT, 16-bit components: the half's own value (a NaN becomes an infinity), except that the
    one-component format also gets negative zero and the negative subnormals wrong. *)
Theorem C47_FLOAT_half : forall d mem, bytes_ok mem -> In d [R16G16B16A16; R16G16B16; R16G16] -> (reach FLOAT d <= length mem)%nat ->
  exists v, GetValue_float (FLOAT, d) mem = Returns v /\ length v = 4%nat /\
    (forall i, (i < 4)%nat -> let h := component d mem i in
      (ieee 10 5 h <> NotANumber -> ieee 23 8 (nth i v 0) = ieee 10 5 h) /\
      (ieee 10 5 h = NotANumber -> ieee 23 8 (nth i v 0) = Infinite (Z.testbit h 15))) /\
    (forall i, (length (layout d) <= i)%nat -> nth i v 0 = 0).
Proof.
  intros d mem B Hd L. unfold GetValue_float. cbn [is_int fst snd codec_value].
  assert (E : unorm_raw d mem = Some (components d mem)).
  { cbn [In] in Hd. destruct Hd as [<-|[<-|[<-|[]]]]; apply raw_ok; auto; discriminate. }
  assert (F : float_value d mem = Some (ToVector4 10 5 true (components d mem))).
  { cbn [In] in Hd. destruct Hd as [<-|[<-|[<-|[]]]]; cbn [float_value]; rewrite E; reflexivity. }
  rewrite F. cbn [of_read]. eexists. split; [reflexivity|]. split; [reflexivity|].
  assert (H : forall i, half (component d mem i)).
  { intros i. pose proof (component_range d mem i) as R. unfold half. assert (W : width d i <= 16).
    { cbn [In] in Hd. unfold width. destruct Hd as [<-|[<-|[<-|[]]]]; destruct i as [|[|[|[|[|i]]]]]; cbn; lia. }
    apply (Z.pow_le_mono_r 2) in W; [|lia]. change (2 ^ 16) with 65536 in W. lia. }
  split.
  - assert (G : Forall2 (fun w f => (ieee 10 5 w <> NotANumber -> ieee 23 8 f = ieee 10 5 w) /\
                      (ieee 10 5 w = NotANumber -> ieee 23 8 f = Infinite (Z.testbit w 15))) (components d mem) (ToVector4 10 5 true (components d mem))).
    { apply C44_ToVector4_exact. unfold components. repeat constructor; apply H. }
    unfold components, ToVector4 in G |- *. cbn [map] in G |- *.
    inversion G as [|? ? ? ? G0 Ga]; inversion Ga as [|? ? ? ? G1 Gb]; inversion Gb as [|? ? ? ? G2 Gc]; inversion Gc as [|? ? ? ? G3 _]; subst.
    intros [|[|[|[|i]]]] Hi; try lia; assumption.
  - intros i Hi. unfold components, ToVector4. cbn [map]. destruct i as [|[|[|[|i]]]]; cbn [nth]; try (now rewrite component_none by exact Hi).
    now destruct i.
Qed.
Print Assumptions C47_FLOAT_half.
Theorem C47_FLOAT_one_half : forall mem, bytes_ok mem -> (2 <= length mem)%nat ->
  let h := component R16 mem 0 in
  exists x, GetValue_float (FLOAT, R16) mem = Returns [x; 0; 0; 0] /\
    (~ negative_tiny h -> ieee 23 8 x = ieee 10 5 h) /\
    (negative_tiny h -> exists v v', ieee 23 8 x = Finite true v /\ 2 ^ 149 <= v /\ ieee 10 5 h = Finite true v' /\ v' < 2 ^ 135).
Proof.
  intros mem B L h. unfold GetValue_float. cbn [is_int fst snd codec_value float_value]. rewrite rd_ok by exact L.
  assert (Eh : word 2 mem = h) by (change (word 2 mem) with (word 2 (skipn 0 mem)); apply chunk_component; auto; cbn; lia). rewrite Eh.
  assert (Hh : half h) by (pose proof (component_range R16 mem 0) as R; exact R).
  cbn [omap of_read]. exists (ToFloat 10 5 true h). split; [reflexivity|]. split; [apply C44_ToFloat_exact, Hh|]. intros T. destruct (C44_ToFloat_negative_tiny_wrong h T) as (v & A & A1 & v' & A2 & A3). exists v, v'. auto.
Qed.
Print Assumptions C47_FLOAT_one_half.

(** FLOAT R11G11B10 (sign, 5 exponent and 5 mantissa bits) and UFLOAT R11G11B10 (5 exponent and 6
    mantissa bits): red and green are right apart from subnormals and NaNs; blue is read as an
    eleven-bit float whose last mantissa bit is green's top bit. *)
Definition packed_signed (w f : Z) : Prop :=
  let a := w mod 1024 in let neg := 1024 <=? w in
  (a = 0 \/ 32 <= a <= 0x3e0 -> ieee 23 8 f = ieee 5 5 w) /\
  (0 < a < 32 -> ieee 5 5 w = Finite neg (a * 2 ^ 130) /\ ieee 23 8 f = Finite neg (a * 2 ^ 125)) /\
  (0x3e0 < a -> ieee 5 5 w = NotANumber /\ ieee 23 8 f = Infinite neg).
Definition packed_unsigned (w f : Z) : Prop :=
  (w = 0 \/ 64 <= w <= 0x7c0 -> ieee 23 8 f = ieee 6 5 w) /\
  (0 < w < 64 -> ieee 6 5 w = Finite false (w * 2 ^ 129) /\ ieee 23 8 f = Finite false (w * 2 ^ 125)) /\
  (0x7c0 < w -> ieee 6 5 w = NotANumber /\ ieee 23 8 f = Infinite false).
Theorem C47_FLOAT_packed : forall mem, bytes_ok mem -> (4 <= length mem)%nat ->
  let c := component R11G11B10 mem in
  let blue := 2 * c 2%nat + c 1%nat / 1024 in
  (exists x y z, GetValue_float (FLOAT, R11G11B10) mem = Returns [x; y; z; 0] /\
    packed_signed (c 0%nat) x /\ packed_signed (c 1%nat) y /\ packed_signed blue z) /\
  (exists x y z, GetValue_float (UFLOAT, R11G11B10) mem = Returns [x; y; z; 0] /\
    packed_unsigned (c 0%nat) x /\ packed_unsigned (c 1%nat) y /\ packed_unsigned blue z).
Proof.
  intros mem B L c blue. unfold GetValue_float. cbn [is_int fst snd codec_value float_value ufloat_value]. rewrite raw_11_11_10 by assumption.
  cbn [omap of_read]. unfold ToVector4. cbn [map]. change (2 ^ 10) with 1024. fold c. fold blue.
  pose proof (component_range R11G11B10 mem 0) as R0. pose proof (component_range R11G11B10 mem 1) as R1. pose proof (component_range R11G11B10 mem 2) as R2.
  change (2 ^ width R11G11B10 0) with 2048 in R0. change (2 ^ width R11G11B10 1) with 2048 in R1. change (2 ^ width R11G11B10 2) with 1024 in R2. fold c in R0, R1, R2.
  assert (Rb : 0 <= blue < 2048) by (unfold blue; lia).
  split; do 3 eexists; (split; [reflexivity|]).
  - split; [exact (C44_float_5_5 _ R0)|]. split; [exact (C44_float_5_5 _ R1)|exact (C44_float_5_5 _ Rb)].
  - split; [exact (C44_ufloat_6_5 _ R0)|]. split; [exact (C44_ufloat_6_5 _ R1)|exact (C44_ufloat_6_5 _ Rb)].
Qed.
Print Assumptions C47_FLOAT_packed.
(** When green's top bit is clear, a zero or normal blue has its ten-bit value (5 exponent and 5
    mantissa bits unsigned, sign, 5 and 4 signed); when it is set, a normal blue comes out too large. *)
Definition blue_check (b : Z) : bool :=
  let normal := (32 <=? b) && (b <=? 0x3df) in
  let snormal := (16 <=? b mod 512) && (b mod 512 <=? 0x1ef) in
  (if (b =? 0) || normal then same (ieee 6 5 (2 * b)) (ieee 5 5 b) else true) &&
  (if (b mod 512 =? 0) || snormal then same (ieee 5 5 (2 * b)) (ieee 4 5 b) else true) &&
  (if normal then match ieee 6 5 (2 * b + 1), ieee 5 5 b with Finite false x, Finite false y => y <? x | _, _ => false end else true) &&
  (if snormal then match ieee 5 5 (2 * b + 1), ieee 4 5 b with Finite s x, Finite s' y => Bool.eqb s s' && (y <? x) | _, _ => false end else true).
Lemma blue_sweep : all_from blue_check (Z.to_nat 1024) 0 = true. Proof. vm_compute. reflexivity. Qed.
Theorem C47_packed_blue : forall mem u s, bytes_ok mem -> (4 <= length mem)%nat ->
  GetValue_float (UFLOAT, R11G11B10) mem = Returns u -> GetValue_float (FLOAT, R11G11B10) mem = Returns s ->
  let b := component R11G11B10 mem 2 in let green_top := component R11G11B10 mem 1 / 1024 in
  (green_top = 0 -> (b = 0 \/ 32 <= b < 0x3e0 -> ieee 23 8 (nth 2 u 0) = ieee 5 5 b) /\
                    (b mod 512 = 0 \/ 16 <= b mod 512 < 0x1f0 -> ieee 23 8 (nth 2 s 0) = ieee 4 5 b)) /\
  (green_top = 1 -> (32 <= b < 0x3e0 -> exists x y, ieee 23 8 (nth 2 u 0) = Finite false x /\ ieee 5 5 b = Finite false y /\ y < x) /\
                    (16 <= b mod 512 < 0x1f0 -> exists neg x y, ieee 23 8 (nth 2 s 0) = Finite neg x /\ ieee 4 5 b = Finite neg y /\ y < x)).
Proof.
  intros mem u s B L Eu Es b t. destruct (C47_FLOAT_packed mem B L) as [(x & y & z & E1 & _ & _ & S) (x' & y' & z' & E2 & _ & _ & U)].
  rewrite E1 in Es. rewrite E2 in Eu. injection Es as <-. injection Eu as <-. cbn [nth]. fold b t in S, U.
  pose proof (component_range R11G11B10 mem 2) as R2. change (2 ^ width R11G11B10 2) with 1024 in R2. fold b in R2. clearbody b t.
  pose proof (all_below _ _ blue_sweep b R2) as H. unfold blue_check in H.
  unfold packed_signed in S. unfold packed_unsigned in U. cbv zeta in S. rewrite !andb_true_iff in H. destruct H as [[[H1 H2] H3] H4].
  split; intros ->; rewrite ?Z.add_0_r in *; split; intros Hb.
  - destruct U as [U _]. rewrite U by lia. apply same_iff. destruct ((b =? 0) || ((32 <=? b) && (b <=? 991))) eqn:E; [exact H1|lia].
  - destruct S as [S _]. rewrite S by lia. apply same_iff. destruct ((b mod 512 =? 0) || ((16 <=? b mod 512) && (b mod 512 <=? 495))) eqn:E; [exact H2|lia].
  - destruct U as [U _]. rewrite U by lia. replace ((32 <=? b) && (b <=? 991)) with true in H3 by lia.
    destruct (ieee 6 5 (2 * b + 1)) as [[|] m|?|]; try discriminate. destruct (ieee 5 5 b) as [[|] m'|?|]; try discriminate. exists m, m'. split; [reflexivity|]. split; [reflexivity|lia].
  - destruct S as [S _]. rewrite S by lia. replace ((16 <=? b mod 512) && (b mod 512 <=? 495)) with true in H4 by lia.
    destruct (ieee 5 5 (2 * b + 1)) as [n m|?|]; try discriminate. destruct (ieee 4 5 b) as [n' m'|?|]; try discriminate.
    apply andb_true_iff in H4. destruct H4 as [H4 H5]. apply Bool.eqb_prop in H4. subst n'. exists n, m, m'. split; [reflexivity|]. split; [reflexivity|lia].
Qed.
Print Assumptions C47_packed_blue.

(** *** C48: sampling *)
(** the codec's own entry point: integer vectors for INT and UINT, float vectors otherwise *)
Definition get_value (f : ftype) (d : dtype) (mem : list Z) : outcome (list Z) :=
  if is_int f then GetValue_int (f, d) mem else GetValue_float (f, d) mem.
Definition sample (f : ftype) (d : dtype) := if is_int f then Sample_int (f, d) else Sample_float (f, d).
Lemma get_value_read f d mem : get_value f d mem = of_read (codec_value f d mem).
Proof. unfold get_value, GetValue_int, GetValue_float. destruct (is_int f) eqn:E; cbn [fst snd]; now rewrite E. Qed.
Lemma sample_is f d out mem count stride : sample f d out mem count stride = fmtSampler f d out mem count stride.
Proof. unfold sample, Sample_int, Sample_float. destruct (is_int f) eqn:E; cbn [fst snd]; now rewrite E. Qed.

(** One call reads exactly the bytes [reach] says: it returns when they are there and leaves the
    buffer when they are not. *)
Theorem C48_one_value : forall f d mem, supported f d ->
  ((exists v, get_value f d mem = Returns v) <-> (reach f d <= length mem)%nat) /\
  (get_value f d mem = Faults <-> (length mem < reach f d)%nat).
Proof.
  intros f d mem S. rewrite get_value_read. pose proof (codec_reads f d mem S) as H. destruct (codec_value f d mem) as [v|]; cbn [of_read].
  - split; split; intros G; [apply H; eauto|eauto|discriminate|]. exfalso. assert (reach f d <= length mem)%nat by (apply H; eauto). lia.
  - split; split; intros G.
    + destruct G; discriminate.
    + apply H in G. destruct G; discriminate.
    + destruct (le_lt_dec (reach f d) (length mem)) as [X|X]; [|exact X]. apply H in X. destruct X; discriminate.
    + reflexivity.
Qed.
Print Assumptions C48_one_value.

(** Sample produces n vectors, the i-th being the value at byte i*stride: n is the count, or the
    length of the output vector when the count is 0; a stride of 0 means packed. *)
Theorem C48_sample : forall f d out mem count stride, supported f d -> stride = 0%nat \/ (element_size d <= stride)%nat ->
  let n := if Nat.eqb count 0 then length out else count in
  let s := if Nat.eqb stride 0 then element_size d else stride in
  (n = 0%nat \/ ((n - 1) * s + reach f d <= length mem)%nat) ->
  exists vs, sample f d out mem count stride = Returns vs /\ length vs = n /\
    forall i, (i < n)%nat -> get_value f d (skipn (i * s) mem) = Returns (nth i vs []).
Proof.
  intros f d out mem count stride S Hs n s L. rewrite sample_is. unfold fmtSampler. rewrite stride_size.
  assert (E : negb (stride =? 0)%nat && (stride <? element_size d)%nat = false).
  { destruct Hs as [->|Hs]; [reflexivity|]. replace (stride <? element_size d)%nat with false by (symmetry; apply Nat.ltb_ge; exact Hs). apply andb_false_r. }
  rewrite E. fold n s. destruct (loop_ok (codec_value f d) n mem s) as (vs & Ev & Lv & Gv).
  { intros i Hi. destruct L as [L|L]; [lia|]. apply codec_reads; [exact S|]. rewrite skipn_length.
    assert (i * s <= (n - 1) * s)%nat by (apply Nat.mul_le_mono_r; lia). lia. }
  rewrite Ev. exists vs. split; [reflexivity|]. split; [exact Lv|]. intros i Hi. rewrite get_value_read, (Gv i Hi). reflexivity.
Qed.
Print Assumptions C48_sample.
(** A stride smaller than the element throws before anything is read. *)
Theorem C48_small_stride_throws : forall f d out mem count stride, (0 < stride < element_size d)%nat ->
  sample f d out mem count stride = Throws.
Proof.
  intros f d out mem count stride H. rewrite sample_is. unfold fmtSampler. rewrite stride_size.
  replace (stride =? 0)%nat with false by (symmetry; apply Nat.eqb_neq; lia). replace (stride <? element_size d)%nat with true by (symmetry; apply Nat.ltb_lt; lia). reflexivity.
Qed.
Print Assumptions C48_small_stride_throws.
(** If the last element's bytes are not there, the call leaves the buffer. *)
Theorem C48_short_buffer_faults : forall f d out mem count stride, supported f d -> stride = 0%nat \/ (element_size d <= stride)%nat ->
  let n := if Nat.eqb count 0 then length out else count in
  let s := if Nat.eqb stride 0 then element_size d else stride in
  (0 < n)%nat -> (length mem < (n - 1) * s + reach f d)%nat -> sample f d out mem count stride = Faults.
Proof.
  intros f d out mem count stride S Hs n s Hn L. rewrite sample_is. unfold fmtSampler. rewrite stride_size.
  assert (E : negb (stride =? 0)%nat && (stride <? element_size d)%nat = false).
  { destruct Hs as [->|Hs]; [reflexivity|]. replace (stride <? element_size d)%nat with false by (symmetry; apply Nat.ltb_ge; exact Hs). apply andb_false_r. }
  rewrite E. fold n s. rewrite (loop_fault (codec_value f d) n mem s (n - 1)); [reflexivity|lia|].
  pose proof (codec_reads f d (skipn ((n - 1) * s) mem) S) as H. destruct (codec_value f d _) as [v|]; [|reflexivity]. exfalso.
  assert (G : (reach f d <= length (skipn ((n - 1) * s) mem))%nat) by (apply H; eauto). rewrite skipn_length in G.
  assert (R : (0 < reach f d)%nat). { clear - S. destruct f, d; cbn in S |- *; try contradiction; try lia; intuition congruence. } lia.
Qed.
Print Assumptions C48_short_buffer_faults.
(** A buffer of exactly n packed elements is enough for every format except twelve, which read past it. *)
Definition over_reads (f : ftype) (d : dtype) : Prop :=
  (In f [INT; UINT] /\ In d [R32; R32G32]) \/ (In f [UNORM; NORM] /\ In d [R32G32; R16G16B16; R8G8B8]) \/ (f = FLOAT /\ d = R16G16B16).
Theorem C48_tight_buffer : forall f d mem n, supported f d -> (0 < n)%nat -> length mem = (n * element_size d)%nat ->
  (over_reads f d -> sample f d [] mem n 0 = Faults) /\
  (~ over_reads f d -> exists vs, sample f d [] mem n 0 = Returns vs /\ length vs = n /\
     forall i, (i < n)%nat -> get_value f d (firstn (element_size d) (skipn (i * element_size d) mem)) = Returns (nth i vs [])).
Proof.
  intros f d mem n S Hn L. assert (N : (if Nat.eqb n 0 then length (@nil (list Z)) else n) = n) by (destruct n; [lia|reflexivity]).
  assert (Ln : ((n - 1) * element_size d + element_size d = n * element_size d)%nat) by (rewrite Nat.mul_sub_distr_r; assert (element_size d <= n * element_size d)%nat by (destruct n; lia); lia).
  split; intros O.
  - apply C48_short_buffer_faults; [exact S|auto| |]; rewrite N; [exact Hn|]. cbn [Nat.eqb]. rewrite L.
    assert (element_size d < reach f d)%nat; [|lia].
    unfold over_reads in O; cbn [In] in O. decompose [and or] O; subst; try contradiction; cbn; lia.
  - assert (R : reach f d = element_size d).
    { unfold over_reads in O. clear - O. destruct f, d; try reflexivity; exfalso; apply O; cbn [In]; tauto. }
    destruct (C48_sample f d [] mem n 0 S (or_introl eq_refl)) as (vs & E & Lv & G); rewrite N in *.
    { right. cbn [Nat.eqb]. rewrite R. lia. }
    cbn [Nat.eqb] in G. exists vs. split; [exact E|]. split; [exact Lv|]. intros i Hi. rewrite <- (G i Hi). rewrite !get_value_read. f_equal. symmetry. apply codec_local; [exact S|exact R|].
    rewrite skipn_length, L. assert ((i + 1) * element_size d <= n * element_size d)%nat by (apply Nat.mul_le_mono_r; lia). lia.
Qed.
Print Assumptions C48_tight_buffer.
(** What one call returns depends on its own [reach] bytes only. *)
Theorem C48_local : forall f d a b, supported f d -> (reach f d <= length a)%nat -> (reach f d <= length b)%nat ->
  firstn (reach f d) a = firstn (reach f d) b -> get_value f d a = get_value f d b.
Proof.
  intros f d a b S La Lb H. rewrite !get_value_read. rewrite <- (codec_local_reach f d a S La), <- (codec_local_reach f d b S Lb). now rewrite H.
Qed.
Print Assumptions C48_local.

(** *** C49: the registry *)
(** The descriptor is a pair of 16-bit numbers; Get finds a codec for exactly the documented
    combinations, and it is the codec of that format; anything else throws. *)
Theorem C49_get : forall o c, is_word 16 o -> is_word 16 c ->
  (forall f d, Get (o, c) = Returns (f, d) <-> fnum f = o /\ dnum d = c /\ supported f d) /\
  ((~ exists f d, fnum f = o /\ dnum d = c /\ supported f d) -> Get (o, c) = Throws) /\
  Get (o, c) <> Faults.
Proof.
  intros o c Ho Hc.
  assert (F : forall f d, Get (o, c) = Returns (f, d) -> fnum f = o /\ dnum d = c /\ supported f d).
  { intros f d H. unfold Get in H. destruct (find _ registry) as [e|] eqn:E; [|discriminate]. apply find_some in E. destruct E as [I E].
    destruct (entries e I) as (f' & d' & -> & S). cbn [MakePair snd fst] in *. injection H as -> ->. apply andb_true_iff in E. destruct E as [_ E].
    unfold descr_eq in E. apply Z.eqb_eq in E. apply descr_inj in E; cbn [fst snd]; auto.
    - injection E as <- <-. auto.
    - destruct f; cbn; unfold is_word; change (2 ^ 16) with 65536; lia.
    - destruct d; cbn; unfold is_word; change (2 ^ 16) with 65536; lia. }
  split; [|split].
  - intros f d. split; [apply F|]. intros (<- & <- & S). now apply get_found.
  - intros N. destruct (Get (o, c)) as [[f d]| |] eqn:E; [|reflexivity|].
    + exfalso. apply N. exists f, d. now apply F.
    + unfold Get in E. destruct (find _ registry); discriminate.
  - unfold Get. destruct (find _ registry); discriminate.
Qed.
Print Assumptions C49_get.
(** A codec answers the calls of its own kind only: integer ones for INT and UINT, float ones for the rest. *)
Theorem C49_wrong_kind_throws : forall f d mem out count stride,
  (In f [INT; UINT] -> GetValue_float (f, d) mem = Throws /\ Sample_float (f, d) out mem count stride = Throws) /\
  (~ In f [INT; UINT] -> GetValue_int (f, d) mem = Throws /\ Sample_int (f, d) out mem count stride = Throws) /\
  (In f [INT; UINT] -> GetValue_int (f, d) mem <> Throws) /\
  (~ In f [INT; UINT] -> GetValue_float (f, d) mem <> Throws).
Proof.
  intros f d mem out count stride. unfold GetValue_int, GetValue_float, Sample_int, Sample_float. cbn [fst snd In].
  destruct f; cbn [is_int]; repeat split; intros; try reflexivity; try tauto; try (intuition congruence); destruct (codec_value _ d mem); discriminate.
Qed.
Print Assumptions C49_wrong_kind_throws.
(** Descriptor equality is equality of both fields; the hash is a function of it that tells all
    descriptors apart; the order is a strict total one. *)
Theorem C49_descriptor : forall a b, is_word 16 (fst a) -> is_word 16 (snd a) -> is_word 16 (fst b) -> is_word 16 (snd b) ->
  (descr_eq a b = true <-> a = b) /\ (descr_hash a = descr_hash b <-> a = b) /\
  descr_lt a a = false /\ (forall c, descr_lt a b = true -> descr_lt b c = true -> descr_lt a c = true) /\
  (descr_lt a b = true \/ a = b \/ descr_lt b a = true).
Proof.
  intros a b A1 A2 B1 B2. split; [|split; [|unfold descr_lt; split; [lia|split; [intros; lia|]]]]; [split; intros H|split; intros H; [|now subst]|].
  - apply descr_inj; auto. now apply Z.eqb_eq.
  - subst. apply Z.eqb_refl.
  - unfold descr_hash in H. unfold is_word in *. rewrite !Z.shiftl_mul_pow2 in H by lia. rewrite !lor_add in H by (apply land_low_shift; lia).
    destruct a as [a1 a2], b as [b1 b2]. cbn [fst snd] in *. change (2 ^ 16) with 65536 in *. f_equal; lia.
  - destruct (Z.lt_trichotomy (descr_word a) (descr_word b)) as [H|[H|H]]; [left; lia|right; left; now apply descr_inj|right; right; lia].
Qed.
Print Assumptions C49_descriptor.

(** *** Concrete cases that meet the hypotheses *)
Example ex_uint : bytes_ok [0xff; 0x03; 0x00; 0x80] /\ (reach UINT R10G10B10A2 <= length [0xff; 0x03; 0x00; 0x80])%nat /\
  GetValue_int (UINT, R10G10B10A2) [0xff; 0x03; 0x00; 0x80] = Returns [1023; 0; 0; 2].
Proof. split; [repeat constructor; cbn; lia|]. split; [cbn; lia|]. vm_compute. reflexivity. Qed.
Example ex_int : GetValue_int (INT, R10G10B10A2) [0xff; 0x03; 0x00; 0x80] = Returns [2 ^ 32 - 1; 0; 0; 2 ^ 32 - 2].
Proof. vm_compute. reflexivity. Qed.
Example ex_unorm : clean R8G8 0 /\ component R8G8 [255; 51] 0 = full (width R8G8 0) /\
  GetValue_float (UNORM, R8G8) [255; 51] = Returns [one; 0x3e4cccce; 0; 0].
Proof. split; [unfold clean; cbn; intuition (discriminate || lia)|]. split; vm_compute; reflexivity. Qed.
Example ex_norm : clean R8G8 0 /\ signed_component R8G8 [0x81; 0x80] 0 = - signed_full (width R8G8 0) /\ signed_component R8G8 [0x81; 0x80] 1 = - 2 ^ (width R8G8 1 - 1) /\
  GetValue_float (NORM, R8G8) [0x81; 0x80] = Returns [minus_one; 0xbf810204; 0; 0].
Proof. split; [unfold clean; cbn; intuition (discriminate || lia)|]. split; [|split]; vm_compute; reflexivity. Qed.
(** 0xffff as R5G6B5: red 62/63, blue 63/63 *)
Example ex_mixed : GetValue_float (UNORM, R5G6B5) [255; 255] = Returns [0x3f7befc0; one; one; 0].
Proof. vm_compute. reflexivity. Qed.
Example ex_half : negative_tiny (component R16 [0; 0x80] 0) /\ GetValue_float (FLOAT, R16) [0; 0x80] = Returns [0xbf800000; 0; 0; 0] /\
  GetValue_float (FLOAT, R16G16) [0; 0x80; 0; 0x3c] = Returns [2 ^ 31; one; 0; 0].
Proof. split; [unfold negative_tiny; vm_compute; intuition congruence|]. split; vm_compute; reflexivity. Qed.
Example ex_packed : GetValue_float (UFLOAT, R11G11B10) [0xc0; 0x03; 0x1e; 0x78] = Returns [one; one; one; 0] /\
  GetValue_float (FLOAT, R11G11B10) [0xe0; 0x01; 0x0f; 0x3c] = Returns [one; one; one; 0].
Proof. split; vm_compute; reflexivity. Qed.
Example ex_sample : supported UINT R8G8B8 /\ (element_size R8G8B8 <= 4)%nat /\ ~ over_reads UINT R8G8B8 /\ over_reads UNORM R8G8B8 /\
  Sample_int (UINT, R8G8B8) [] [1; 2; 3; 9; 4; 5; 6] 2 4 = Returns [[1; 2; 3; 0]; [4; 5; 6; 0]] /\
  Sample_int (UINT, R8G8B8) [[]; []] [1; 2; 3; 4; 5; 6] 0 0 = Returns [[1; 2; 3; 0]; [4; 5; 6; 0]] /\
  Sample_int (UINT, R8G8B8) [] [1; 2; 3; 4; 5; 6] 2 2 = Throws /\ Sample_float (UNORM, R8G8B8) [] [1; 2; 3; 4; 5; 6] 2 0 = Faults.
Proof.
  split; [discriminate|]. split; [cbn; lia|]. split; [unfold over_reads; cbn; intuition discriminate|]. split; [unfold over_reads; cbn; tauto|].
  repeat split; vm_compute; reflexivity.
Qed.
Example ex_get : Get (4, 12) = Returns (UNORM, R8G8B8) /\ Get (5, 12) = Throws /\ Get (0, 0) = Throws /\ Get (65535, 3) = Throws.
Proof. repeat split; vm_compute; reflexivity. Qed.
