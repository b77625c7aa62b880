(** The normalised formats lane by lane. *)
From Coq Require Import Floats.SpecFloat.
From Verif Require Import Base Float_Model Float_Proof HalfFloat_Model HalfFloat_Spec HalfFloat_Proof Vector_Model Vector_Spec Vector_Proof Float_Mul_Proof UniFormat_Model UniFormat_Spec UniFormat_Proof UniFormat_Float_Proof.

Definition scaled (n a : Z) : Z := fmul_bits (to_bits (of_int a)) (GetFraction n).
Lemma scaled_stands n a : In n used -> Z.abs a <= 2 ^ 31 -> stands_for (scaled n a) a (2 ^ n - 1).
Proof. intros Hn Ha. destruct (fraction_used n Hn) as (m & e & F). apply (scale_stands a _ m e); assumption. Qed.
Lemma scaled_zero n : In n used -> scaled n 0 = 0.
Proof. intros Hn. destruct (fraction_used n Hn) as (m & e & F). apply (scale_zero _ m e _ F). Qed.
Lemma scaled_mono n a b : In n used -> Z.abs a <= 2 ^ 31 -> Z.abs b <= 2 ^ 31 -> a <= b -> val (scaled n a) <= val (scaled n b).
Proof. intros Hn Ha Hb H. destruct (fraction_used n Hn) as (m & e & F). apply (scale_mono a b _ m e (2 ^ n - 1)); assumption. Qed.
Lemma scaled_finite n a : In n used -> Z.abs a <= 2 ^ 31 -> finite (scaled n a).
Proof.
  intros Hn Ha. destruct (Z.eq_dec a 0) as [->|H0]. { rewrite scaled_zero by exact Hn. split; [lia|vm_compute; congruence]. }
  destruct (fraction_used n Hn) as (m & e & F). destruct (scale_bits a _ m e _ H0 Ha F) as (E & _ & XR). unfold scaled. rewrite E.
  destruct (enc_near (a <? 0) (product a m e) ltac:(lia) ltac:(lia)) as (_ & Fi & _). exact Fi.
Qed.
Lemma number_val w : finite w -> number_of w = Some (val w).
Proof. intros F. unfold number_of. rewrite ieee_of_finite by exact F. reflexivity. Qed.

Lemma lane_small c : 0 <= c < 2 ^ 31 -> sgn 32 c = c.
Proof. intros H. apply sgn_small; [lia|unfold is_sword; change (32 - 1) with 31; lia]. Qed.
(** sign extension through the two shifts *)
Lemma shift_pair c k : 0 <= k < 32 ->
  (if true then wrap 32 (Z.shiftr (sgn 32 (if count k <? 32 then wrap 32 (Z.shiftl c (count k)) else 0)) (Z.min (count k) 31))
   else if count k <? 32 then 0 else 0) = wrap 32 (sgn (32 - k) c).
Proof.
  intros H. cbv iota. unfold count. rewrite (wrap_small 32 k) by lia. replace (k <? 32) with true by lia. rewrite Z.min_l by lia.
  rewrite Z.shiftl_mul_pow2, sar_shl by lia. reflexivity.
Qed.
Lemma sext_lane c k : 0 <= k < 32 -> sgn 32 (wrap 32 (sgn (32 - k) c)) = sgn (32 - k) c.
Proof. intros H. rewrite wrap_sgn by lia. apply sgn_small; [lia|apply sgn_sword; lia]. Qed.
Lemma component_small d mem i : width d i <= 31 -> 0 <= component d mem i < 2 ^ 31.
Proof.
  intros H. pose proof (component_range d mem i). pose proof (layout_fits d i) as (_ & ? & _).
  assert (2 ^ width d i <= 2 ^ 31) by (apply Z.pow_le_mono_r; lia). lia.
Qed.

(** what each lane of a normalised format is scaled by *)
Definition ubits (d : dtype) (i : nat) : Z :=
  match width d i with 32 => 31 | 1 => 5 | n => n end.
Definition uraw (d : dtype) (mem : list Z) (i : nat) : Z :=
  let c := component d mem i in
  match width d i with 32 => c / 2 | 1 => 31 * c | _ => c end.
Lemma unorm_lanes d mem : bytes_ok mem -> d <> CUSTOM -> (reach UNORM d <= length mem)%nat ->
  exists v, unorm_value d mem = Some v /\ length v = 4%nat /\
    (forall i, clean d i -> nth i v 0 = scaled (ubits d i) (uraw d mem i)) /\
    (forall i, (length (layout d) <= i)%nat -> nth i v 0 = 0).
Proof.
  intros B Hd L.
  assert (Le : (element_size d <= length mem)%nat) by (destruct d; cbn in *; lia).
  assert (N : forall i, (length (layout d) <= i)%nat -> component d mem i = 0) by (intros; now apply component_none).
  assert (Sm : forall i, width d i <= 31 -> sgn 32 (component d mem i) = component d mem i) by (intros; now apply lane_small, component_small).
  assert (Hf : forall i, sgn 32 (Z.shiftr (component d mem i) 1) = component d mem i / 2).
  { intros i. pose proof (component_word d mem i) as W. unfold is_word in W. rewrite Z.shiftr_div_pow2 by lia. change (2 ^ 1) with 2. apply lane_small. change (2 ^ 31) with 2147483648. change (2 ^ 32) with 4294967296 in W. lia. }
  assert (Al : d = R5G5B5A1 -> sgn 32 (31 * component d mem 3) = 31 * component d mem 3).
  { intros ->. apply lane_small. pose proof (component_range R5G5B5A1 mem 3) as R. change (2 ^ width R5G5B5A1 3) with 2 in R. lia. }
  destruct (muddy d) eqn:Mu.
  - assert (G : exists v, unorm_value d mem = Some v /\ v = match d with
        | R5G6B5 => fscale (to_float [2 * component d mem 0; component d mem 1; 2 * component d mem 2 + component d mem 1 / 2 ^ 5; 0]) (fall (GetFraction 6))
        | R11G11B10 => fscale (to_float [component d mem 0; component d mem 1; 2 * component d mem 2 + component d mem 1 / 2 ^ 10; 0]) (fall (GetFraction 11))
        | _ => fscale (to_float [component d mem 0; component d mem 1; component d mem 2; 31 * component d mem 3]) (fall (GetFraction 5))
        end).
    { destruct d; try discriminate; cbn [unorm_value]; [rewrite raw_11_11_10|rewrite raw_5_6_5|rewrite raw_5_5_5_1]; auto; cbn [omap]; eauto. }
    destruct G as (v & E & Ev). exists v. split; [exact E|]. clear E.
    destruct d; try discriminate; subst v; unfold fscale, to_float, zipw, fall; cbn [map repeat combine fst snd]; (split; [reflexivity|]); split; intros i Hi.
    + destruct Hi as (Hi & _ & Hc). destruct i as [|[|[|i]]]; cbn [nth]; try (exfalso; tauto); try (cbn in Hi; lia); rewrite Sm by (cbn; lia); reflexivity.
    + cbn in Hi. destruct i as [|[|[|[|i]]]]; try lia; cbn [nth]; [reflexivity|now destruct i].
    + destruct Hi as (Hi & Hc & _). destruct i as [|[|[|i]]]; cbn [nth]; try (exfalso; apply Hc; split; [reflexivity|congruence]); try (cbn in Hi; lia); rewrite Sm by (cbn; lia); reflexivity.
    + cbn in Hi. destruct i as [|[|[|[|i]]]]; try lia; cbn [nth]; [reflexivity|now destruct i].
    + destruct Hi as (Hi & _). destruct i as [|[|[|[|i]]]]; cbn [nth]; try (cbn in Hi; lia); [rewrite Sm by (cbn; lia); reflexivity..|rewrite Al by reflexivity; reflexivity].
    + cbn in Hi. destruct i as [|[|[|[|i]]]]; try lia; cbn [nth]. now destruct i.
  - pose proof (raw_ok d mem B Hd Mu L) as R.
    destruct d; try congruence; try discriminate; cbn [unorm_value]; rewrite R; cbn [omap]; eexists; (split; [reflexivity|]);
      unfold fscale, to_float, zipw, fall, ishr, components; cbn [map repeat combine fst snd]; change (count 1) with 1; change (1 <? 32) with true; cbv iota;
      (split; [reflexivity|]); (split; intros i Hi; [destruct Hi as (Hi & _)|]);
      destruct i as [|[|[|[|i]]]]; try (cbn in Hi; lia); cbn [nth];
      first [rewrite Hf; reflexivity|rewrite Sm by (cbn; lia); reflexivity|rewrite N by (cbn; lia); reflexivity|now destruct i].
Qed.

Lemma sar_sgn x s : 0 <= x < 2 ^ 32 -> 0 <= s < 32 -> Z.shiftr (sgn 32 x) s = sgn (32 - s) (Z.shiftr x s).
Proof.
  intros Hx Hs. rewrite !Z.shiftr_div_pow2 by lia. set (n := 32 - s). assert (P := pow2_pos s ltac:(lia)).
  assert (E : 2 ^ 32 = 2 ^ n * 2 ^ s) by (rewrite <- Z.pow_add_r by lia; f_equal; lia).
  assert (E1 : 2 ^ 31 = 2 ^ (n - 1) * 2 ^ s) by (rewrite <- Z.pow_add_r by lia; f_equal; lia).
  unfold sgn. cbv zeta. rewrite (wrap_small 32) by exact Hx. change (32 - 1) with 31.
  rewrite (wrap_small n).
  2:{ split; [apply Z.div_pos; lia|]. apply Z.div_lt_upper_bound; [lia|]. rewrite Z.mul_comm. lia. }
  destruct (Z.ltb_spec x (2 ^ 31)) as [A|A], (Z.ltb_spec (x / 2 ^ s) (2 ^ (n - 1))) as [C|C]; try reflexivity.
  - exfalso. assert (x / 2 ^ s < 2 ^ (n - 1)); [|lia]. apply Z.div_lt_upper_bound; lia.
  - exfalso. assert (2 ^ (n - 1) <= x / 2 ^ s); [|lia]. apply Z.div_le_lower_bound; lia.
  - rewrite E. replace (x - 2 ^ n * 2 ^ s) with (x + (- 2 ^ n) * 2 ^ s) by ring. rewrite Z.div_add by lia. lia.
Qed.
Lemma signed_spread d mem i m k s : bytes_ok mem -> (element_size d <= m)%nat -> (m <= length mem)%nat -> 0 <= k <= s -> s < 32 ->
  sum (firstn i (layout d)) = s - k -> width d i = 32 - s ->
  sgn 32 (wrap 32 (Z.shiftr (sgn 32 (ilane IMul (wrap 32 (word m mem)) (wrap 32 (2 ^ k)))) (Z.min (count s) 31))) = signed_component d mem i.
Proof.
  intros B H Hm Hk Hs E1 E2. pose proof (spread_component d mem i m k s B H Hm Hk Hs E1 E2) as S.
  unfold count in *. rewrite (wrap_small 32 s) in * by lia. replace (s <? 32) with true in S by lia. rewrite Z.min_l by lia.
  rewrite wrap_sgn by lia. rewrite sar_sgn by (try (cbn [ilane]; apply wrap_range); lia). rewrite S.
  rewrite signed_sgn by lia. rewrite E2. apply sgn_small; [lia|]. apply sgn_sword. lia.
Qed.
Lemma signed_of d mem i x : 1 <= width d i -> component d mem i = x mod 2 ^ width d i -> signed_component d mem i = sgn (width d i) x.
Proof. intros H E. rewrite signed_sgn, E by exact H. apply wrap_sgn. exact H. Qed.

Definition nbits (d : dtype) (i : nat) : Z := match width d i with 1 => 1 | n => n - 1 end.
Lemma norm_lanes d mem : bytes_ok mem -> d <> CUSTOM -> (reach NORM d <= length mem)%nat ->
  exists v, norm_value d mem = Some v /\ length v = 4%nat /\
    (forall i, clean d i -> nth i v 0 = scaled (nbits d i) (signed_component d mem i)) /\
    (forall i, (length (layout d) <= i)%nat -> nth i v 0 = 0).
Proof.
  intros B Hd L.
  assert (Le : (element_size d <= length mem)%nat) by (destruct d; cbn in *; lia).
  assert (N : forall i, (length (layout d) <= i)%nat -> component d mem i = 0) by (intros; now apply component_none).
  assert (Sx : forall i k, 0 <= k < 32 -> width d i = 32 - k ->
    sgn 32 (if true then wrap 32 (Z.shiftr (sgn 32 (if count k <? 32 then wrap 32 (Z.shiftl (component d mem i) (count k)) else 0)) (Z.min (count k) 31)) else if count k <? 32 then 0 else 0) = signed_component d mem i).
  { intros i k Hk Hw. rewrite shift_pair, sext_lane by lia. rewrite signed_sgn by lia. now rewrite Hw. }
  assert (S32 : forall i, width d i = 32 -> sgn 32 (component d mem i) = signed_component d mem i).
  { intros i Hw. rewrite signed_sgn by lia. now rewrite Hw. }
  destruct (muddy d) eqn:Mu.
  - assert (Al : d = R5G5B5A1 -> sgn 32 (if true then wrap 32 (Z.shiftr (sgn 32 (if count 27 <? 32 then wrap 32 (Z.shiftl (31 * component d mem 3) (count 27)) else 0)) (Z.min (count 27) 31)) else if count 27 <? 32 then 0 else 0) = signed_component d mem 3).
    { intros ->. rewrite shift_pair, sext_lane by lia. rewrite signed_sgn by (cbn; lia).
      pose proof (component_range R5G5B5A1 mem 3) as R. change (width R5G5B5A1 3) with 1 in *. change (2 ^ 1) with 2 in R. set (c := component R5G5B5A1 mem 3) in *.
      assert (C : c = 0 \/ c = 1) by lia. destruct C as [-> | ->]; reflexivity. }
    assert (G : exists v, norm_value d mem = Some v /\ v = match d with
        | R5G6B5 => fscale (to_float (ishr true (ishl [2 * component d mem 0; component d mem 1; 2 * component d mem 2 + component d mem 1 / 2 ^ 5; 0] 26) 26)) (fall (GetFraction 5))
        | R11G11B10 => fscale (to_float (ishr true (ishl [component d mem 0; component d mem 1; 2 * component d mem 2 + component d mem 1 / 2 ^ 10; 0] 21) 21)) (fall (GetFraction 10))
        | _ => fscale (to_float (ishr true (ishl [component d mem 0; component d mem 1; component d mem 2; 31 * component d mem 3] 27) 27)) [GetFraction 4; GetFraction 4; GetFraction 4; 0x3f800000]
        end).
    { destruct d; try discriminate; cbn [norm_value]; [rewrite raw_11_11_10|rewrite raw_5_6_5|rewrite raw_5_5_5_1]; auto; cbn [omap]; eauto. }
    destruct G as (v & E & Ev). exists v. split; [exact E|]. clear E.
    destruct d; try discriminate; subst v; unfold fscale, to_float, zipw, fall, ishr, ishl; cbn [map repeat combine fst snd]; (split; [reflexivity|]); split; intros i Hi.
    + destruct Hi as (Hi & _ & Hc). destruct i as [|[|[|i]]]; cbn [nth]; try (exfalso; tauto); try (cbn in Hi; lia); rewrite Sx by (first [lia|reflexivity]); reflexivity.
    + cbn in Hi. destruct i as [|[|[|[|i]]]]; try lia; cbn [nth]; [reflexivity|now destruct i].
    + destruct Hi as (Hi & Hc & _). destruct i as [|[|[|i]]]; cbn [nth]; try (exfalso; apply Hc; split; [reflexivity|congruence]); try (cbn in Hi; lia); rewrite Sx by (first [lia|reflexivity]); reflexivity.
    + cbn in Hi. destruct i as [|[|[|[|i]]]]; try lia; cbn [nth]; [reflexivity|now destruct i].
    + destruct Hi as (Hi & _). destruct i as [|[|[|[|i]]]]; cbn [nth]; try (cbn in Hi; lia); [rewrite Sx by (first [lia|reflexivity]); reflexivity..|rewrite Al by reflexivity; reflexivity].
    + cbn in Hi. destruct i as [|[|[|[|i]]]]; try lia; cbn [nth]. now destruct i.
  - assert (Cases : d = R10G10B10A2 \/ d = R24G8 \/ (d <> R10G10B10A2 /\ d <> R24G8)) by (destruct d; intuition congruence).
    destruct Cases as [Dd|[Dd|[D1 D2]]].
    + subst d. cbn [norm_value]. rewrite rd_ok by (cbn in *; lia). cbn [omap]. eexists. split; [reflexivity|].
      unfold fscale, to_float, zipw, fall, ishr, ibinary, zipw, iall, vec4; cbn [map repeat combine fst snd nth].
      split; [reflexivity|]. split; intros i Hi; [destruct Hi as (Hi & _)|]; cbn in Hi.
      * destruct i as [|[|[|[|i]]]]; try lia; cbn [nth].
        -- rewrite (signed_spread R10G10B10A2 mem 0 4 22 22) by (raw_side B). reflexivity.
        -- rewrite (signed_spread R10G10B10A2 mem 1 4 12 22) by (raw_side B). reflexivity.
        -- rewrite (signed_spread R10G10B10A2 mem 2 4 2 22) by (raw_side B). reflexivity.
        -- pose proof (word_range 4 mem B ltac:(cbn in *; lia)) as R. change (8 * Z.of_nat 4) with 32 in R.
           rewrite sar_sgn by lia. change (32 - 30) with 2. rewrite wrap_sgn, sgn_small by (try apply sgn_sword; lia).
           replace (sgn 2 (Z.shiftr (word 4 mem) 30)) with (signed_component R10G10B10A2 mem 3); [reflexivity|]. apply (signed_of R10G10B10A2 mem 3); [cbn; lia|rewrite Z.shiftr_div_pow2 by lia; reflexivity].
      * destruct i as [|[|[|[|i]]]]; try lia. now destruct i.
    + subst d. cbn [norm_value]. rewrite rd_ok by (cbn in *; lia). cbn [omap]. eexists. split; [reflexivity|].
      pose proof (word_range 4 mem B ltac:(cbn in *; lia)) as R. change (8 * Z.of_nat 4) with 32 in R.
      unfold fscale, to_float, zipw, vec4; cbn [map repeat combine fst snd nth].
      split; [reflexivity|]. split; intros i Hi; [destruct Hi as (Hi & _)|]; cbn in Hi.
      * destruct i as [|[|i]]; try lia; cbn [nth].
        -- rewrite Z.shiftl_mul_pow2, <- (wrap_sgn 32 (word 4 mem * 2 ^ 8)), sar_shl by lia. rewrite wrap_sgn, sgn_small by (try apply sgn_sword; lia).
           change (32 - 8) with 24. replace (sgn 24 (word 4 mem)) with (signed_component R24G8 mem 0); [reflexivity|]. apply (signed_of R24G8 mem 0); [cbn; lia|]. change (component R24G8 mem 0) with ((word 4 mem / 1) mod 2 ^ 24). now rewrite Z.div_1_r.
        -- rewrite sar_sgn by lia. change (32 - 24) with 8. rewrite (sgn_small 8 (sgn 8 _)) by (try apply sgn_sword; lia). rewrite wrap_sgn, sgn_small by (try apply sgn_sword; lia).
           replace (sgn 8 (Z.shiftr (word 4 mem) 24)) with (signed_component R24G8 mem 1); [reflexivity|]. apply (signed_of R24G8 mem 1); [cbn; lia|rewrite Z.shiftr_div_pow2 by lia; reflexivity].
      * destruct i as [|[|[|[|i]]]]; try lia; cbn [nth]; [reflexivity..|now destruct i].
    + pose proof (raw_ok d mem B Hd Mu L) as R.
      assert (S16 : forall n, width d 0 = n -> 1 <= n <= 32 -> sgn 32 (wrap 32 (sgn n (component d mem 0))) = signed_component d mem 0).
      { intros n Hn Hb. rewrite wrap_sgn, sgn_small by (try apply sgn_sword; lia). rewrite signed_sgn by lia. now rewrite Hn. }
      destruct d; try congruence; try discriminate; cbn [norm_value]; rewrite R; cbn [omap]; eexists; (split; [reflexivity|]);
      unfold fscale, to_float, zipw, fall, ishr, ishl, vec4, components; cbn [map repeat combine fst snd nth];
      (split; [reflexivity|]); (split; intros i Hi; [destruct Hi as (Hi & _)|]);
      destruct i as [|[|[|[|i]]]]; try (cbn in Hi; lia); cbn [nth];
      first [rewrite Sx by (first [lia|reflexivity]); reflexivity|rewrite S32 by reflexivity; reflexivity|rewrite (S16 16 eq_refl) by lia; reflexivity|rewrite (S16 8 eq_refl) by lia; reflexivity
            |rewrite N by (cbn; lia); reflexivity|reflexivity|now destruct i].
Qed.

(** *** The lanes that mix neighbours *)
Lemma sgn_double n c t : 1 <= n -> 0 <= c < 2 ^ n -> 0 <= t <= 1 -> sgn (n + 1) (2 * c + t) = 2 * sgn n c + t.
Proof.
  intros Hn Hc Ht. unfold sgn. cbv zeta. assert (E : 2 ^ (n + 1) = 2 * 2 ^ n) by (rewrite Z.pow_add_r by lia; lia).
  rewrite !wrap_small by lia. replace (n + 1 - 1) with n by lia.
  assert (E1 : 2 ^ n = 2 * 2 ^ (n - 1)) by (rewrite <- Z.pow_succ_r by lia; f_equal; lia).
  destruct (Z.ltb_spec (2 * c + t) (2 ^ n)), (Z.ltb_spec c (2 ^ (n - 1))); lia.
Qed.
Definition mixes (d : dtype) (i : nat) : Prop := (d = R5G6B5 /\ (i = 0 \/ i = 2)%nat) \/ (d = R11G11B10 /\ i = 2%nat).
(** the lane's number: twice the component plus, for blue, the top bit of green *)
Definition mixed (d : dtype) (mem : list Z) (i : nat) (c : Z) : Z :=
  2 * c + (if Nat.eqb i 2 then component d mem 1 / 2 ^ (width d 1 - 1) else 0).
Lemma top_bit d mem : (d = R5G6B5 \/ d = R11G11B10) -> 0 <= component d mem 1 / 2 ^ (width d 1 - 1) <= 1.
Proof.
  intros H. pose proof (component_range d mem 1) as R. destruct H as [-> | ->].
  - change (2 ^ width R5G6B5 1) with 64 in R. change (2 ^ (width R5G6B5 1 - 1)) with 32. lia.
  - change (2 ^ width R11G11B10 1) with 2048 in R. change (2 ^ (width R11G11B10 1 - 1)) with 1024. lia.
Qed.
Lemma mixed_lanes d mem i : bytes_ok mem -> (element_size d <= length mem)%nat -> mixes d i ->
  exists u n, unorm_value d mem = Some u /\ norm_value d mem = Some n /\
    nth i u 0 = scaled (width d i + 1) (mixed d mem i (component d mem i)) /\
    nth i n 0 = scaled (width d i) (mixed d mem i (signed_component d mem i)).
Proof.
  intros B L M.
  assert (Hd : d = R5G6B5 \/ d = R11G11B10) by (destruct M as [[-> _]|[-> _]]; auto). pose proof (top_bit d mem Hd) as T.
  assert (Cr : forall j, 0 <= component d mem j < 2 ^ width d j) by (intros; apply component_range).
  assert (SD : forall j t, 1 <= width d j < 31 -> 0 <= t <= 1 -> sgn (width d j + 1) (2 * component d mem j + t) = 2 * signed_component d mem j + t).
  { intros j t Hj Ht. rewrite sgn_double by (auto; lia). rewrite signed_sgn by lia. reflexivity. }
  destruct M as [[-> [-> | ->]]|[-> ->]].
  - cbn [unorm_value norm_value]. rewrite raw_5_6_5 by auto. cbn [omap]. eexists; eexists. do 2 (split; [reflexivity|]).
    unfold fscale, to_float, zipw, fall, ishr, ishl; cbn [map repeat combine fst snd nth]. rewrite shift_pair, sext_lane by lia.
    unfold mixed, scaled. cbn [Nat.eqb]. rewrite !Z.add_0_r. specialize (SD 0%nat 0 ltac:(cbn; lia) ltac:(lia)). rewrite !Z.add_0_r in SD. 
    change (32 - 26) with (width R5G6B5 0 + 1). rewrite SD. specialize (Cr 0%nat). change (2 ^ width R5G6B5 0) with 32 in Cr.
    rewrite lane_small by (change (2 ^ 31) with 2147483648; lia). split; reflexivity.
  - cbn [unorm_value norm_value]. rewrite raw_5_6_5 by auto. cbn [omap]. eexists; eexists. do 2 (split; [reflexivity|]).
    unfold fscale, to_float, zipw, fall, ishr, ishl; cbn [map repeat combine fst snd nth]. rewrite shift_pair, sext_lane by lia.
    unfold mixed, scaled. cbn [Nat.eqb]. change (width R5G6B5 1 - 1) with 5 in *. specialize (SD 2%nat _ ltac:(cbn; lia) T).
    change (32 - 26) with (width R5G6B5 2 + 1). rewrite SD. specialize (Cr 2%nat). change (2 ^ width R5G6B5 2) with 32 in Cr.
    rewrite lane_small by (change (2 ^ 31) with 2147483648; lia). split; reflexivity.
  - cbn [unorm_value norm_value]. rewrite raw_11_11_10 by auto. cbn [omap]. eexists; eexists. do 2 (split; [reflexivity|]).
    unfold fscale, to_float, zipw, fall, ishr, ishl; cbn [map repeat combine fst snd nth]. rewrite shift_pair, sext_lane by lia.
    unfold mixed, scaled. cbn [Nat.eqb]. change (width R11G11B10 1 - 1) with 10 in *. specialize (SD 2%nat _ ltac:(cbn; lia) T).
    change (32 - 21) with (width R11G11B10 2 + 1). rewrite SD. specialize (Cr 2%nat). change (2 ^ width R11G11B10 2) with 1024 in Cr.
    rewrite lane_small by (change (2 ^ 31) with 2147483648; lia). split; reflexivity.
Qed.
