(** Scaling an integer by 1/(2^n-1) in single precision. *)
From Coq Require Import Floats.SpecFloat.
From Verif Require Import Base Float_Model Float_Proof HalfFloat_Model HalfFloat_Spec HalfFloat_Proof Vector_Model Vector_Spec Vector_Proof Float_Mul_Proof UniFormat_Model UniFormat_Spec.

Lemma ieee_of_finite w : finite w -> ieee 23 8 w = Finite (Z.testbit w 31) (mag w).
Proof.
  intros [Hw Hf]. unfold ieee, mag. change (23 + 8) with 31. change (2 ^ (8 - 1) - 1) with 127. change (2 ^ 8 - 1) with 255.
  cbv zeta. destruct (Z.eqb_spec ((w / 2 ^ 23) mod 2 ^ 8) 255) as [|_]; [contradiction|].
  destruct (Z.eqb_spec ((w / 2 ^ 23) mod 2 ^ 8) 0) as [E|E]; f_equal.
  - change (2 ^ (150 - 127 - 23)) with 1. lia.
  - rewrite Z.add_comm. f_equal. f_equal. lia.
Qed.

(** the float of a nonzero integer *)
Definition of_int_mag (a : Z) : Z := mag (enc (Z.abs a * 2 ^ 149)).
Lemma mag_sign s w : 0 <= w < 2 ^ 31 -> mag (sign_bit s + w) = mag w /\ Z.testbit (sign_bit s + w) 31 = s.
Proof.
  intros Hw. unfold mag. cbv zeta.
  assert (A : (sign_bit s + w) / 2 ^ 23 mod 2 ^ 8 = w / 2 ^ 23 mod 2 ^ 8).
  { unfold sign_bit. change (2 ^ 31) with 2147483648 in *. change (2 ^ 23) with 8388608. change (2 ^ 8) with 256. destruct s; lia. }
  assert (C : (sign_bit s + w) mod 2 ^ 23 = w mod 2 ^ 23).
  { unfold sign_bit. change (2 ^ 31) with 2147483648 in *. change (2 ^ 23) with 8388608. destruct s; lia. }
  rewrite A, C. split; [reflexivity|]. rewrite Z.testbit_odd, Z.shiftr_div_pow2 by lia.
  unfold sign_bit. change (2 ^ 31) with 2147483648 in *. replace ((_ + w) / 2147483648) with (if s then 1 else 0) by (destruct s; lia). now destruct s.
Qed.
Lemma enc_pos X : 2 ^ 23 <= X -> X < 2 ^ 276 -> 2 ^ 23 <= enc X < 255 * 2 ^ 23.
Proof.
  intros H1 H2. split.
  - pose proof (enc_ge X 23 ltac:(lia) H1) as G. change (23 - 22) with 1 in G. lia.
  - assert (LX : Z.log2 X < 276) by (apply Z.log2_lt_pow2; lia). assert (L23 : 23 <= Z.log2 X) by (apply Z.log2_le_pow2; lia).
    unfold enc. cbv zeta. rewrite Z.max_l by lia. assert (L := Z.log2_spec X ltac:(lia)).
    assert (R2 : rne X (Z.log2 X - 23) <= 2 ^ 24).
    { apply rne_upper; [lia| |lia]. rewrite <- Z.pow_add_r by lia. replace (24 + (Z.log2 X - 23)) with (Z.succ (Z.log2 X)) by lia. lia. }
    change (2 ^ 24) with (2 * 2 ^ 23) in R2. change (2 ^ 23) with 8388608 in *. lia.
Qed.
(** enc_near without signs *)
Lemma enc_mag_near X : 2 ^ 23 <= X -> X < 2 ^ 276 -> 0 < mag (enc X) /\ 2 ^ 24 * Z.abs (mag (enc X) - X) <= X.
Proof.
  intros H1 H2. destruct (enc_near false X H1 H2) as (Y & F & V & Y0 & N). cbn [sign_bit] in *. rewrite Z.add_0_l in *.
  assert (M : mag (enc X) = Y); [|rewrite M; auto].
  assert (T : Z.testbit (enc X) 31 = false).
  { destruct (mag_sign false (enc X)) as [_ T]; [|exact T]. pose proof (enc_pos X H1 H2). change (2 ^ 23) with 8388608 in *. change (2 ^ 31) with 2147483648. lia. }
  unfold val in V. rewrite T in V. exact V.
Qed.
Lemma of_int_bits a : a <> 0 -> Z.abs a <= 2 ^ 31 ->
  to_bits (of_int a) = sign_bit (a <? 0) + enc (Z.abs a * 2 ^ 149) /\ finite (to_bits (of_int a)) /\
  mag (to_bits (of_int a)) = of_int_mag a /\ Z.testbit (to_bits (of_int a)) 31 = (a <? 0) /\
  2 ^ 24 * Z.abs (of_int_mag a - Z.abs a * 2 ^ 149) <= Z.abs a * 2 ^ 149.
Proof.
  intros Ha Hb. set (T := 2 ^ 149). assert (T0 : 0 < T) by reflexivity.
  assert (Lo : 2 ^ 23 <= Z.abs a * T). { apply Z.le_trans with (1 * T); [vm_compute; congruence|]. apply Z.mul_le_mono_nonneg_r; lia. }
  assert (Hi : Z.abs a * T < 2 ^ 276). { apply Z.le_lt_trans with (2 ^ 31 * T); [apply Z.mul_le_mono_nonneg_r; lia|reflexivity]. }
  assert (E : to_bits (of_int a) = sign_bit (a <? 0) + enc (Z.abs a * T)).
  { unfold of_int. rewrite (normalize_enc a 0 (a * T)); [|exact Ha|lia|reflexivity|].
    - rewrite Z.abs_mul, (Z.abs_eq T) by lia. f_equal. f_equal. clearbody T. destruct (Z.ltb_spec a 0), (Z.ltb_spec (a * T) 0); try reflexivity; exfalso; nia.
    - rewrite Z.abs_mul, (Z.abs_eq T) by lia. apply Z.lt_trans with (2 ^ 276); [exact Hi|reflexivity]. }
  rewrite E. split; [reflexivity|]. pose proof (enc_pos _ Lo Hi) as P.
  destruct (mag_sign (a <? 0) (enc (Z.abs a * T))) as [M S]. { change (2 ^ 23) with 8388608 in *. change (2 ^ 31) with 2147483648. lia. }
  destruct (enc_near (a <? 0) (Z.abs a * T) Lo Hi) as (Y & F & _ & _ & _).
  split; [exact F|]. split; [exact M|]. split; [exact S|]. apply enc_mag_near; assumption.
Qed.

(** A fraction as a float: m * 2^e with a full mantissa, within 2^-24 of 1/D. *)
Definition fraction (w m e D : Z) : Prop :=
  of_bits w = S754_finite false (Z.to_pos m) e /\ is_nan_bits w = false /\
  2 ^ 23 <= m < 2 ^ 24 /\ -54 <= e <= -23 /\ 0 < D /\ 2 ^ 24 * Z.abs (m * 2 ^ (e + 149) * D - 2 ^ 149) <= 2 ^ 149.
Definition product (a m e : Z) : Z := of_int_mag a * (m * 2 ^ (e + 149)) / 2 ^ 149.

Lemma of_bits_norm w : finite w -> mag w <> 0 ->
  exists m e, of_bits w = S754_finite (Z.testbit w 31) m e /\ -149 <= e /\ mag w = Zpos m * 2 ^ (e + 149) /\ Zpos m < 2 ^ 24.
Proof.
  intros F H. destruct (of_bits_finite w F) as [[M0 _]|(m & e & E & He & Mg)]; [contradiction|].
  exists m, e. repeat split; auto. unfold of_bits in E. cbv zeta in E.
  destruct ((w / 2 ^ 23) mod 2 ^ 8 =? 255); [destruct (_ =? 0); discriminate|].
  pose proof (Z.mod_pos_bound w (2 ^ 23) ltac:(lia)) as R. destruct ((w / 2 ^ 23) mod 2 ^ 8 =? 0).
  - destruct (w mod 2 ^ 23) as [|p|p] eqn:Ep; try discriminate. assert (p = m) by congruence. subst p. lia.
  - destruct (w mod 2 ^ 23 + 2 ^ 23) as [|p|p] eqn:Ep; try discriminate. assert (p = m) by congruence. subst p. change (2 ^ 24) with (2 * 2 ^ 23). lia.
Qed.

Lemma scale_bits a w m e D : a <> 0 -> Z.abs a <= 2 ^ 31 -> fraction w m e D ->
  let X := product a m e in
  fmul_bits (to_bits (of_int a)) w = sign_bit (a <? 0) + enc X /\ X * 2 ^ 149 = of_int_mag a * (m * 2 ^ (e + 149)) /\ 2 ^ 23 <= X < 2 ^ 276.
Proof.
  intros Ha Hb (Ew & Nw & Hm & He & HD & HF) X. destruct (of_int_bits a Ha Hb) as (_ & F & Mg & S & Near).
  set (T := 2 ^ 149) in *. assert (T0 : 0 < T) by reflexivity.
  assert (Y1 : 2 ^ 148 <= of_int_mag a /\ of_int_mag a <= 2 ^ 181).
  { set (Y := of_int_mag a) in *. clearbody Y. set (A := Z.abs a) in *. assert (A1 : 1 <= A) by lia.
    assert (A * 1 <= A * T) by (apply Z.mul_le_mono_nonneg_l; lia). assert (1 * T <= A * T) by (apply Z.mul_le_mono_nonneg_r; lia). assert (A * T <= 2 ^ 31 * T) by (apply Z.mul_le_mono_nonneg_r; lia).
    change (2 ^ 24) with 16777216 in Near. change (2 ^ 181) with (2 * (2 ^ 31 * T)). change (2 ^ 148) with (T / 2). set (AT := A * T) in *. clearbody AT. unfold T in *. change (2 ^ 149 / 2) with (2 ^ 148). change (2 ^ 149) with (2 * 2 ^ 148) in *. lia. }
  destruct (of_bits_norm _ F) as (p & ep & Ep & Hep & Mp & Hp). { rewrite Mg. lia. }
  rewrite Mg in Mp.
  assert (Hep2 : -24 <= ep).
  { apply Z.nlt_ge. intros C. assert (2 ^ (ep + 149) <= 2 ^ 124) by (apply Z.pow_le_mono_r; lia). assert (P := pow2_pos (ep + 149) ltac:(lia)).
    assert (Zpos p * 2 ^ (ep + 149) < 2 ^ 24 * 2 ^ 124).
    { apply Z.lt_le_trans with (2 ^ 24 * 2 ^ (ep + 149)); [apply Z.mul_lt_mono_pos_r; lia|apply Z.mul_le_mono_nonneg_l; lia]. }
    change (2 ^ 24 * 2 ^ 124) with (2 ^ 148) in *. lia. }
  assert (XE : Zpos p * m * 2 ^ (ep + e + 149) * T = of_int_mag a * (m * 2 ^ (e + 149))).
  { rewrite Mp. unfold T. rewrite <- !Z.mul_assoc, <- Z.pow_add_r by lia. rewrite (Z.mul_comm (2 ^ (ep + 149))). rewrite <- !Z.mul_assoc, <- Z.pow_add_r by lia. do 3 f_equal. lia. }
  assert (XV : X = Zpos p * m * 2 ^ (ep + e + 149)). { unfold X, product. fold T. rewrite <- XE. apply Z.div_mul. lia. }
  assert (XR : 2 ^ 23 <= X < 2 ^ 276).
  { rewrite <- XV in XE. assert (Pe := pow2_pos (e + 149) ltac:(lia)).
    assert (Q1 : 2 ^ 95 <= 2 ^ (e + 149)) by (apply Z.pow_le_mono_r; lia). assert (Q2 : 2 ^ (e + 149) <= 2 ^ 126) by (apply Z.pow_le_mono_r; lia).
    assert (K1 : 2 ^ 118 <= m * 2 ^ (e + 149)). { change (2 ^ 118) with (2 ^ 23 * 2 ^ 95). apply Z.mul_le_mono_nonneg; lia. }
    assert (K2 : m * 2 ^ (e + 149) <= 2 ^ 150). { change (2 ^ 150) with (2 ^ 24 * 2 ^ 126). apply Z.mul_le_mono_nonneg; lia. }
    assert (J1 : 2 ^ 266 <= X * T). { rewrite XE. change (2 ^ 266) with (2 ^ 148 * 2 ^ 118). apply Z.mul_le_mono_nonneg; lia. }
    assert (J2 : X * T <= 2 ^ 331). { rewrite XE. change (2 ^ 331) with (2 ^ 181 * 2 ^ 150). apply Z.mul_le_mono_nonneg; lia. }
    split.
    - apply Z.mul_le_mono_pos_r with T; [exact T0|]. apply Z.le_trans with (2 ^ 266); [vm_compute; congruence|exact J1].
    - apply Z.mul_lt_mono_pos_r with T; [exact T0|]. apply Z.le_lt_trans with (2 ^ 331); [exact J2|reflexivity]. }
  split; [|split; [rewrite XV; exact XE|exact XR]].
  unfold fmul_bits. rewrite (not_nan _ F), Nw, Ep, Ew, S.
  rewrite fmul_round by (rewrite ?Z2Pos.id; lia). rewrite xorb_false_r.
  apply binary_round_enc; [lia|apply Z.lt_trans with (2 ^ 276); [apply XR|reflexivity]|lia|].
  rewrite Pos2Z.inj_mul, Z2Pos.id by lia. exact XV.
Qed.

Lemma scale_zero w m e D : fraction w m e D -> fmul_bits (to_bits (of_int 0)) w = 0.
Proof.
  intros (Ew & Nw & _). unfold fmul_bits. change (to_bits (of_int 0)) with 0. change (is_nan_bits 0) with false. cbv iota. rewrite Nw, Ew. reflexivity.
Qed.

Lemma error_sum A T Y K D X r : 0 < A -> 0 < T -> 0 < D -> 0 < X -> X * T = Y * K ->
  16777216 * Z.abs (Y - A * T) <= A * T -> 16777216 * Z.abs (K * D - T) <= T -> 16777216 * Z.abs (r - X) <= X ->
  4194304 * Z.abs (r * D - A * T) <= A * T.
Proof.
  intros A1 T0 HD X0 XE Near HF RN.
  (* Y = AT + y, KD = T + f *)
  set (y := Y - A * T) in *. set (f := K * D - T) in *. set (g := r - X) in *.
  assert (EY : Y = A * T + y) by (unfold y; ring). assert (EK : K * D = T + f) by (unfold f; ring). assert (ER : r = X + g) by (unfold g; ring).
  clearbody y f g.
  assert (S1 : X * T * D = A * T * T + (A * T * f + T * y + y * f)). { rewrite XE, <- Z.mul_assoc, EK, EY. ring. }
  assert (AT0 : 0 < A * T) by (apply Z.mul_pos_pos; lia).
  assert (ATT : 0 < A * T * T) by (apply Z.mul_pos_pos; lia).
  assert (B1 : 16777216 * Z.abs (A * T * f) <= A * T * T).
  { rewrite Z.abs_mul, (Z.abs_eq (A * T)) by lia. replace (16777216 * (A * T * Z.abs f)) with (A * T * (16777216 * Z.abs f)) by ring. apply Z.mul_le_mono_nonneg_l; lia. }
  assert (B2 : 16777216 * Z.abs (T * y) <= A * T * T).
  { rewrite Z.abs_mul, (Z.abs_eq T) by lia. replace (16777216 * (T * Z.abs y)) with (T * (16777216 * Z.abs y)) by ring. rewrite (Z.mul_comm (A * T) T). apply Z.mul_le_mono_nonneg_l; lia. }
  assert (B3 : 16777216 * (16777216 * Z.abs (y * f)) <= A * T * T).
  { rewrite Z.abs_mul. replace (16777216 * (16777216 * (Z.abs y * Z.abs f))) with (16777216 * Z.abs y * (16777216 * Z.abs f)) by ring. apply Z.mul_le_mono_nonneg; lia. }
  assert (B4 : 16777216 * Z.abs (g * D * T) <= X * T * D).
  { rewrite !Z.abs_mul, (Z.abs_eq D), (Z.abs_eq T) by lia. replace (16777216 * (Z.abs g * D * T)) with (16777216 * Z.abs g * (T * D)) by ring.
    rewrite <- (Z.mul_assoc X T D). apply Z.mul_le_mono_nonneg_r; [apply Z.mul_nonneg_nonneg; lia|lia]. }
  apply Z.mul_le_mono_pos_r with T; [exact T0|].
  assert (EF : Z.abs (r * D - A * T) * T = Z.abs (g * D * T + (A * T * f + T * y + y * f))).
  { rewrite <- (Z.abs_eq T) at 2 by lia. rewrite <- Z.abs_mul. f_equal. rewrite ER.
    replace ((( X + g) * D - A * T) * T) with (X * T * D + g * D * T - A * T * T) by ring. rewrite S1. ring. }
  rewrite <- Z.mul_assoc, EF. set (u1 := A * T * f) in *. set (u2 := T * y) in *. set (u3 := y * f) in *. set (u4 := g * D * T) in *. set (v := A * T * T) in *.
  clearbody u1 u2 u3 u4 v. lia.
Qed.
Lemma scale_stands a w m e D : Z.abs a <= 2 ^ 31 -> fraction w m e D -> stands_for (fmul_bits (to_bits (of_int a)) w) a D.
Proof.
  intros Hb HF. destruct (Z.eq_dec a 0) as [->|Ha].
  { rewrite (scale_zero w m e D HF). exists false, 0. split; [reflexivity|]. split; [reflexivity|]. cbn. discriminate. }
  destruct (scale_bits a w m e D Ha Hb HF) as (E & XE & XR). destruct HF as (_ & _ & Hm & He & HD & HF).
  destruct (of_int_bits a Ha Hb) as (_ & _ & _ & _ & Near).
  set (X := product a m e) in *. rewrite E. pose proof (enc_pos X ltac:(lia) ltac:(lia)) as P.
  destruct (mag_sign (a <? 0) (enc X)) as [M S]. { change (2 ^ 23) with 8388608 in *. change (2 ^ 31) with 2147483648. lia. }
  destruct (enc_near (a <? 0) X ltac:(lia) ltac:(lia)) as (_ & F & _). destruct (enc_mag_near X ltac:(lia) ltac:(lia)) as (R0 & RN).
  exists (a <? 0), (mag (enc X)). split; [rewrite ieee_of_finite, S, M by exact F; reflexivity|]. split; [reflexivity|].
  set (r := mag (enc X)) in *. set (T := 2 ^ 149) in *. assert (T0 : 0 < T) by reflexivity.
  set (Y := of_int_mag a) in *. set (A := Z.abs a) in *. assert (A1 : 0 < A) by lia. set (K := m * 2 ^ (e + 149)) in *.
  assert (X0 : 0 < X) by lia.
  apply (error_sum A T Y K D X r); assumption.
Qed.

(** larger numbers scale to larger floats *)
Lemma of_int_mag_mono a b : 0 < Z.abs a -> Z.abs a <= Z.abs b -> Z.abs b <= 2 ^ 31 -> of_int_mag a <= of_int_mag b.
Proof.
  intros Ha Hab Hb. unfold of_int_mag. set (T := 2 ^ 149). assert (T0 : 0 < T) by reflexivity.
  assert (Lo : 2 ^ 23 <= Z.abs a * T). { apply Z.le_trans with (1 * T); [vm_compute; congruence|]. apply Z.mul_le_mono_nonneg_r; lia. }
  assert (Md : Z.abs a * T <= Z.abs b * T) by (apply Z.mul_le_mono_nonneg_r; lia).
  assert (Hi : Z.abs b * T < 2 ^ 276). { apply Z.le_lt_trans with (2 ^ 31 * T); [apply Z.mul_le_mono_nonneg_r; lia|reflexivity]. }
  pose proof (enc_pos _ Lo ltac:(lia)). pose proof (enc_pos (Z.abs b * T) ltac:(lia) ltac:(lia)).
  apply mag_mono; [lia|apply enc_mono; assumption|lia].
Qed.
Lemma scale_mono a b w m e D : Z.abs a <= 2 ^ 31 -> Z.abs b <= 2 ^ 31 -> fraction w m e D -> a <= b ->
  val (fmul_bits (to_bits (of_int a)) w) <= val (fmul_bits (to_bits (of_int b)) w).
Proof.
  intros Ha Hb HF Hab.
  assert (V : forall c, Z.abs c <= 2 ^ 31 -> val (fmul_bits (to_bits (of_int c)) w) = if c =? 0 then 0 else if c <? 0 then - mag (enc (product c m e)) else mag (enc (product c m e))).
  { intros c Hc. destruct (Z.eqb_spec c 0) as [->|Hn]; [now rewrite (scale_zero w m e D HF)|].
    destruct (scale_bits c w m e D Hn Hc HF) as (E & _ & XR). rewrite E. pose proof (enc_pos _ (proj1 XR) (proj2 XR)) as P.
    destruct (mag_sign (c <? 0) (enc (product c m e))) as [M S]. { change (2 ^ 23) with 8388608 in *. change (2 ^ 31) with 2147483648. lia. }
    unfold val. now rewrite S, M. }
  assert (G : forall c d, 0 < Z.abs c -> Z.abs c <= Z.abs d -> Z.abs d <= 2 ^ 31 -> mag (enc (product c m e)) <= mag (enc (product d m e))).
  { intros c d H1 H2 H3. pose proof (of_int_mag_mono c d H1 H2 H3) as O. pose proof HF as (_ & _ & Hm & He & _).
    destruct (scale_bits c w m e D ltac:(lia) ltac:(lia) HF) as (_ & _ & X1). destruct (scale_bits d w m e D ltac:(lia) ltac:(lia) HF) as (_ & _ & X2).
    assert (L : product c m e <= product d m e).
    { unfold product. apply Z.div_le_mono; [reflexivity|]. assert (P := pow2_pos (e + 149) ltac:(lia)). apply Z.mul_le_mono_nonneg_r; [apply Z.mul_nonneg_nonneg; lia|exact O]. }
    pose proof (enc_pos _ (proj1 X1) (proj2 X1)). pose proof (enc_pos _ (proj1 X2) (proj2 X2)).
    apply mag_mono; [lia|apply enc_mono; lia|lia]. }
  rewrite !V by assumption. pose proof (mag_nonneg (enc (product a m e))). pose proof (mag_nonneg (enc (product b m e))).
  destruct (Z.eqb_spec a 0), (Z.eqb_spec b 0), (Z.ltb_spec a 0), (Z.ltb_spec b 0); try lia.
  - specialize (G b a ltac:(lia) ltac:(lia) ltac:(lia)). lia.
  - specialize (G a b ltac:(lia) ltac:(lia) ltac:(lia)). lia.
Qed.

(** the fractions in use *)
Definition used : list Z := [1; 2; 4; 5; 6; 7; 8; 9; 10; 11; 15; 16; 23; 24; 31].
Lemma fraction_used n : In n used -> exists m e, fraction (GetFraction n) m e (2 ^ n - 1).
Proof.
  intros H. exists (GetFraction n mod 2 ^ 23 + 2 ^ 23), (GetFraction n / 2 ^ 23 - 150).
  cbn in H. repeat (destruct H as [<-|H]; [vm_compute; repeat split; congruence|]). contradiction.
Qed.
Lemma one_used n : In n used -> fmul_bits (to_bits (of_int (2 ^ n - 1))) (GetFraction n) = 0x3f800000.
Proof. intros H. cbn in H. repeat (destruct H as [<-|H]; [vm_compute; reflexivity|]). contradiction. Qed.
Lemma minus_one_used n : In n used -> fmul_bits (to_bits (of_int (- (2 ^ n - 1)))) (GetFraction n) = 0xbf800000.
Proof. intros H. cbn in H. repeat (destruct H as [<-|H]; [vm_compute; reflexivity|]). contradiction. Qed.
