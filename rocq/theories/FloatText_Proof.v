(** Exact arithmetic for FloatText_Model, in the rational numbers. *)
From Coq Require Import QArith Qabs Qpower Lqa.
From Verif Require Import Base Reflector_Model FloatText_Model.
Local Open Scope Q_scope.

Definition frac (x : Z * Z) : Q := inject_Z (fst x) / inject_Z (snd x).
Definition pw (b k : Z) : Q := inject_Z b ^ k.

Lemma inj_pos z : (0 < z)%Z -> 0 < inject_Z z.
Proof. intros H. change 0 with (inject_Z 0). now rewrite <- Zlt_Qlt. Qed.
Lemma inj_lt a b : (a < b)%Z <-> inject_Z a < inject_Z b.
Proof. rewrite Zlt_Qlt. reflexivity. Qed.
Lemma inj_le a b : (a <= b)%Z <-> inject_Z a <= inject_Z b.
Proof. rewrite Zle_Qle. reflexivity. Qed.
Lemma pw_pos b k : (0 < b)%Z -> 0 < pw b k.
Proof. intros H. apply Qpower_0_lt. apply inj_pos, H. Qed.
Lemma pw_add b j k : (0 < b)%Z -> pw b (j + k) == pw b j * pw b k.
Proof. intros H. apply Qpower_plus. pose proof (inj_pos b H). lra. Qed.
Lemma pw_1 b : pw b 1 == inject_Z b.
Proof. reflexivity. Qed.
Lemma pw_0 b : pw b 0 == 1.
Proof. reflexivity. Qed.
Lemma pw_nat b k : (0 <= k)%Z -> pw b k == inject_Z (b ^ k).
Proof. intros H. unfold pw. rewrite Zpower_Qpower by exact H. reflexivity. Qed.
Lemma pw_opp b k : (0 < b)%Z -> pw b (- k) == / pw b k.
Proof. intros H. apply Qpower_opp. Qed.
Lemma pw_ge1 b k : (1 < b)%Z -> (0 <= k)%Z -> 1 <= pw b k.
Proof.
  intros Hb Hk. rewrite pw_nat by exact Hk. change 1 with (inject_Z 1). rewrite <- inj_le.
  assert (0 < b ^ k)%Z by (apply Z.pow_pos_nonneg; lia). lia.
Qed.
Lemma pw_le b j k : (1 < b)%Z -> (j <= k)%Z -> pw b j <= pw b k.
Proof.
  intros Hb H. replace k with (j + (k - j))%Z by lia. rewrite pw_add by lia.
  pose proof (pw_pos b j ltac:(lia)). pose proof (pw_ge1 b (k - j) Hb ltac:(lia)). nra.
Qed.
Lemma pw_lt b j k : (1 < b)%Z -> (j < k)%Z -> pw b j < pw b k.
Proof.
  intros Hb H. pose proof (pw_le b (j + 1) k Hb ltac:(lia)) as L. rewrite pw_add in L by lia. rewrite pw_1 in L.
  pose proof (pw_pos b j ltac:(lia)). assert (1 < inject_Z b) by (change 1 with (inject_Z 1); now rewrite <- inj_lt). nra.
Qed.
Lemma pw_lt_inv b j k : (1 < b)%Z -> pw b j < pw b k -> (j < k)%Z.
Proof. intros Hb H. destruct (Z_lt_ge_dec j k) as [|G]; [assumption|]. pose proof (pw_le b k j Hb ltac:(lia)). lra. Qed.
(** the whole part of the logarithm is unique *)
Lemma log_unique b x j k : (1 < b)%Z -> pw b j <= x -> x < pw b (j + 1) -> pw b k <= x -> x < pw b (k + 1) -> j = k.
Proof.
  intros Hb H1 H2 H3 H4. assert (j < k + 1)%Z by (apply (pw_lt_inv b); [exact Hb|lra]).
  assert (k < j + 1)%Z by (apply (pw_lt_inv b); [exact Hb|lra]). lia.
Qed.

Lemma frac_pos x : (0 < fst x)%Z -> (0 < snd x)%Z -> 0 < frac x.
Proof. intros H1 H2. unfold frac. apply Qlt_shift_div_l; [apply inj_pos, H2|]. pose proof (inj_pos _ H1). lra. Qed.
Lemma mulp_pos b k x : (0 < b)%Z -> (0 < snd x)%Z -> (0 < snd (mulp b k x))%Z.
Proof. intros Hb H. cbn. apply Z.mul_pos_pos; [exact H|]. apply Z.pow_pos_nonneg; lia. Qed.
Lemma mulp_num_pos b k x : (0 < b)%Z -> (0 < fst x)%Z -> (0 < fst (mulp b k x))%Z.
Proof. intros Hb H. cbn. apply Z.mul_pos_pos; [exact H|]. apply Z.pow_pos_nonneg; lia. Qed.
Lemma frac_mulp b k x : (0 < b)%Z -> (0 < snd x)%Z -> frac (mulp b k x) == frac x * pw b k.
Proof.
  intros Hb H. unfold frac, mulp. cbn [fst snd]. pose proof (inj_pos _ H) as Hs.
  destruct (Z_le_gt_dec 0 k) as [Hk|Hk].
  - rewrite (Z.max_l k 0) by lia. rewrite (Z.max_r (- k) 0) by lia. rewrite Z.pow_0_r, Z.mul_1_r.
    rewrite inject_Z_mult, <- pw_nat by lia. field. lra.
  - rewrite (Z.max_r k 0) by lia. rewrite (Z.max_l (- k) 0) by lia. rewrite Z.pow_0_r, Z.mul_1_r.
    rewrite inject_Z_mult, <- pw_nat by lia. rewrite pw_opp by lia. pose proof (pw_pos b k ltac:(lia)). field. split; lra.
Qed.
Lemma frac_le x : (0 < snd x)%Z -> (snd x <=? fst x)%Z = true <-> 1 <= frac x.
Proof.
  intros H. rewrite Z.leb_le, inj_le. pose proof (inj_pos _ H). unfold frac. split; intros G.
  - apply Qle_shift_div_l; [lra|]. lra.
  - assert (E : inject_Z (fst x) / inject_Z (snd x) * inject_Z (snd x) == inject_Z (fst x)) by (field; lra). nra.
Qed.

Lemma ilog_spec b est x : (1 < b)%Z -> (0 < snd x)%Z -> pw b (est - 1) <= frac x -> frac x < pw b (est + 1) ->
  pw b (ilog b est x) <= frac x /\ frac x < pw b (ilog b est x + 1).
Proof.
  intros Hb H L U. unfold ilog. pose proof (frac_le (mulp b (- est) x) (mulp_pos b (- est) x ltac:(lia) H)) as F.
  rewrite frac_mulp in F by lia. rewrite pw_opp in F by lia. pose proof (pw_pos b est ltac:(lia)) as P.
  assert (E : frac x * / pw b est * pw b est == frac x) by (field; lra).
  destruct (snd (mulp b (- est) x) <=? fst (mulp b (- est) x))%Z eqn:D.
  - split; [|exact U]. assert (1 <= frac x * / pw b est) by (apply F; reflexivity). nra.
  - replace (est - 1 + 1)%Z with est by lia. split; [exact L|].
    destruct (Qlt_le_dec (frac x) (pw b est)) as [|G]; [assumption|]. exfalso.
    assert (false = true); [|discriminate]. apply F. apply Qle_shift_div_l; [exact P|]. lra.
Qed.
Lemma log2q_spec x : (0 < fst x)%Z -> (0 < snd x)%Z -> pw 2 (log2q x) <= frac x /\ frac x < pw 2 (log2q x + 1).
Proof.
  intros Ha Hb. unfold log2q. destruct (Z.log2_spec _ Ha) as [A1 A2]. destruct (Z.log2_spec _ Hb) as [B1 B2].
  pose proof (Z.log2_nonneg (fst x)). pose proof (Z.log2_nonneg (snd x)).
  set (la := Z.log2 (fst x)) in *. set (lb := Z.log2 (snd x)) in *.
  apply inj_le in A1, B1. apply inj_lt in A2, B2. rewrite <- pw_nat in A1, A2, B1, B2 by lia. unfold Z.succ in *.
  pose proof (inj_pos _ Ha). pose proof (inj_pos _ Hb). pose proof (pw_pos 2 lb ltac:(lia)). pose proof (pw_pos 2 (la - lb) ltac:(lia)).
  assert (E1 : pw 2 (la - lb - 1) * pw 2 (lb + 1) == pw 2 la) by (rewrite <- pw_add by lia; replace (la - lb - 1 + (lb + 1))%Z with la by lia; reflexivity).
  assert (E2 : pw 2 (la - lb + 1) * pw 2 lb == pw 2 (la + 1)) by (rewrite <- pw_add by lia; replace (la - lb + 1 + lb)%Z with (la + 1)%Z by lia; reflexivity).
  pose proof (pw_pos 2 (la - lb - 1) ltac:(lia)). pose proof (pw_pos 2 (la - lb + 1) ltac:(lia)).
  apply ilog_spec; try lia; unfold frac.
  - apply Qle_shift_div_l; [assumption|]. nra.
  - apply Qlt_shift_div_r; [assumption|]. nra.
Qed.
Lemma dlog_spec g : forall a, (0 < a < 2 ^ (Z.of_nat g + 1))%Z -> (0 <= dlog g a /\ 10 ^ dlog g a <= a < 10 ^ (dlog g a + 1))%Z.
Proof.
  induction g as [|g IH]; intros a H; cbn [dlog].
  - change (2 ^ (Z.of_nat 0 + 1))%Z with 2%Z in H. change (10 ^ 0)%Z with 1%Z. change (10 ^ (0 + 1))%Z with 10%Z. lia.
  - destruct (Z.ltb_spec a 10) as [L|L].
    + change (10 ^ 0)%Z with 1%Z. change (10 ^ (0 + 1))%Z with 10%Z. lia.
    + assert (Hd : (0 < a / 10 < 2 ^ (Z.of_nat g + 1))%Z).
      { split; [apply Z.div_str_pos; lia|]. apply Z.div_lt_upper_bound; [lia|]. replace (Z.of_nat (S g) + 1)%Z with (Z.of_nat g + 1 + 1)%Z in H by lia.
        rewrite Z.pow_add_r in H by lia. change (2 ^ 1)%Z with 2%Z in H. lia. }
      destruct (IH _ Hd) as (N & A & B). set (d := dlog g (a / 10)) in *. split; [lia|].
      replace (1 + d)%Z with (d + 1)%Z by lia. rewrite !(Z.pow_add_r 10 _ 1) in * by lia. change (10 ^ 1)%Z with 10%Z in *.
      pose proof (Z.div_mod a 10 ltac:(lia)). pose proof (Z.mod_pos_bound a 10 ltac:(lia)). lia.
Qed.
Lemma digits_spec a : (0 < a)%Z -> (0 <= digits_less_one a /\ 10 ^ digits_less_one a <= a < 10 ^ (digits_less_one a + 1))%Z.
Proof.
  intros H. unfold digits_less_one. apply dlog_spec. rewrite Z2Nat.id by apply Z.log2_nonneg. split; [exact H|]. apply (Z.log2_spec a H).
Qed.
Lemma log10q_spec x : (0 < fst x)%Z -> (0 < snd x)%Z -> pw 10 (log10q x) <= frac x /\ frac x < pw 10 (log10q x + 1).
Proof.
  intros Ha Hb. unfold log10q. destruct (digits_spec _ Ha) as (N1 & A1 & A2). destruct (digits_spec _ Hb) as (N2 & B1 & B2).
  set (la := digits_less_one (fst x)) in *. set (lb := digits_less_one (snd x)) in *.
  apply inj_le in A1, B1. apply inj_lt in A2, B2. rewrite <- pw_nat in A1, A2, B1, B2 by lia.
  pose proof (inj_pos _ Ha). pose proof (inj_pos _ Hb). pose proof (pw_pos 10 lb ltac:(lia)).
  assert (E1 : pw 10 (la - lb - 1) * pw 10 (lb + 1) == pw 10 la) by (rewrite <- pw_add by lia; replace (la - lb - 1 + (lb + 1))%Z with la by lia; reflexivity).
  assert (E2 : pw 10 (la - lb + 1) * pw 10 lb == pw 10 (la + 1)) by (rewrite <- pw_add by lia; replace (la - lb + 1 + lb)%Z with (la + 1)%Z by lia; reflexivity).
  pose proof (pw_pos 10 (la - lb - 1) ltac:(lia)). pose proof (pw_pos 10 (la - lb + 1) ltac:(lia)).
  apply ilog_spec; try lia; unfold frac.
  - apply Qle_shift_div_l; [assumption|]. nra.
  - apply Qlt_shift_div_r; [assumption|]. nra.
Qed.

(** nearest whole number, ties to even *)
Lemma round_spec y : (0 < snd y)%Z ->
  inject_Z (round_even y) - (1 # 2) <= frac y /\ frac y <= inject_Z (round_even y) + (1 # 2) /\
  (frac y == inject_Z (round_even y) + (1 # 2) \/ frac y == inject_Z (round_even y) - (1 # 2) -> Z.even (round_even y) = true).
Proof.
  intros H. destruct y as [n d]. unfold round_even, frac. cbn [fst snd] in *.
  pose proof (Z.div_mod n d ltac:(lia)) as E. pose proof (Z.mod_pos_bound n d H) as B. set (q := (n / d)%Z) in *. set (r := (n mod d)%Z) in *.
  pose proof (inj_pos _ H) as Hd.
  assert (F : inject_Z n / inject_Z d == inject_Z q + inject_Z r / inject_Z d).
  { rewrite E, inject_Z_plus, inject_Z_mult. field. lra. }
  rewrite F. clear F E.
  assert (R : forall c, (inject_Z r / inject_Z d) == c <-> inject_Z r == c * inject_Z d).
  { intros c. split; intros G; [rewrite <- G; field; lra|]. rewrite G. field. lra. }
  set (t := inject_Z r / inject_Z d) in *.
  assert (T : t * inject_Z d == inject_Z r) by (unfold t; field; lra).
  assert (Hr0 : 0 <= inject_Z r) by (change 0 with (inject_Z 0); rewrite <- inj_le; lia).
  assert (Hr1 : inject_Z r < inject_Z d) by (rewrite <- inj_lt; lia).
  assert (T0 : 0 <= t) by nra. assert (T1 : t < 1) by nra.
  assert (I2 : inject_Z (2 * r) == 2 * inject_Z r) by (rewrite inject_Z_mult; reflexivity).
  assert (Q1 : inject_Z (q + 1) == inject_Z q + 1) by (rewrite inject_Z_plus; reflexivity).
  destruct (Z.ltb_spec (2 * r) d) as [L|L].
  - apply inj_lt in L. rewrite I2 in L. assert (t < 1 # 2) by nra. split; [lra|]. split; [lra|]. intros [G|G]; exfalso; lra.
  - destruct (Z.ltb_spec d (2 * r)) as [L2|L2].
    + apply inj_lt in L2. rewrite I2 in L2. assert (1 # 2 < t) by nra. rewrite !Q1. split; [lra|]. split; [lra|]. intros [G|G]; exfalso; lra.
    + assert (X : inject_Z (2 * r) == inject_Z d) by (replace (2 * r)%Z with d by lia; reflexivity). rewrite I2 in X. assert (t == 1 # 2) by nra.
      destruct (Z.even q) eqn:Ev.
      * split; [lra|]. split; [lra|]. intros _. exact Ev.
      * rewrite !Q1. split; [lra|]. split; [lra|]. intros _. rewrite Z.even_add, Ev. reflexivity.
Qed.
Lemma round_unique y m : (0 < snd y)%Z -> inject_Z m - (1 # 2) < frac y -> frac y < inject_Z m + (1 # 2) -> round_even y = m.
Proof.
  intros H L U. destruct (round_spec y H) as (A & B & _). set (r := round_even y) in *.
  assert (inject_Z r < inject_Z m + 1) by lra. assert (inject_Z m < inject_Z r + 1) by lra.
  change 1 with (inject_Z 1) in *. rewrite <- inject_Z_plus, <- inj_lt in *. lia.
Qed.
(** rounding depends on the fraction only *)
Lemma round_eq y z : (0 < snd y)%Z -> (0 < snd z)%Z -> frac y == frac z -> round_even y = round_even z.
Proof.
  intros H1 H2 E. destruct (round_spec y H1) as (A & B & C). destruct (round_spec z H2) as (A' & B' & C'). rewrite E in A, B, C.
  set (r := round_even y) in *. set (s := round_even z) in *.
  assert (D : (r = s \/ r = s + 1 \/ s = r + 1)%Z).
  { assert (inject_Z r <= inject_Z s + 1) by lra. assert (inject_Z s <= inject_Z r + 1) by lra.
    change 1 with (inject_Z 1) in *. rewrite <- inject_Z_plus, <- inj_le in *. lia. }
  destruct D as [D|[D|D]]; [exact D| |]; exfalso.
  - assert (inject_Z r == inject_Z s + 1) by (rewrite D, inject_Z_plus; reflexivity).
    assert (E1 : Z.even r = true) by (apply C; right; lra). assert (E2 : Z.even s = true) by (apply C'; left; lra).
    rewrite D, Z.even_add, E2 in E1. discriminate.
  - assert (inject_Z s == inject_Z r + 1) by (rewrite D, inject_Z_plus; reflexivity).
    assert (E1 : Z.even r = true) by (apply C; left; lra). assert (E2 : Z.even s = true) by (apply C'; right; lra).
    rewrite D, Z.even_add, E1 in E2. discriminate.
Qed.
Lemma round_mono y z : (0 < snd y)%Z -> (0 < snd z)%Z -> frac y <= frac z -> (round_even y <= round_even z)%Z.
Proof.
  intros H1 H2 E. destruct (Qeq_dec (frac y) (frac z)) as [Q|Q]; [rewrite (round_eq y z H1 H2 Q); lia|].
  destruct (round_spec y H1) as (A & _). destruct (round_spec z H2) as (_ & B & _).
  assert (inject_Z (round_even y) < inject_Z (round_even z) + 1) by lra. change 1 with (inject_Z 1) in *. rewrite <- inject_Z_plus, <- inj_lt in *. lia.
Qed.
