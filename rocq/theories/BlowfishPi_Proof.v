(** pi to 33408 binary places by Machin's formula, with a rigorous error bound. *)
From Coq Require Import Reals ZArith Lia Lra List Machin.
From Verif Require Import Blowfish_Tables BlowfishPi_Spec.
Import ListNotations.
Open Scope R_scope.

(** n terms t/k of the arctangent series with t divided by x2 each time *)
Fixpoint atan_terms (n : nat) (x2 t k acc : Z) (neg : bool) {struct n} : Z * Z :=
  match n with
  | O => (acc, t)
  | S n => atan_terms n x2 (t / x2)%Z (k + 2)%Z (if neg then acc - t / k else acc + t / k)%Z (negb neg)
  end.

Fixpoint psum (f : nat -> R) (n : nat) : R := match n with O => 0 | S n => psum f n + f n end.
Lemma psum_sum f n : sum_f_R0 f n = psum f (S n).
Proof. induction n as [|n IH]; cbn [sum_f_R0 psum]; [lra|]. rewrite IH. reflexivity. Qed.

Lemma abs_le_inv a b : Rabs a <= b -> - b <= a <= b.
Proof. intros H. unfold Rabs in H. destruct (Rcase_abs a); lra. Qed.

Section Series.
Variables (x : Z) (scale : Z).
Hypothesis Hx : (2 <= x)%Z.
Hypothesis Hs : (0 <= scale)%Z.
Let X := IZR x.
Let tau (j : nat) : R := IZR scale * (/ X) ^ (2 * j + 1).

Lemma X_pos : 2 <= X. Proof. unfold X. apply IZR_le in Hx. exact Hx. Qed.
Lemma tau_S j : tau (S j) = tau j / (X * X).
Proof.
  pose proof X_pos. unfold tau. replace (2 * S j + 1)%nat with (2 + (2 * j + 1))%nat by lia.
  rewrite pow_add. field. lra.
Qed.
Lemma tau_pos j : 0 <= tau j.
Proof.
  pose proof X_pos. unfold tau. apply Rmult_le_pos; [apply IZR_le in Hs; exact Hs|].
  apply pow_le. left. apply Rinv_0_lt_compat. lra.
Qed.

Lemma div_bounds a b : (0 < b)%Z -> IZR (a / b) <= IZR a / IZR b < IZR (a / b) + 1.
Proof.
  intros Hb. pose proof (Z.div_mod a b ltac:(lia)) as E. pose proof (Z.mod_pos_bound a b Hb) as B.
  assert (Rb : 0 < IZR b) by (apply IZR_lt; exact Hb).
  assert (Ea : IZR a = IZR b * IZR (a / b) + IZR (a mod b)) by (rewrite E at 1; rewrite plus_IZR, mult_IZR; reflexivity).
  assert (B1 : 0 <= IZR (a mod b)) by (apply IZR_le; lia).
  assert (B2 : IZR (a mod b) < IZR b) by (apply IZR_lt; lia).
  assert (M1 : 0 <= IZR (a mod b) / IZR b) by (apply Rmult_le_pos; [lra | left; apply Rinv_0_lt_compat; lra]).
  assert (M2 : IZR (a mod b) / IZR b < 1) by (apply Rmult_lt_reg_r with (IZR b); [lra|]; unfold Rdiv; rewrite Rmult_assoc, Rinv_l by lra; lra).
  replace (IZR a / IZR b) with (IZR (a / b) + IZR (a mod b) / IZR b) by (rewrite Ea; field; lra). lra.
Qed.

(** tau j / (2j+1) is the j-th term of the series *)
Lemma term_tau j : IZR scale * Ratan_seq (/ X) j = tau j / IZR (2 * Z.of_nat j + 1).
Proof.
  unfold Ratan_seq, tau. rewrite INR_IZR_INZ.
  replace (Z.of_nat (2 * j + 1)) with (2 * Z.of_nat j + 1)%Z by lia. unfold Rdiv. ring.
Qed.

Lemma tg_alt_sign f j : tg_alt f j = if Nat.odd j then - f j else f j.
Proof.
  unfold tg_alt. assert (P : (-1) ^ j = if Nat.odd j then -1 else 1).
  { induction j as [|j IH]; [reflexivity|]. rewrite Nat.odd_succ, <- Nat.negb_odd. cbn [pow]. rewrite IH. destruct (Nat.odd j); cbn; lra. }
  rewrite P. destruct (Nat.odd j); lra.
Qed.

Lemma atan_terms_ok n : forall j t acc, 
  (0 <= t)%Z -> IZR t <= tau j < IZR t + 2 ->
  Rabs (IZR acc - IZR scale * psum (tg_alt (Ratan_seq (/ X))) j) <= 3 * INR j ->
  let r := atan_terms n (x * x) t (2 * Z.of_nat j + 1) acc (Nat.odd j) in
  Rabs (IZR (fst r) - IZR scale * psum (tg_alt (Ratan_seq (/ X))) (j + n)) <= 3 * INR (j + n) /\
  tau (j + n) < IZR (snd r) + 2.
Proof.
  pose proof X_pos as XP.
  assert (XX : IZR (x * x) = X * X) by (unfold X; rewrite mult_IZR; reflexivity).
  induction n as [|n IH]; intros j t acc Ht Hb Ha.
  - cbn [atan_terms fst snd]. rewrite Nat.add_0_r. split; [exact Ha | lra].
  - cbn [atan_terms]. replace (j + S n)%nat with (S j + n)%nat by lia.
    replace (2 * Z.of_nat j + 1 + 2)%Z with (2 * Z.of_nat (S j) + 1)%Z by lia.
    replace (negb (Nat.odd j)) with (Nat.odd (S j)) by (rewrite Nat.odd_succ, <- Nat.negb_odd; reflexivity).
    apply IH.
    + apply Z.div_pos; lia.
    + rewrite tau_S. pose proof (div_bounds t (x * x) ltac:(nia)) as D. rewrite XX in D.
      assert (I4 : 0 < / (X * X) <= / 4).
      { split; [apply Rinv_0_lt_compat; nra|]. apply Rinv_le_contravar; nra. }
      unfold Rdiv in *. split.
      * apply Rle_trans with (IZR t * / (X * X)); [lra|]. apply Rmult_le_compat_r; lra.
      * apply Rlt_le_trans with ((IZR t + 2) * / (X * X)).
        -- apply Rmult_lt_compat_r; lra.
        -- rewrite Rmult_plus_distr_r. lra.
    + cbn [psum]. rewrite tg_alt_sign. set (k := (2 * Z.of_nat j + 1)%Z).
      pose proof (div_bounds t k ltac:(unfold k; lia)) as D.
      assert (K1 : 1 <= IZR k) by (apply IZR_le; unfold k; lia).
      pose proof (term_tau j) as T. fold k in T.
      assert (IK : 0 < / IZR k <= 1).
      { split; [apply Rinv_0_lt_compat; lra|]. rewrite <- Rinv_1. apply Rinv_le_contravar; lra. }
      assert (T1 : IZR t / IZR k <= tau j / IZR k < IZR t / IZR k + 2).
      { unfold Rdiv. split; [apply Rmult_le_compat_r; lra|].
        apply Rlt_le_trans with ((IZR t + 2) * / IZR k); [apply Rmult_lt_compat_r; lra|]. rewrite Rmult_plus_distr_r. lra. }
      rewrite S_INR.
      assert (T2 : 0 <= IZR scale * Ratan_seq (/ X) j - IZR (t / k) < 3) by (rewrite T; lra).
      apply Rabs_le. apply abs_le_inv in Ha.
      rewrite Rmult_plus_distr_l.
      destruct (Nat.odd j).
      * rewrite minus_IZR. replace (IZR scale * - Ratan_seq (/ X) j) with (- (IZR scale * Ratan_seq (/ X) j)) by ring. lra.
      * rewrite plus_IZR. lra.
Qed.

Lemma Xinv : 0 < / X < 1.
Proof. pose proof X_pos. split; [apply Rinv_0_lt_compat; lra|]. rewrite <- Rinv_1. apply Rinv_lt_contravar; lra. Qed.

Lemma atan_series M : psum (tg_alt (Ratan_seq (/ X))) (2 * M + 2) <= atan (/ X) <= psum (tg_alt (Ratan_seq (/ X))) (2 * M + 1).
Proof.
  pose proof Xinv as XI.
  assert (H01 : 0 <= / X <= 1) by lra.
  rewrite (atan_eq_ps_atan _ XI). unfold ps_atan.
  destruct (Ratan.in_int (/ X)) as [h|h]; [|exfalso; apply h; lra].
  destruct (ps_atan_exists_1 (/ X) h) as [v Pv].
  pose proof (alternated_series_ineq _ _ M (Ratan_seq_decreasing _ H01) (Ratan_seq_converging _ H01) Pv) as A.
  rewrite !psum_sum in A. replace (2 * M + 2)%nat with (S (S (2 * M))) by lia. replace (2 * M + 1)%nat with (S (2 * M)) by lia. exact A.
Qed.

Lemma atan_close M : let n := (2 * M + 1)%nat in let r := atan_terms n (x * x) (scale / x) 1 0 false in
  Rabs (IZR (fst r) - IZR scale * atan (/ X)) <= 3 * INR n + IZR (snd r) + 2.
Proof.
  intros n r. pose proof X_pos as XP.
  destruct (atan_terms_ok n 0 (scale / x) 0) as [A B].
  - apply Z.div_pos; lia.
  - unfold tau. replace (2 * 0 + 1)%nat with 1%nat by lia. rewrite pow_1.
    pose proof (div_bounds scale x ltac:(lia)) as D. fold X in D. unfold Rdiv in D. lra.
  - cbn [psum INR]. rewrite Rmult_0_r, Rminus_0_r, Rabs_R0. lra.
  - change (2 * Z.of_nat 0 + 1)%Z with 1%Z in A, B. change (Nat.odd 0) with false in A, B. change (0 + n)%nat with n in A, B.
    fold r in A, B.
    pose proof (atan_series M) as [S1 S2]. replace (2 * M + 2)%nat with (S n) in S1 by (unfold n; lia). fold n in S2.
    cbn [psum] in S1. rewrite tg_alt_sign in S1.
    replace (Nat.odd n) with true in S1 by (unfold n; symmetry; apply Nat.odd_spec; exists M; lia).
    assert (SP : 0 <= IZR scale) by (apply IZR_le; exact Hs).
    assert (T : IZR scale * Ratan_seq (/ X) n <= tau n).
    { rewrite term_tau. assert (K1 : 1 <= IZR (2 * Z.of_nat n + 1)) by (apply IZR_le; lia).
      unfold Rdiv. rewrite <- (Rmult_1_r (tau n)) at 2. apply Rmult_le_compat_l; [apply tau_pos|].
      rewrite <- Rinv_1. apply Rinv_le_contravar; lra. }
    assert (U1 : IZR scale * (psum (tg_alt (Ratan_seq (/ X))) n + - Ratan_seq (/ X) n) <= IZR scale * atan (/ X)) by (apply Rmult_le_compat_l; assumption).
    assert (U2 : IZR scale * atan (/ X) <= IZR scale * psum (tg_alt (Ratan_seq (/ X))) n) by (apply Rmult_le_compat_l; assumption).
    rewrite Rmult_plus_distr_l in U1.
    replace (IZR scale * - Ratan_seq (/ X) n) with (- (IZR scale * Ratan_seq (/ X) n)) in U1 by ring.
    apply abs_le_inv in A. apply Rabs_le. lra.
Qed.
End Series.

(** the tables as one number: 3 and 1042 digits of 32 bits *)
Definition digits (start : Z) (l : list Z) : Z := fold_left (fun a w => (2 ^ 32 * a + w)%Z) l start.

Definition check_pi (W bits guard : Z) (m5 m239 : nat) : bool :=
  (let scale := 2 ^ (bits + guard) in
   let n5 := (2 * m5 + 1)%nat in let n239 := (2 * m239 + 1)%nat in
   let r5 := atan_terms n5 (5 * 5) (scale / 5) 1 0 false in
   let r239 := atan_terms n239 (239 * 239) (scale / 239) 1 0 false in
   let e := 16 * (3 * Z.of_nat n5 + snd r5 + 2) + 4 * (3 * Z.of_nat n239 + snd r239 + 2) in
   let A := 16 * fst r5 - 4 * fst r239 in
   let g := 2 ^ guard in
   (g * W + e <=? A) && (A + e <? g * (W + 1)))%Z%bool.

Lemma check_pi_ok W bits guard m5 m239 : (0 <= bits)%Z -> (0 <= guard)%Z -> check_pi W bits guard m5 m239 = true ->
  IZR W <= PI * IZR (2 ^ bits) < IZR W + 1.
Proof.
  intros Hbits Hg C. unfold check_pi in C. cbv zeta in C.
  set (scale := (2 ^ (bits + guard))%Z) in C. set (n5 := (2 * m5 + 1)%nat) in C. set (n239 := (2 * m239 + 1)%nat) in C.
  pose proof (atan_close 5 scale ltac:(lia) ltac:(unfold scale; lia) m5) as A5.
  pose proof (atan_close 239 scale ltac:(lia) ltac:(unfold scale; lia) m239) as A239.
  cbv zeta in A5, A239. fold n5 in A5. fold n239 in A239.
  set (r5 := atan_terms n5 (5 * 5) (scale / 5) 1 0 false) in *.
  set (r239 := atan_terms n239 (239 * 239) (scale / 239) 1 0 false) in *.
  clearbody r5 r239.
  apply andb_prop in C. destruct C as [C1 C2]. apply Z.leb_le in C1. apply Z.ltb_lt in C2.
  apply IZR_le in C1. apply IZR_lt in C2.
  rewrite ?plus_IZR, ?mult_IZR, ?minus_IZR, ?plus_IZR, ?mult_IZR, <- !INR_IZR_INZ in C1.
  rewrite ?plus_IZR, ?mult_IZR, ?minus_IZR, ?plus_IZR, ?mult_IZR, <- !INR_IZR_INZ in C2.
  pose proof Machin_4_5_239 as Ma.
  assert (P : PI = 16 * atan (/ 5) - 4 * atan (/ 239)) by lra.
  apply abs_le_inv in A5. apply abs_le_inv in A239.
  assert (SC : IZR scale = IZR (2 ^ guard) * IZR (2 ^ bits)).
  { unfold scale. rewrite Z.pow_add_r, mult_IZR by lia. ring. }
  assert (GP : 0 < IZR (2 ^ guard)) by (apply IZR_lt; lia).
  assert (E : IZR scale * PI = 16 * (IZR scale * atan (/ 5)) - 4 * (IZR scale * atan (/ 239))) by (rewrite P; ring).
  assert (Q1 : IZR (2 ^ guard) * IZR W <= IZR scale * PI) by lra.
  assert (Q2 : IZR scale * PI < IZR (2 ^ guard) * (IZR W + 1)) by lra.
  rewrite SC in Q1, Q2.
  replace (IZR (2 ^ guard) * IZR (2 ^ bits) * PI) with (IZR (2 ^ guard) * (PI * IZR (2 ^ bits))) in Q1, Q2 by ring.
  split; [apply Rmult_le_reg_l in Q1 | apply Rmult_lt_reg_l in Q2]; assumption.
Qed.
