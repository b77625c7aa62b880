(** The arctangent sums of BlowfishPi_Proof computed on lists of 32-bit digits held in machine
    integers (most significant first), and the check of Blowfish's tables against pi. *)
From Coq Require Import Bool ZArith List Lia Uint63 Reals.
From Verif Require Import Blowfish_Tables BlowfishPi_Spec BlowfishPi_Proof.
Import ListNotations.
Open Scope bool_scope.
Open Scope Z_scope.

Section Definitions.
Open Scope uint63_scope.
(** (r . l) / k digit by digit *)
Fixpoint divs (l : list int) (k r : int) : list int :=
  match l with [] => [] | a :: l => let v := r * 4294967296 + a in let q := v / k in q :: divs l k (v - q * k) end.
Fixpoint addl (a b : list int) : list int := match a, b with x :: a, y :: b => x + y :: addl a b | _, _ => [] end.
Fixpoint small (l : list int) : bool := match l with [] => true | a :: l => if a <? 4611686018427387904 then small l else false end.
Fixpoint iloop (n : nat) (x2 k : int) (t pos neg : list int) {struct n} : option (list int * list int * list int) :=
  match n with
  | O => Some (pos, neg, t)
  | S n => if small pos then if small t then iloop n x2 (k + 2) (divs t x2 0) neg (addl pos (divs t k 0)) else None else None
  end.
(** 2^(32 m) / x *)
Definition start (x : int) (m : nat) : list int := divs (1 :: repeat 0 m) x 0.
End Definitions.

Definition dig (s : Z) (l : list int) : Z := digits s (map to_Z l).
Definition dig32 (l : list int) : Prop := Forall (fun a => to_Z a < 2 ^ 32) l.

Lemma dig_cons s a l : dig s (a :: l) = dig (2 ^ 32 * s + to_Z a) l. Proof. reflexivity. Qed.
Lemma digits_linear l : forall s, digits s l = s * 2 ^ (32 * Z.of_nat (length l)) + digits 0 l.
Proof.
  induction l as [|a l IH]; intros s; [cbn; lia|].
  change (digits s (a :: l)) with (digits (2 ^ 32 * s + a) l). change (digits 0 (a :: l)) with (digits (2 ^ 32 * 0 + a) l).
  rewrite (IH (2 ^ 32 * s + a)), (IH (2 ^ 32 * 0 + a)). cbn [length].
  replace (32 * Z.of_nat (S (length l))) with (32 + 32 * Z.of_nat (length l)) by lia. rewrite Z.pow_add_r by lia. ring.
Qed.
Lemma dig_linear s l : dig s l = s * 2 ^ (32 * Z.of_nat (length l)) + dig 0 l.
Proof. unfold dig. rewrite digits_linear, map_length. reflexivity. Qed.

Lemma wB_val : wB = 2 ^ 63. Proof. reflexivity. Qed.

Lemma divs_ok l : forall k r, 0 < to_Z k <= 2 ^ 30 -> to_Z r < to_Z k -> dig32 l ->
  length (divs l k r) = length l /\ dig32 (divs l k r) /\
  exists rr, 0 <= rr < to_Z k /\ dig (to_Z r) l = to_Z k * dig 0 (divs l k r) + rr.
Proof.
  induction l as [|a l IH]; intros k r Hk Hr Hl; cbn [divs].
  - split; [reflexivity|]. split; [constructor|]. exists (to_Z r). pose proof (to_Z_bounded r).
    change (dig (to_Z r) []) with (to_Z r). change (dig 0 []) with 0. lia.
  - inversion Hl as [|a' l' Ha Hl']; subst.
    set (v := (r * 4294967296 + a)%uint63). set (q := (v / k)%uint63).
    pose proof (to_Z_bounded r) as Br. pose proof (to_Z_bounded a) as Ba.
    assert (Ev : to_Z v = 2 ^ 32 * to_Z r + to_Z a).
    { unfold v. rewrite add_spec, mul_spec. change (to_Z 4294967296%uint63) with (2 ^ 32). rewrite wB_val.
      rewrite (Z.mod_small (to_Z r * 2 ^ 32)) by lia. rewrite Z.mod_small by lia. lia. }
    assert (Eq : to_Z q = to_Z v / to_Z k) by (unfold q; apply div_spec).
    pose proof (Z.div_mod (to_Z v) (to_Z k) ltac:(lia)) as DM. pose proof (Z.mod_pos_bound (to_Z v) (to_Z k) ltac:(lia)) as MB.
    rewrite <- Eq in DM.
    pose proof (to_Z_bounded q) as Bq. pose proof (to_Z_bounded v) as Bv. rewrite wB_val in *.
    assert (Q32 : to_Z q < 2 ^ 32) by (rewrite Eq; apply Z.div_lt_upper_bound; nia).
    assert (Er : to_Z (v - q * k)%uint63 = to_Z v mod to_Z k).
    { rewrite sub_spec, mul_spec, wB_val. rewrite (Z.mod_small (to_Z q * to_Z k)) by nia. rewrite Z.mod_small by nia. lia. }
    destruct (IH k (v - q * k)%uint63 Hk ltac:(lia) Hl') as (L & D & rr & Hrr & E).
    cbn zeta. fold v q. split; [cbn [length]; rewrite L; reflexivity|].
    split; [constructor; assumption|]. exists rr. split; [exact Hrr|].
    rewrite !dig_cons. rewrite <- Ev. rewrite (dig_linear (2 ^ 32 * 0 + to_Z q)), L.
    rewrite dig_linear in E. rewrite dig_linear. rewrite DM, <- Er. nia.
Qed.

Lemma divs_div l k : 0 < to_Z k <= 2 ^ 30 -> dig32 l ->
  length (divs l k 0) = length l /\ dig32 (divs l k 0) /\ dig 0 (divs l k 0) = dig 0 l / to_Z k.
Proof.
  intros Hk Hl. destruct (divs_ok l k 0 Hk ltac:(change (to_Z 0%uint63) with 0; lia) Hl) as (L & D & rr & Hrr & E).
  split; [exact L|]. split; [exact D|]. change (to_Z 0%uint63) with 0 in E. rewrite E.
  rewrite (Z.mul_comm (to_Z k)), Z.div_add_l, (Z.div_small rr) by lia. lia.
Qed.

Lemma small_ok l : small l = true -> Forall (fun a => to_Z a < 2 ^ 62) l.
Proof.
  induction l as [|a l IH]; cbn [small]; intros H; [constructor|].
  destruct (a <? 4611686018427387904)%uint63 eqn:E; [|discriminate]. constructor; [|auto].
  apply ltb_spec in E. exact E.
Qed.

Lemma addl_ok a : forall b, length a = length b -> Forall (fun x => to_Z x < 2 ^ 62) a -> dig32 b ->
  length (addl a b) = length a /\ dig 0 (addl a b) = dig 0 a + dig 0 b.
Proof.
  induction a as [|x a IH]; intros [|y b] L Ha Hb; cbn [length] in L; try lia; [split; reflexivity|].
  inversion Ha; inversion Hb; subst. destruct (IH b) as [L' E']; auto.
  pose proof (to_Z_bounded x). pose proof (to_Z_bounded y).
  cbn [addl length]. split; [lia|]. rewrite !dig_cons, add_spec, wB_val, Z.mod_small by lia.
  rewrite (dig_linear _ (addl a b)), (dig_linear _ a), (dig_linear _ b), E', L'. replace (length b) with (length a) by lia. ring.
Qed.

Lemma iloop_ok n : forall x2 k t pos neg (flag : bool) r,
  0 < to_Z x2 <= 2 ^ 30 -> 0 < to_Z k -> to_Z k + 2 * Z.of_nat n <= 2 ^ 30 ->
  dig32 t -> length pos = length t -> length neg = length t ->
  iloop n x2 k t pos neg = Some r -> 
  let '(p, q, t') := r in
  atan_terms n (to_Z x2) (dig 0 t) (to_Z k) (if flag then dig 0 neg - dig 0 pos else dig 0 pos - dig 0 neg) flag =
  ((if xorb flag (Nat.odd n) then dig 0 q - dig 0 p else dig 0 p - dig 0 q), dig 0 t').
Proof.
  induction n as [|n IH]; intros x2 k t pos neg flag r Hx Hk Hn Ht Lp Ln H; cbn [iloop] in H.
  - injection H as <-. cbn. rewrite xorb_false_r. reflexivity.
  - destruct (small pos) eqn:Sp; [|discriminate]. destruct (small t) eqn:St; [|discriminate].
    apply small_ok in Sp.
    destruct (divs_div t x2 Hx Ht) as (L1 & D1 & E1).
    destruct (divs_div t k ltac:(lia) Ht) as (L2 & D2 & E2).
    destruct (addl_ok pos (divs t k 0) ltac:(lia) Sp D2) as (L3 & E3).
    assert (Ek : to_Z (k + 2)%uint63 = to_Z k + 2).
    { rewrite add_spec, wB_val. change (to_Z 2%uint63) with 2. apply Z.mod_small. lia. }
    specialize (IH x2 (k + 2)%uint63 (divs t x2 0) neg (addl pos (divs t k 0)) (negb flag) r Hx
      ltac:(lia) ltac:(lia) D1 ltac:(lia) ltac:(lia) H).
    destruct r as [[p q] t']. cbn [atan_terms]. rewrite Ek, E1, E3, E2 in IH.
    rewrite Nat.odd_succ, <- Nat.negb_odd.
    replace (xorb flag (negb (Nat.odd n))) with (xorb (negb flag) (Nat.odd n)) by (destruct flag, (Nat.odd n); reflexivity).
    rewrite <- IH. f_equal. destruct flag; cbn [negb]; lia.
Qed.

Lemma dig_zeros m s : dig s (repeat 0%uint63 m) = s * 2 ^ (32 * Z.of_nat m).
Proof.
  rewrite dig_linear, repeat_length. assert (E : dig 0 (repeat 0%uint63 m) = 0); [|lia].
  induction m as [|m IH]; [reflexivity|]. cbn [repeat]. rewrite dig_cons. exact IH.
Qed.
Lemma dig32_zeros m : dig32 (repeat 0%uint63 m).
Proof. apply Forall_forall. intros x Hx. apply repeat_spec in Hx. subst. reflexivity. Qed.

Lemma start_ok x m : 0 < to_Z x <= 2 ^ 30 ->
  length (start x m) = S m /\ dig32 (start x m) /\ dig 0 (start x m) = 2 ^ (32 * Z.of_nat m) / to_Z x.
Proof.
  intros Hx. unfold start.
  destruct (divs_div (1%uint63 :: repeat 0%uint63 m) x Hx) as (L & D & E).
  { constructor; [reflexivity | apply dig32_zeros]. }
  split; [rewrite L; cbn [length]; rewrite repeat_length; reflexivity|]. split; [exact D|].
  rewrite E, dig_cons, dig_zeros. change (2 ^ 32 * 0 + to_Z 1%uint63) with 1. rewrite Z.mul_1_l. reflexivity.
Qed.

Definition limb_atan (x x2 : int) (m n : nat) : option (list int * list int * list int) :=
  iloop n x2 1 (start x m) (repeat 0%uint63 (S m)) (repeat 0%uint63 (S m)).

Lemma limb_atan_ok x x2 m h p q t : 0 < to_Z x <= 2 ^ 14 -> to_Z x2 = to_Z x * to_Z x -> Z.of_nat h <= 2 ^ 20 ->
  limb_atan x x2 m (2 * h + 1) = Some (p, q, t) ->
  atan_terms (2 * h + 1) (to_Z x * to_Z x) (2 ^ (32 * Z.of_nat m) / to_Z x) 1 0 false = (dig 0 q - dig 0 p, dig 0 t).
Proof.
  intros Hx Hx2 Hh H. destruct (start_ok x m ltac:(lia)) as (L & D & E).
  assert (ZZ : dig 0 (repeat 0%uint63 (S m)) - dig 0 (repeat 0%uint63 (S m)) = 0) by lia.
  pose proof (iloop_ok (2 * h + 1) x2 1 (start x m) (repeat 0%uint63 (S m)) (repeat 0%uint63 (S m)) false (p, q, t)) as I.
  cbv iota beta in I. change (to_Z 1%uint63) with 1 in I. rewrite E, ZZ, Hx2 in I.
  replace (xorb false (Nat.odd (2 * h + 1))) with true in I by (symmetry; rewrite xorb_false_l; apply Nat.odd_spec; exists h; lia).
  apply I; clear I; try lia; try assumption; try (rewrite repeat_length; lia). nia.
Qed.

(** the whole check: m digits behind the point plus two guard digits *)
Definition limb_check (W : Z) (m h5 h239 : nat) : bool :=
  match limb_atan 5 25 (m + 2) (2 * h5 + 1), limb_atan 239 57121 (m + 2) (2 * h239 + 1) with
  | Some (p5, q5, t5), Some (p239, q239, t239) =>
      let e := 16 * (3 * Z.of_nat (2 * h5 + 1) + dig 0 t5 + 2) + 4 * (3 * Z.of_nat (2 * h239 + 1) + dig 0 t239 + 2) in
      let A := 16 * (dig 0 q5 - dig 0 p5) - 4 * (dig 0 q239 - dig 0 p239) in
      (2 ^ 64 * W + e <=? A) && (A + e <? 2 ^ 64 * (W + 1))
  | _, _ => false
  end.

Lemma limb_check_ok W m h5 h239 : Z.of_nat h5 <= 2 ^ 20 -> Z.of_nat h239 <= 2 ^ 20 -> limb_check W m h5 h239 = true ->
  check_pi W (32 * Z.of_nat m) 64 h5 h239 = true.
Proof.
  intros B5 B239 C. unfold limb_check in C.
  destruct (limb_atan 5 25 (m + 2) (2 * h5 + 1)) as [[[p5 q5] t5]|] eqn:E5; [|discriminate].
  destruct (limb_atan 239 57121 (m + 2) (2 * h239 + 1)) as [[[p239 q239] t239]|] eqn:E239; [|discriminate].
  apply limb_atan_ok in E5; [|split; [reflexivity|discriminate]|reflexivity|assumption].
  apply limb_atan_ok in E239; [|split; [reflexivity|discriminate]|reflexivity|assumption].
  change (to_Z 5%uint63) with 5 in E5. change (to_Z 239%uint63) with 239 in E239.
  unfold check_pi. replace (32 * Z.of_nat m + 64) with (32 * Z.of_nat (m + 2)) by lia.
  cbv zeta. rewrite E5, E239. exact C.
Qed.
