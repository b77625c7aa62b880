(** C79: vectors as text. *)
From Verif Require Import Base Reflector_Model Reflector_Fmt_Proof VecText_Model VecText_Spec.

Definition no_space (w : list Z) : Prop := Forall (fun c => c <> 32) w.
Lemma words_from_app w : forall cur t, no_space w -> words_from cur (w ++ t) = words_from (cur ++ w) t.
Proof.
  induction w as [|c w IH]; intros cur t H; [rewrite app_nil_r; reflexivity|]. cbn [app words_from].
  pose proof (Forall_inv H) as H1. cbn beta in H1. destruct (Z.eqb_spec c 32); [contradiction|].
  rewrite IH by exact (Forall_inv_tail H). rewrite <- app_assoc. reflexivity.
Qed.
Lemma words_spaced : forall l, l <> [] -> Forall no_space l -> words (spaced l) = l.
Proof.
  unfold words. induction l as [|w r IH]; intros N H; [contradiction|]. pose proof (Forall_inv H) as H1. destruct r as [|w2 r].
  - cbn [spaced]. rewrite <- (app_nil_r w) at 1. rewrite words_from_app by exact H1. reflexivity.
  - change (spaced (w :: w2 :: r)) with (w ++ [32] ++ spaced (w2 :: r)). rewrite words_from_app by exact H1. cbn [app words_from].
    change (32 =? 32) with true. cbv iota. rewrite IH by (exact (Forall_inv_tail H) || discriminate). reflexivity.
Qed.
Lemma digits_from_app a : forall acc b, digits_from acc (a ++ b) = match digits_from acc a with Some x => digits_from x b | None => None end.
Proof. induction a as [|c a IH]; intros acc b; [reflexivity|]. cbn [app digits_from]. destruct ((48 <=? c) && (c <=? 57))%bool; [apply IH|reflexivity]. Qed.
Lemma digit1 acc d : 0 <= d < 10 -> digits_from acc [48 + d] = Some (10 * acc + d).
Proof. intros H. cbn [digits_from]. destruct (Z.leb_spec 48 (48 + d)); [|lia]. destruct (Z.leb_spec (48 + d) 57); [|lia]. cbn [andb]. f_equal. lia. Qed.
Lemma dec_reads : forall f x, 0 <= x < 10 ^ Z.of_nat f -> (1 <= f)%nat -> digits_from 0 (dec_digits f x) = Some x /\ dec_digits f x <> [].
Proof.
  induction f as [|f IH]; intros x H L; [lia|]. cbn [dec_digits]. destruct (Z.ltb_spec x 10) as [S|S].
  - split; [rewrite digit1 by lia; f_equal; lia|discriminate].
  - destruct f as [|f]; [cbn in H; lia|]. split; [|destruct (dec_digits (Datatypes.S f) (x / 10)); discriminate].
    rewrite digits_from_app. pose proof (Z.div_mod x 10). pose proof (Z.mod_pos_bound x 10).
    rewrite (proj1 (IH (x / 10) ltac:(split; [apply Z.div_pos; lia|apply Z.div_lt_upper_bound; [lia|]; rewrite (Nat2Z.inj_succ (Datatypes.S f)), Z.pow_succ_r in H by lia; lia]) ltac:(lia))).
    rewrite digit1 by lia. f_equal. lia.
Qed.
Lemma integer_to_string x : - 2 ^ 63 <= x < 2 ^ 64 -> integer (to_string x) = Some x.
Proof.
  intros H. assert (P : 2 ^ 64 < 10 ^ Z.of_nat 20) by (vm_compute; reflexivity). assert (P2 : 2 ^ 63 < 2 ^ 64) by (vm_compute; reflexivity).
  unfold to_string. destruct (Z.ltb_spec x 0) as [S|S].
  - destruct (dec_reads 20 (- x)) as [E N]; [lia|lia|]. cbn [integer]. unfold natural. destruct (dec_digits 20 (- x)); [contradiction|]. rewrite E. cbn [option_map]. f_equal. lia.
  - destruct (dec_reads 20 x) as [E N]; [lia|lia|]. pose proof (dec_digits_chars 20 x S) as C. 
    destruct (dec_digits 20 x) as [|c r]; [contradiction|]. unfold integer, natural. pose proof (Forall_inv C) as C1. cbn beta in C1.
    assert (c <> 45) by lia. destruct c as [|p|p]; try exact E; try (do 6 (destruct p as [p|p|]; try exact E); congruence || exact E).
Qed.
Lemma to_string_no_space x : no_space (to_string x).
Proof. eapply Forall_impl; [|apply to_string_chars]. intros a. cbn beta. lia. Qed.

(** The text of a vector of integers of any size splits at its spaces into exactly one decimal number for
    each component, which is its value; so different vectors have different texts *)
Theorem C79_to_string_int : forall v, v <> [] -> Forall (fun x => - 2 ^ 63 <= x < 2 ^ 64) v ->
  map integer (words (to_string_int v)) = map Some v.
Proof.
  intros v N H. unfold to_string_int. rewrite words_spaced.
  - induction H as [|x r Hx H IH]; [reflexivity|]. cbn [map]. rewrite integer_to_string by exact Hx. f_equal. destruct r; [reflexivity|]. apply IH. discriminate.
  - destruct v; [contradiction|discriminate].
  - clear N H. induction v; constructor; [apply to_string_no_space|exact IHv].
Qed.
Print Assumptions C79_to_string_int.
Theorem C79_injective : forall v w, v <> [] -> w <> [] -> Forall (fun x => - 2 ^ 63 <= x < 2 ^ 64) v -> Forall (fun x => - 2 ^ 63 <= x < 2 ^ 64) w ->
  to_string_int v = to_string_int w -> v = w.
Proof.
  intros v w N M H K E. pose proof (C79_to_string_int v N H) as A. rewrite E, (C79_to_string_int w M K) in A. clear - A. revert w A.
  induction v as [|x v IH]; intros [|y w] A; try discriminate; [reflexivity|]. cbn [map] in A. injection A as -> A. rewrite (IH w A). reflexivity.
Qed.
Print Assumptions C79_injective.
(** A stream receives the same text for components of 16, 32 or 64 bits *)
Theorem C79_stream : forall bits v, bits <> 8 -> stream_int bits v = to_string_int v.
Proof. intros bits v H. unfold stream_int, to_string_int. destruct (Z.eqb_spec bits 8); [contradiction|reflexivity]. Qed.
Print Assumptions C79_stream.
(** but for a vector of bytes it receives characters, not numbers: never the text to_string makes *)
Theorem C79_stream_bytes_refuted : forall v, (2 <= length v <= 4)%nat -> Forall (fun x => 10 <= x <= 127) v -> stream_int 8 v <> to_string_int v.
Proof.
  intros v L H E. assert (Ln : length (stream_int 8 v) = (2 * length v - 1)%nat).
  { unfold stream_int. change (8 =? 8) with true. cbv iota. clear - L. destruct v as [|a [|b [|c [|d [|? ?]]]]]; cbn in L |- *; lia. }
  assert (T : forall x, 10 <= x <= 127 -> (2 <= length (to_string x))%nat).
  { intros x Hx. unfold to_string. destruct (Z.ltb_spec x 0); [lia|]. change 20%nat with (S (S 18)). cbn [dec_digits].
    destruct (Z.ltb_spec x 10); [lia|]. rewrite app_length. destruct (Z.ltb_spec (x / 10) 10); cbn [length]; [lia|]. rewrite app_length. cbn [length]. lia. }
  assert (L2 : (3 * length v - 1 <= length (to_string_int v))%nat).
  { unfold to_string_int. destruct v as [|a [|b [|c [|d [|? ?]]]]]; cbn [length] in L; try lia;
      repeat match goal with H : Forall _ (_ :: _) |- _ => let X := fresh "X" in pose proof (T _ (Forall_inv H)) as X; apply Forall_inv_tail in H end;
      cbn [map spaced length app]; rewrite ?app_length; cbn [length]; rewrite ?app_length; cbn [length]; rewrite ?app_length; cbn [length]; lia. }
  rewrite <- E, Ln in L2. lia.
Qed.
Print Assumptions C79_stream_bytes_refuted.

Lemma padded_reads : forall n acc x, 0 <= x < 10 ^ Z.of_nat n -> digits_from acc (padded n x) = Some (acc * 10 ^ Z.of_nat n + x) /\ length (padded n x) = n.
Proof.
  induction n as [|n IH]; intros acc x H; [cbn in *; split; [f_equal; lia|reflexivity]|]. cbn [padded]. rewrite app_length. cbn [length].
  pose proof (Z.div_mod x 10). pose proof (Z.mod_pos_bound x 10). rewrite Nat2Z.inj_succ, Z.pow_succ_r in * by lia.
  destruct (IH acc (x / 10)) as [E L]; [split; [apply Z.div_pos; lia|apply Z.div_lt_upper_bound; lia]|].
  rewrite digits_from_app, E, digit1, L by lia. split; [f_equal; lia|lia].
Qed.
Lemma millionths_pos f : 0 <= mant f -> 0 <= millionths f.
Proof.
  intros M. unfold millionths. destruct (Z.leb_spec 0 (expo f)); [apply Z.mul_nonneg_nonneg; [apply Z.mul_nonneg_nonneg; [lia|apply Z.pow_nonneg; lia]|lia]|].
  unfold round_even. assert (0 <= mant f * 10 ^ 6 / 2 ^ (- expo f)) by (apply Z.div_pos; [lia|apply Z.pow_pos_nonneg; lia]).
  destruct (_ <? _); [lia|]. destruct (_ <? _); [lia|]. destruct (Z.even _); lia.
Qed.
Lemma percent_f_reads f : 0 <= mant f -> millionths f < 10 ^ 60 -> fixed6 (percent_f f) (neg f) (millionths f) /\ no_space (percent_f f).
Proof.
  intros M B. pose proof (millionths_pos f M) as P. set (x := millionths f) in *.
  pose proof (Z.div_mod x (10 ^ 6)) as DM. pose proof (Z.mod_pos_bound x (10 ^ 6)) as MB.
  assert (Q : 0 <= x / 10 ^ 6 < 10 ^ Z.of_nat 60).
  { split; [apply Z.div_pos; lia|]. apply Z.div_lt_upper_bound; [lia|]. change (Z.of_nat 60) with 60. lia. }
  destruct (dec_reads 60 (x / 10 ^ 6) Q) as [E N]; [lia|].
  destruct (padded_reads 6 (x / 10 ^ 6) (x mod 10 ^ 6)) as [E6 L6]; [change (Z.of_nat 6) with 6; lia|]. split.
  - exists (dec_digits 60 (x / 10 ^ 6)), (padded 6 (x mod 10 ^ 6)). split; [reflexivity|]. split; [exact L6|]. split; [|exact N].
    unfold natural. destruct (dec_digits 60 (x / 10 ^ 6) ++ padded 6 (x mod 10 ^ 6)) as [|c r] eqn:A; [destruct (dec_digits 60 (x / 10 ^ 6)); [contradiction|discriminate]|].
    rewrite <- A, digits_from_app, E, E6. f_equal. change (Z.of_nat 6) with 6. lia.
  - unfold percent_f. fold x. apply Forall_app. split; [destruct (neg f); repeat constructor; lia|]. apply Forall_app. split.
    + eapply Forall_impl; [|apply dec_digits_chars; lia]. intros a. cbn beta. lia.
    + constructor; [lia|]. clear - MB. generalize (x mod 10 ^ 6). intros y. generalize 6%nat. intros n. revert y. induction n as [|n IH]; intros y; [constructor|].
      cbn [padded]. apply Forall_app. split; [apply IH|]. pose proof (Z.mod_pos_bound y 10). repeat constructor. lia.
Qed.
Lemma round_even_near n d : 0 < d -> 2 * Z.abs (round_even n d * d - n) <= d.
Proof.
  intros D. unfold round_even. pose proof (Z.div_mod n d). pose proof (Z.mod_pos_bound n d D).
  destruct (Z.ltb_spec (2 * (n mod d)) d); [nia|]. destruct (Z.ltb_spec d (2 * (n mod d))); [nia|]. destruct (Z.even (n / d)); nia.
Qed.
(** The text of a vector of finite floats (their magnitude below 2^128) splits into one number with six
    decimals for each component, with its sign and within half a millionth of it: [m] 2^[e] *)
Definition near (f : fl) (x : Z) : Prop :=
  if 0 <=? expo f then x = mant f * 2 ^ expo f * 10 ^ 6 else 2 * Z.abs (x * 2 ^ (- expo f) - mant f * 10 ^ 6) <= 2 ^ (- expo f).
Definition finite (f : fl) : Prop := 0 <= mant f < 2 ^ 24 /\ -149 <= expo f <= 104.
Lemma finite_small f : finite f -> millionths f < 10 ^ 60.
Proof.
  intros [M E]. unfold millionths. destruct (Z.leb_spec 0 (expo f)) as [S|S].
  - assert (2 ^ expo f <= 2 ^ 104) by (apply Z.pow_le_mono_r; lia). assert (0 < 2 ^ expo f) by (apply Z.pow_pos_nonneg; lia).
    assert (2 ^ 24 * 2 ^ 104 * 10 ^ 6 < 10 ^ 60) by (vm_compute; reflexivity). nia.
  - pose proof (round_even_near (mant f * 10 ^ 6) (2 ^ (- expo f))) as R. assert (D : 0 < 2 ^ (- expo f)) by (apply Z.pow_pos_nonneg; lia). specialize (R D).
    assert (round_even (mant f * 10 ^ 6) (2 ^ (- expo f)) <= mant f * 10 ^ 6 + 1) by nia. assert (2 ^ 24 * 10 ^ 6 + 1 < 10 ^ 60) by (vm_compute; reflexivity). lia.
Qed.
Theorem C79_to_string_float : forall v, v <> [] -> Forall finite v ->
  Forall2 (fun f w => exists x, fixed6 w (neg f) x /\ near f x) v (words (to_string_float v)).
Proof.
  intros v N H. unfold to_string_float. rewrite words_spaced.
  - clear N. induction H as [|f r Hf H IH]; [constructor|]. cbn [map]. constructor; [|exact IH].
    destruct (percent_f_reads f) as [P _]; [destruct Hf; lia|apply finite_small; exact Hf|]. exists (millionths f). split; [exact P|].
    unfold near, millionths. destruct (Z.leb_spec 0 (expo f)); [reflexivity|]. apply round_even_near. apply Z.pow_pos_nonneg; lia.
  - destruct v; [contradiction|discriminate].
  - clear N. induction H as [|f r Hf H IH]; [constructor|]. constructor; [|exact IH].
    apply percent_f_reads; [destruct Hf; lia|apply finite_small; exact Hf].
Qed.
Print Assumptions C79_to_string_float.
(** So the text does not determine a float vector: all numbers below half a millionth look like zero *)
Theorem C79_float_text_refuted : forall m e b, 0 <= m < 2 ^ 24 -> -149 <= e <= -45 -> percent_f (Fl b m e) = percent_f (Fl b 0 0).
Proof.
  intros m e b M E. unfold percent_f. cbn [neg]. replace (millionths (Fl b m e)) with 0; [reflexivity|]. unfold millionths. cbn [mant expo].
  destruct (Z.leb_spec 0 e); [lia|]. unfold round_even. assert (2 ^ 45 <= 2 ^ (- e)) by (apply Z.pow_le_mono_r; lia).
  assert (2 * (2 ^ 24 * 10 ^ 6) < 2 ^ 45) by (vm_compute; reflexivity).
  rewrite Z.div_small, Z.mod_small by lia. destruct (Z.ltb_spec (2 * (m * 10 ^ 6)) (2 ^ (- e))); lia.
Qed.
Print Assumptions C79_float_text_refuted.

(** 1.5 -0.1f 3 and 20 -300 7; the bytes 65 66 *)
Example ex_float : to_string_float [Fl false 3 (-1); Fl true 13421773 (-27); Fl false 3 0] =
  [49;46;53;48;48;48;48;48;32;45;48;46;49;48;48;48;48;48;32;51;46;48;48;48;48;48;48] /\ Forall finite [Fl false 3 (-1); Fl true 13421773 (-27); Fl false 3 0].
Proof. split; [vm_compute; reflexivity|]. repeat constructor; cbn; lia. Qed.
Example ex_int : to_string_int [20; -300; 7] = [50;48;32;45;51;48;48;32;55] /\ stream_int 8 [65; 66] = [65;32;66].
Proof. split; reflexivity. Qed.
