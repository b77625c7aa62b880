(** Members bit by bit. *)
From Verif Require Import Base Supercore_Model StringView_Model Bitfield_Model Reflector_Model Reflector_Spec
  Reflector_Proof Reflector_Fmt_Proof Reflector_Flags_Proof Reflector_Array_Proof Reflector_Props Reflector_Array_Props
  XmlRefl_Model XmlRefl_Spec XmlRefl_Leaf_Proof.

Lemma replaced_nth mem addr bs new : replaced mem addr bs new -> forall i,
  nth i new 0 = if ((addr <=? i) && (i <? addr + length bs))%nat then nth (i - addr) bs 0 else nth i mem 0.
Proof.
  intros (x & m & z & -> & La & Lm & ->) i. subst addr.
  destruct (Nat.leb_spec (length x) i); cbn [andb]; [|rewrite !app_nth1 by lia; reflexivity].
  rewrite !(app_nth2 x) by lia. destruct (Nat.ltb_spec i (length x + length bs)).
  - rewrite app_nth1 by lia. reflexivity.
  - rewrite (app_nth2 bs), (app_nth2 m) by lia. rewrite Lm. reflexivity.
Qed.
Lemma bytes_at_nth addr n a i : (i < n)%nat -> nth i (bytes_at addr n a) 0 = nth (addr + i) a 0.
Proof. intros H. unfold bytes_at. rewrite nth_firstn by exact H. apply nth_skipn. Qed.

Lemma copied_ext (R R' : nat -> Prop) a b b' : (forall k, R k <-> R' k) -> copied R a b b' -> copied R' a b b'.
Proof. intros E [L H]. split; [exact L|]. intros k. destruct (H k) as [[? ?]|[? ?]]; [left|right]; (split; [|assumption]); rewrite <- E; assumption. Qed.
Lemma copied_none (R : nat -> Prop) a b : (forall k, ~ R k) -> copied R a b b.
Proof. intros H. split; [reflexivity|]. intros k. right. split; [apply H|reflexivity]. Qed.
Lemma copied_seq (R S : nat -> Prop) a b c d : copied R a b c -> copied S a c d -> copied (fun k => R k \/ S k) a b d.
Proof.
  intros [L1 H1] [L2 H2]. split; [congruence|]. intros k. destruct (H2 k) as [[S1 E2]|[S1 E2]].
  - left. split; [right; exact S1|exact E2].
  - destruct (H1 k) as [[R1 E1]|[R1 E1]]; [left|right]; (split; [tauto|congruence]).
Qed.

Lemma replaced_copied a b addr n b' : length b = length a -> inside addr n a -> replaced b addr (bytes_at addr n a) b' ->
  copied (fun k => (8 * addr <= k < 8 * (addr + n))%nat) a b b'.
Proof.
  intros L Hin R. pose proof (replaced_nth _ _ _ _ R) as N. rewrite bytes_at_length in N by exact Hin.
  split; [apply (replaced_length _ _ _ _ R)|]. intros k. unfold bit. rewrite N.
  pose proof (Nat.div_mod k 8 ltac:(lia)) as D. pose proof (Nat.mod_upper_bound k 8 ltac:(lia)) as M.
  destruct (Nat.leb_spec addr (k / 8)); cbn [andb]; [|right; split; [lia|reflexivity]].
  destruct (Nat.ltb_spec (k / 8) (addr + n)); [|right; split; [lia|reflexivity]].
  left. split; [lia|]. rewrite bytes_at_nth by lia. do 2 f_equal. lia.
Qed.
Lemma replaced_bytes_ok b addr bs b' : bytes_ok b -> bytes_ok bs -> replaced b addr bs b' -> bytes_ok b'.
Proof.
  intros Hb Hs (x & m & z & -> & _ & _ & ->). unfold bytes_ok in *. apply Forall_app in Hb as [Hx Hb]. apply Forall_app in Hb as [_ Hz].
  apply Forall_app. split; [exact Hx|]. apply Forall_app. split; assumption.
Qed.

Lemma le_value_bit l : bytes_ok l -> forall k, Z.testbit (le_value l) (Z.of_nat k) = Z.testbit (nth (k / 8) l 0) (Z.of_nat (k mod 8)).
Proof.
  intros H. induction H as [|x l Hx F IH]; intros k.
  - cbn [le_value]. rewrite Z.testbit_0_l. destruct (k / 8)%nat; cbn [nth]; rewrite Z.testbit_0_l; reflexivity.
  - cbn [le_value]. pose proof (Nat.div_mod k 8 ltac:(lia)) as D. pose proof (Nat.mod_upper_bound k 8 ltac:(lia)) as M.
    unfold is_byte in Hx. change (x + 256 * le_value l) with (x + 2 ^ 8 * le_value l).
    destruct (Nat.lt_ge_cases k 8) as [Hk|Hk].
    + rewrite <- (Z.mod_pow2_bits_low _ 8) by lia. rewrite Z.mul_comm, Z_mod_plus_full.
      rewrite Z.mod_small by (change (2 ^ 8) with 256; lia). rewrite Nat.div_small, Nat.mod_small by lia. reflexivity.
    + replace (Z.of_nat k) with (Z.of_nat (k - 8) + 8) by lia. rewrite <- Z.shiftr_spec by lia. rewrite Z.shiftr_div_pow2 by lia.
      rewrite Z.mul_comm, Z_div_plus_full by lia. rewrite Z.div_small, Z.add_0_l by (change (2 ^ 8) with 256; lia). rewrite IH.
      assert (E1 : ((k - 8) / 8 = k / 8 - 1)%nat) by (symmetry; apply Nat.div_unique with (r := (k mod 8)%nat); lia).
      assert (E2 : ((k - 8) mod 8 = k mod 8)%nat) by (symmetry; apply Nat.mod_unique with (q := (k / 8 - 1)%nat); lia).
      rewrite E1, E2. destruct (k / 8)%nat as [|q]; [lia|]. cbn [nth]. do 2 f_equal. lia.
Qed.
Lemma word_bit mem k : bytes_ok mem -> (k < 64)%nat -> Z.testbit (word_of mem) (Z.of_nat k) = bit mem k.
Proof.
  intros Hb Hk. unfold word_of, bit. rewrite le_value_bit by (apply bytes_at_ok; exact Hb). rewrite bytes_at_nth by (apply Nat.div_lt_upper_bound; lia).
  reflexivity.
Qed.

(** the text of a member and what setting it does *)
Definition member_text (e : env) (t : reflType) (a s : list Z) : Prop :=
  GetReflectedPrimitive 2 e t (match type t with RBitMember => 0%nat | _ => nat_offset t end) a = Some s /\ text_ok s /\
  (exists c r, s = c :: r /\ c <> 32) /\
  (Z.of_nat (length s) < 2 ^ 64 -> forall b, length b = length a -> bytes_ok b ->
     exists err b', set_value e t s b = Some (err, b') /\ bytes_ok b' /\ copied (member_bits t) a b b').

Lemma bits_text e t a : bytes_ok a -> bit_member t -> subType t = RUnsigned -> inside 0 8 a -> exists s, member_text e t a s.
Proof.
  intros Hb Hbm Hst Hin. pose proof Hbm as (Ht & Ho & Hn & Hp).
  set (x := bf_extract (word_of a) (offset t) (subSize t)).
  assert (Hpow : 2 ^ subSize t <= 2 ^ 30) by (apply Z.pow_le_mono_r; lia).
  pose proof (pow2_pos (subSize t) ltac:(lia)) as Hpos.
  assert (Ex : x = (word_of a / 2 ^ offset t) mod 2 ^ subSize t) by (unfold x; apply bf_extract_eq; lia).
  assert (R : 0 <= x < 2 ^ subSize t) by (rewrite Ex; apply Z.mod_pos_bound; lia).
  assert (L : literal (to_string x) (x <? 0) (Z.abs x)) by (apply to_string_literal; change (2 ^ 64) with 18446744073709551616; change (2 ^ 30) with 1073741824 in *; change (2 ^ 63) with 9223372036854775808; lia).
  replace (x <? 0) with false in L by lia. replace (Z.abs x) with x in L by lia.
  exists (to_string x). destruct (to_string_ok x) as [P Q]. split; [|split; [exact Q|split]].
  - rewrite Ht. cbn [GetReflectedPrimitive]. rewrite Ht.
    rewrite load_ok by assumption. rewrite GetMask_ok by lia. rewrite Hst. reflexivity.
  - pose proof (to_string_chars x) as F. pose proof (to_string_nonempty x) as N. destruct (to_string x) as [|c r]; [congruence|].
    inversion F; subst. exists c, r. split; [reflexivity|lia].
  - intros _ b Lb Hbb. set (t' := mkRefl (type t) (subType t) (subSize t) 0 (numItems t) (offset t) (nameHash t) (typeHash t)).
    assert (Hin' : inside 0 8 b) by (unfold inside in *; lia).
    assert (E : SetUnsigned u64 (2 ^ subSize t - 1) (skip_start (to_string x)) = (ENone, Some x)).
    { rewrite (SetUnsigned_literal u64 (2 ^ subSize t - 1) _ _ _ ltac:(change (2 ^ 64) with 18446744073709551616; change (2 ^ 30) with 1073741824 in *; lia) L).
      destruct (Z.leb_spec (2 ^ 64) x); [change (2 ^ 64) with 18446744073709551616 in *; change (2 ^ 30) with 1073741824 in *; lia|].
      destruct (Z.leb_spec x (2 ^ subSize t - 1)); [|lia]. f_equal. f_equal. lia. }
    destruct (bit_member_set e [t] 0 t (to_string x) b _ _ eq_refl Hbm Hin' E) as (b' & E2 & Rp).
    exists ENone, b'. split; [exact E2|]. split; [eapply replaced_bytes_ok; [exact Hbb| |exact Rp]; apply le_bytes_ok|].
    destruct (insert_bits b b' t x Hbb Hin' Hbm R Rp) as [[Lo So] T].
    assert (Hbb' : bytes_ok b') by (eapply replaced_bytes_ok; [exact Hbb| |exact Rp]; apply le_bytes_ok).
    split; [symmetry; exact Lo|]. intros k. unfold member_bits. rewrite Ht.
    destruct (Nat.lt_ge_cases k 64) as [Hk|Hk].
    + rewrite <- !word_bit by assumption. rewrite T by lia.
      destruct (Z.leb_spec (offset t) (Z.of_nat k)); cbn [andb]; [|right; split; [lia|reflexivity]].
      destruct (Z.ltb_spec (Z.of_nat k) (offset t + subSize t)); [|right; split; [lia|reflexivity]].
      left. split; [lia|]. rewrite Ex. rewrite Z.mod_pow2_bits_low by lia. rewrite <- Z.shiftr_div_pow2 by lia.
      rewrite Z.shiftr_spec by lia. f_equal. lia.
    + right. split; [lia|]. unfold bit. pose proof (Nat.div_le_mono 64 k 8 ltac:(lia) Hk) as D. change (64 / 8)%nat with 8%nat in D.
      pose proof (So (k / 8)%nat ltac:(lia)) as X. f_equal.
      destruct (nth_error b (k / 8)) as [y|] eqn:Eb; symmetry in X.
      * rewrite (nth_error_nth _ _ 0 Eb), (nth_error_nth _ _ 0 X). reflexivity.
      * apply nth_error_None in Eb. apply nth_error_None in X. rewrite !nth_overflow by lia. reflexivity.
Qed.

Lemma textual_text e t a : bytes_ok a -> textual e t a -> exists s, member_text e t a s.
Proof.
  intros Hb (Ho & [H|[H|(Ht & Hst & Hn & Hp & Hin)]]).
  - pose proof H as (Hin & Hty). destruct (carries_single e t (Z.to_nat (offset t)) a Hb H) as (s & G & [Pf (c & r & Ep & N1 & N2)] & Q & St).
    exists s. assert (Nb : type t <> RBitMember) by (intros E; rewrite E in Hty; contradiction).
    assert (Ea : match type t with RBitMember => 0%nat | _ => nat_offset t end = Z.to_nat (offset t)) by (destruct (type t); (congruence || reflexivity)).
    split; [rewrite Ea; apply G|]. split; [exact Q|]. split; [exists c, r; split; [exact Ep|]; intros ->; cbn in *; congruence|].
    intros _ b L Hbb. unfold set_value. rewrite Ea. destruct (St (set_fuel s) b L) as (err & b' & E & R).
    exists err, b'. split; [exact E|]. split; [eapply replaced_bytes_ok; [exact Hbb| |exact R]; apply bytes_at_ok; exact Hb|].
    eapply copied_ext; [|apply replaced_copied; eassumption]. intros k. unfold member_bits.
    assert (Hs0 : 0 <= subSize t) by (destruct (type t); try contradiction; lia).
    destruct (type t); try contradiction; lia.
  - destruct (value_list_puts e t (Z.to_nat (offset t)) a Hb H) as (s & G & Q & (c & r & Ep & Hc) & P).
    destruct H as (Hk & Hn & Hs & Hin & _). exists s.
    assert (Ea : match type t with RBitMember => 0%nat | _ => nat_offset t end = Z.to_nat (offset t)) by (destruct Hk as [-> | [-> | ->]]; reflexivity).
    split; [rewrite Ea; exact G|]. split; [exact Q|]. split; [exists c, r; split; [exact Ep|]; cbn [In] in Hc; lia|].
    intros L b Lb Hbb. unfold set_value. rewrite Ea. assert (Ef : set_fuel s = S (S (length r))) by (rewrite Ep; reflexivity). rewrite Ef.
    destruct (P L (length r) b Lb) as (err & b' & E & R).
    exists err, b'. split; [exact E|]. split; [eapply replaced_bytes_ok; [exact Hbb| |exact R]; apply bytes_at_ok; exact Hb|].
    eapply copied_ext; [|apply replaced_copied; eassumption]. intros k. unfold member_bits.
    assert (0 <= numItems t * subSize t) by nia.
    destruct Hk as [-> | [-> | ->]]; lia.
  - apply bits_text; try assumption. repeat split; try assumption; lia.
Qed.
