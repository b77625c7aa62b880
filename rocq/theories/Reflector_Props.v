(** C34, C35 (scalar members), C36: text into and out of reflected members. *)
From Verif Require Import Base Supercore_Model StringView_Model Bitfield_Model Reflector_Model Reflector_Spec
  Reflector_Proof Reflector_Fmt_Proof Reflector_Flags_Proof.

(** Member [id] of the class is [t], and the object holds its bytes. *)
Definition member_of (cls : list reflType) (id : nat) (t : reflType) : Prop := nth_error cls id = Some t.
Definition holds (t : reflType) (mem : list Z) : Prop :=
  0 <= offset t /\ 0 <= subSize t /\ inside (Z.to_nat (offset t)) (Z.to_nat (subSize t)) mem.
Definition int_width (t : reflType) : Prop := subSize t = 1 \/ subSize t = 2 \/ subSize t = 4 \/ subSize t = 8.

Lemma firstn_In {A} n (l : list A) x : In x (firstn n l) -> In x l.
Proof. intros H. rewrite <- (firstn_skipn n l). apply in_or_app. left. exact H. Qed.
Lemma skipn_In {A} n (l : list A) x : In x (skipn n l) -> In x l.
Proof. intros H. rewrite <- (firstn_skipn n l). apply in_or_app. right. exact H. Qed.
Lemma by_id_ok cls id t : member_of cls id t -> by_id cls (Z.of_nat id) = Some t.
Proof.
  intros H. unfold by_id. assert (id < length cls)%nat by (apply nth_error_Some; unfold member_of in H; congruence).
  replace ((0 <=? Z.of_nat id) && (Z.of_nat id <? Z.of_nat (length cls))) with true by lia.
  rewrite Nat2Z.id. exact H.
Qed.
Lemma int_width_size t : int_width t -> int_size (subSize t) = true.
Proof. unfold int_width, int_size. intros. lia. Qed.

(** ** C34 *)
(** Setting a signed integer member from a decimal or 0x number stores the number clamped to
    the member's range, says whether it was clamped, and changes no byte outside the member. *)
Theorem C34_signed e cls id t text neg m mem :
  member_of cls id t -> type t = RInteger -> int_width t -> holds t mem -> literal text neg m ->
  let v := if neg then - m else m in
  let lo := - 2 ^ (8 * subSize t - 1) in
  let hi := 2 ^ (8 * subSize t - 1) - 1 in
  exists new,
    SetReflectedValue e cls (Z.of_nat id) text mem =
      Some (if (lo <=? v) && (v <=? hi) then ENone else EOutOfRange, new) /\
    replaced mem (Z.to_nat (offset t)) (le_bytes (Z.to_nat (subSize t)) (clamp lo hi v)) new.
Proof.
  intros Hm Ht Hw (Ho & Hs & Hin) Hl v lo hi. unfold SetReflectedValue. rewrite (by_id_ok _ _ _ Hm).
  unfold set_value, set_fuel. rewrite Ht. cbn [SetReflectedMember]. rewrite Ht, (int_width_size t Hw).
  rewrite (SetSigned_literal (8 * subSize t) text neg m) by (try assumption; unfold int_width in Hw; lia).
  fold v. destruct (assign_value (Z.to_nat (subSize t))
    (if (- 2 ^ (8 * subSize t - 1) <=? v) && (v <? 2 ^ (8 * subSize t - 1)) then ENone else EOutOfRange)
    (clamp (- 2 ^ (8 * subSize t - 1)) (2 ^ (8 * subSize t - 1) - 1) v) (Z.to_nat (offset t)) mem Hin) as (new & E & R).
  exists new. split; [|exact R]. unfold nat_offset. rewrite E. f_equal. f_equal. unfold lo, hi.
  replace (v <=? 2 ^ (8 * subSize t - 1) - 1) with (v <? 2 ^ (8 * subSize t - 1)) by lia. reflexivity.
Qed.

(** Unsigned members: numbers without a minus sign clamp at the maximum; a minus sign wraps
    around and is reported, unless the magnitude does not fit 64 bits. *)
Theorem C34_unsigned e cls id t text neg m mem :
  member_of cls id t -> type t = RUnsigned -> int_width t -> holds t mem -> literal text neg m ->
  let hi := 2 ^ (8 * subSize t) - 1 in
  exists new,
    SetReflectedValue e cls (Z.of_nat id) text mem =
      Some (if 2 ^ 64 <=? m then EOutOfRange else if neg then ESignMismatch
            else if m <=? hi then ENone else EOutOfRange, new) /\
    replaced mem (Z.to_nat (offset t))
      (le_bytes (Z.to_nat (subSize t))
         (if 2 ^ 64 <=? m then hi else if neg then (- m) mod 2 ^ (8 * subSize t) else Z.min hi m)) new.
Proof.
  intros Hm Ht Hw (Ho & Hs & Hin) Hl hi. unfold SetReflectedValue. rewrite (by_id_ok _ _ _ Hm).
  unfold set_value, set_fuel. rewrite Ht. cbn [SetReflectedMember]. rewrite Ht, (int_width_size t Hw).
  assert (Hp : 2 ^ (8 * subSize t) <= 2 ^ 64) by (apply Z.pow_le_mono_r; unfold int_width in Hw; lia).
  pose proof (pow2_pos (8 * subSize t) ltac:(lia)) as Hpos.
  rewrite (SetUnsigned_literal _ _ text neg m) by (try assumption; lia).
  assert (Ew : wrap (8 * subSize t) (u64 (- m)) = (- m) mod 2 ^ (8 * subSize t)).
  { unfold wrap, u64, wrap. symmetry. apply Znumtheory.Zmod_div_mod; [lia|reflexivity|].
    exists (2 ^ (64 - 8 * subSize t)). rewrite <- Z.pow_add_r by (unfold int_width in Hw; lia). f_equal. lia. }
  pose proof (Z.mod_pos_bound (- m) (2 ^ (8 * subSize t)) Hpos) as Hr.
  fold hi.
  assert (G : forall err x, exists new, assign (Z.to_nat (subSize t)) (err, Some x) (nat_offset t) mem = Some (err, new) /\
    replaced mem (Z.to_nat (offset t)) (le_bytes (Z.to_nat (subSize t)) x) new).
  { intros. apply assign_value. exact Hin. }
  destruct (2 ^ 64 <=? m); [apply G|]. destruct neg.
  - cbv zeta. rewrite Ew. destruct (Z.ltb_spec hi ((- m) mod 2 ^ (8 * subSize t))); [unfold hi in *; lia|]. apply G.
  - apply G.
Qed.

(** Text without a number is refused and changes nothing. *)
Theorem C34_malformed e cls id t text mem :
  member_of cls id t -> type t = RInteger \/ type t = RUnsigned -> int_width t -> malformed text ->
  SetReflectedValue e cls (Z.of_nat id) text mem = Some (EInvalidFormat, mem).
Proof.
  intros Hm Ht Hw Hl. unfold SetReflectedValue. rewrite (by_id_ok _ _ _ Hm).
  unfold set_value, set_fuel. destruct Ht as [Ht|Ht]; rewrite Ht; cbn [SetReflectedMember]; rewrite Ht, (int_width_size t Hw).
  - rewrite SetSigned_malformed by assumption. reflexivity.
  - rewrite SetUnsigned_malformed by assumption. reflexivity.
Qed.
(** No member, no effect. *)
Theorem C34_no_member e cls id text mem : (id < 0 \/ Z.of_nat (length cls) <= id) ->
  SetReflectedValue e cls id text mem = Some (EInvalidDestination, mem) /\ GetReflectedValue e cls id mem = Some [].
Proof.
  intros H. unfold SetReflectedValue, GetReflectedValue, by_id.
  replace ((0 <=? id) && (id <? Z.of_nat (length cls))) with false by lia. auto.
Qed.

(** Bit field members (at most 30 bits wide, in an object of at least 8 bytes): the field gets
    the number, clamped to its width; all other bits and bytes stay. *)
Definition bit_member (t : reflType) : Prop :=
  type t = RBitMember /\ 0 <= offset t /\ 1 <= subSize t <= 30 /\ offset t + subSize t <= 64.
Definition word_of (mem : list Z) : Z := le_value (bytes_at 0 8 mem).
Lemma word_range mem : bytes_ok mem -> inside 0 8 mem -> 0 <= word_of mem < 2 ^ 64.
Proof.
  intros Hb Hin. unfold word_of. pose proof (bytes_at_length 8 0 mem Hin) as L.
  pose proof (le_value_bound (bytes_at 0 8 mem)) as R. rewrite L in R. apply R.
  unfold bytes_at. apply Forall_forall. intros x Hx. unfold bytes_ok in Hb. rewrite Forall_forall in Hb. apply Hb.
  apply firstn_In, skipn_In in Hx. exact Hx.
Qed.
Lemma bit_member_set e cls id t text mem r v : member_of cls id t -> bit_member t -> inside 0 8 mem ->
  SetUnsigned u64 (2 ^ subSize t - 1) (skip_start text) = (r, v) ->
  exists new, SetReflectedValue e cls (Z.of_nat id) text mem = Some (r, new) /\
    replaced mem 0 (le_bytes 8 (bf_insert (word_of mem) (offset t) (subSize t) (match v with Some x => x | None => 0 end))) new.
Proof.
  intros Hm (Ht & Ho & Hn & Hp) Hin E. unfold SetReflectedValue. rewrite (by_id_ok _ _ _ Hm).
  unfold set_value, set_fuel. rewrite Ht. cbn [SetReflectedMember]. rewrite Ht.
  rewrite load_ok by assumption. rewrite GetMask_ok by lia.
  replace ((1 <=? subSize t) && (subSize t <=? 30)) with true by lia. cbv zeta. rewrite E.
  fold (word_of mem). fold (bf_insert (word_of mem) (offset t) (subSize t) (match v with Some x => x | None => 0 end)).
  destruct (store_ok (le_bytes 8 (bf_insert (word_of mem) (offset t) (subSize t) (match v with Some x => x | None => 0 end))) 0 mem)
    as (new & -> & R).
  { rewrite le_bytes_length. exact Hin. }
  exists new. split; [reflexivity|exact R].
Qed.
Lemma insert_bits mem new t x : bytes_ok mem -> inside 0 8 mem -> bit_member t -> 0 <= x < 2 ^ subSize t ->
  replaced mem 0 (le_bytes 8 (bf_insert (word_of mem) (offset t) (subSize t) x)) new ->
  same_outside 0 8 mem new /\
  forall i, 0 <= i < 64 -> Z.testbit (word_of new) i =
    if (offset t <=? i) && (i <? offset t + subSize t) then Z.testbit x (i - offset t) else Z.testbit (word_of mem) i.
Proof.
  intros Hb Hin (Ht & Ho & Hn & Hp) Hx R. split.
  - pose proof (replaced_outside _ _ _ _ R) as S. rewrite le_bytes_length in S. exact S.
  - intros i Hi. pose proof (replaced_bytes _ _ _ _ R) as B. rewrite le_bytes_length in B.
    pose proof (word_range mem Hb Hin) as W. pose proof (bf_insert_range (word_of mem) (offset t) (subSize t) x W Ho ltac:(lia) Hp Hx) as IR.
    unfold word_of at 1. rewrite B, le_value_bytes. rewrite Z.mod_small by (change (256 ^ Z.of_nat 8) with (2 ^ 64); exact IR).
    apply bf_insert_bits; lia.
Qed.
Theorem C34_bitfield e cls id t text m mem :
  member_of cls id t -> bit_member t -> bytes_ok mem -> inside 0 8 mem -> literal text false m ->
  let hi := 2 ^ subSize t - 1 in
  exists new,
    SetReflectedValue e cls (Z.of_nat id) text mem = Some (if m <=? hi then ENone else EOutOfRange, new) /\
    same_outside 0 8 mem new /\
    forall i, 0 <= i < 64 -> Z.testbit (word_of new) i =
      if (offset t <=? i) && (i <? offset t + subSize t) then Z.testbit (Z.min hi m) (i - offset t)
      else Z.testbit (word_of mem) i.
Proof.
  intros Hm Hbm Hb Hin Hl hi. pose proof Hbm as (Ht & Ho & Hn & Hp).
  assert (Hpow : 2 ^ subSize t <= 2 ^ 30) by (apply Z.pow_le_mono_r; lia).
  pose proof (pow2_pos (subSize t) ltac:(lia)) as Hpos.
  assert (H64 : 2 ^ 30 < 2 ^ 64) by reflexivity.
  assert (Hm0 : 0 <= m) by (apply (literal_parse _ _ _ Hl)).
  assert (E : SetUnsigned u64 (2 ^ subSize t - 1) (skip_start text) =
              (if m <=? hi then ENone else EOutOfRange, Some (Z.min hi m))).
  { rewrite (SetUnsigned_literal _ _ text false m) by (try assumption; lia). fold hi.
    destruct (Z.leb_spec (2 ^ 64) m); [|reflexivity].
    destruct (Z.leb_spec m hi); [unfold hi in *; lia|]. f_equal. f_equal. lia. }
  destruct (bit_member_set e cls id t text mem _ _ Hm Hbm Hin E) as (new & E2 & R).
  exists new. split; [exact E2|]. apply (insert_bits mem new t); try assumption. unfold hi in *. lia.
Qed.

(** Not so for other numbers: a negative number fills a bit field with ones, text without a
    number clears it although it is refused, and members of more than 30 bits are undefined
    behaviour. *)
Theorem C34_bitfield_negative_refuted e cls id t text m mem :
  member_of cls id t -> bit_member t -> bytes_ok mem -> inside 0 8 mem -> literal text true m -> 0 < m <= 2 ^ 63 ->
  exists new,
    SetReflectedValue e cls (Z.of_nat id) text mem = Some (EOutOfRange, new) /\
    forall i, offset t <= i < offset t + subSize t -> Z.testbit (word_of new) i = true.
Proof.
  intros Hm Hbm Hb Hin Hl Hr. pose proof Hbm as (Ht & Ho & Hn & Hp).
  assert (Hpow : 2 ^ subSize t <= 2 ^ 30) by (apply Z.pow_le_mono_r; lia).
  pose proof (pow2_pos (subSize t) ltac:(lia)) as Hpos.
  assert (E : SetUnsigned u64 (2 ^ subSize t - 1) (skip_start text) = (EOutOfRange, Some (2 ^ subSize t - 1))).
  { rewrite (SetUnsigned_literal _ _ text true m) by (try assumption; change (2 ^ 64) with 18446744073709551616; change (2 ^ 30) with 1073741824 in Hpow; lia).
    change (2 ^ 63) with 9223372036854775808 in Hr. change (2 ^ 30) with 1073741824 in Hpow.
    destruct (Z.leb_spec (2 ^ 64) m) as [X|_]; [change (2 ^ 64) with 18446744073709551616 in X; lia|]. cbv zeta.
    assert (Eu : u64 (u64 (- m)) = 18446744073709551616 - m).
    { assert (E1 : u64 (- m) = 18446744073709551616 - m).
      { unfold u64, wrap. change (2 ^ 64) with 18446744073709551616.
        rewrite <- (Z_mod_plus_full (- m) 1). rewrite Z.mod_small; lia. }
      rewrite E1. unfold u64. apply wrap_small. change (2 ^ 64) with 18446744073709551616. lia. }
    rewrite Eu. destruct (Z.ltb_spec (2 ^ subSize t - 1) (18446744073709551616 - m)); [reflexivity|lia]. }
  destruct (bit_member_set e cls id t text mem _ _ Hm Hbm Hin E) as (new & E2 & R).
  exists new. split; [exact E2|]. intros i Hi.
  destruct (insert_bits mem new t (2 ^ subSize t - 1) Hb Hin Hbm ltac:(lia) R) as [_ T]. rewrite T by lia.
  replace ((offset t <=? i) && (i <? offset t + subSize t)) with true by lia.
  replace (2 ^ subSize t - 1) with (Z.ones (subSize t)) by (rewrite Z.ones_equiv; lia). apply Z.ones_spec_low. lia.
Qed.
Theorem C34_bitfield_malformed_refuted e cls id t text mem :
  member_of cls id t -> bit_member t -> bytes_ok mem -> inside 0 8 mem -> malformed text ->
  exists new,
    SetReflectedValue e cls (Z.of_nat id) text mem = Some (EInvalidFormat, new) /\
    forall i, offset t <= i < offset t + subSize t -> Z.testbit (word_of new) i = false.
Proof.
  intros Hm Hbm Hb Hin Hl. pose proof Hbm as (Ht & Ho & Hn & Hp).
  destruct (bit_member_set e cls id t text mem _ _ Hm Hbm Hin (SetUnsigned_malformed _ _ _ Hl)) as (new & E2 & R).
  exists new. split; [exact E2|]. intros i Hi.
  destruct (insert_bits mem new t 0 Hb Hin Hbm) as [_ T]; [pose proof (pow2_pos (subSize t)); lia|exact R|].
  rewrite T by lia.
  replace ((offset t <=? i) && (i <? offset t + subSize t)) with true by lia. apply Z.testbit_0_l.
Qed.
Theorem C34_wide_bitfield_refuted e cls id t text mem :
  member_of cls id t -> type t = RBitMember -> 31 <= subSize t -> SetReflectedValue e cls (Z.of_nat id) text mem = None.
Proof.
  intros Hm Ht Hs. unfold SetReflectedValue. rewrite (by_id_ok _ _ _ Hm).
  unfold set_value, set_fuel. rewrite Ht. cbn [SetReflectedMember]. rewrite Ht.
  destruct (load 8 0 mem); [|reflexivity]. destruct (GetMask 64 (offset t, subSize t)); [|reflexivity].
  replace ((1 <=? subSize t) && (subSize t <=? 30)) with false by lia. reflexivity.
Qed.

Definition no_env : env := mkEnv (fun _ => None) (fun _ _ old => (EInvalidFormat, old)) (fun _ _ => []).
Definition int8_at (o : Z) := mkRefl RInteger RNone 1 0 0 o 0 0.
Definition uint16_at (o : Z) := mkRefl RUnsigned RNone 2 1 0 o 0 0.
Definition ex_class := [int8_at 0; uint16_at 1].
(** White space other than blanks hides the sign: newline, then -999, gives 127. *)
Theorem C34_newline_refuted :
  SetReflectedValue no_env ex_class 0 [10; 45; 57; 57; 57] [0; 0; 0] = Some (EOutOfRange, [127; 0; 0]).
Proof. reflexivity. Qed.

Example C34_example_text : literal [32; 45; 48; 120; 70; 102; 59] true 255.
Proof.
  change [32; 45; 48; 120; 70; 102; 59] with ([32] ++ [minus] ++ [zero; letter_x] ++ [70; 102] ++ [59]).
  apply literal_hex; [repeat constructor|auto| |].
  - change 255 with (15 * 16 + 15). change [70; 102] with ([70] ++ [102]).
    apply digits_more; [constructor; unfold is_digit; lia|unfold is_digit; lia].
  - intros d. unfold is_digit. lia.
Qed.
Example C34_example : member_of ex_class 0 (int8_at 0) /\ int_width (int8_at 0) /\ holds (int8_at 0) [1; 2; 3] /\
  SetReflectedValue no_env ex_class 0 [32; 45; 48; 120; 70; 102; 59] [1; 2; 3] = Some (EOutOfRange, [128; 2; 3]) /\
  SetReflectedValue no_env ex_class 1 [32; 45; 48; 120; 70; 102; 59] [1; 2; 3] = Some (ESignMismatch, [1; 1; 255]).
Proof. repeat split; try (cbn; unfold inside; cbn; lia); left; reflexivity. Qed.
Example C34_example_malformed : malformed [32; 45; 120].
Proof.
  intros ws sg rest E Hw Hs. unfold white in Hw.
  destruct ws as [|w1 ws]; destruct Hs as [-> | [-> | ->]]; cbn [app] in E; try discriminate E.
  - subst rest. intros d. unfold is_digit. lia.
  - injection E as <- E. destruct ws as [|w2 ws]; cbn [app] in E.
    + subst rest. intros d. unfold is_digit. lia.
    + injection E as <- E. inversion Hw as [|? ? _ H]; subst. inversion H; subst. lia.
  - injection E as <- E. destruct ws as [|w2 ws]; cbn [app] in E; [discriminate E|].
    injection E as <- E. inversion Hw as [|? ? _ H]; subst. inversion H; subst. lia.
  - injection E as <- E. destruct ws as [|w2 ws]; cbn [app] in E.
    + injection E as <-. intros d. unfold is_digit. lia.
    + injection E as <- E. inversion Hw as [|? ? _ H]; subst. inversion H; subst. lia.
Qed.
Definition bits5_at (p : Z) := mkRefl RBitMember RUnsigned 5 0 0 p 0 0.
Example C34_example_bits : bit_member (bits5_at 3) /\
  SetReflectedValue no_env [bits5_at 3] 0 [57] (repeat 255 9) = Some (ENone, 79 :: repeat 255 8).
Proof. repeat split; cbn; try lia. Qed.

(** ** C35: what the getter prints, the setter reads back *)
Lemma bytes_at_ok addr n mem : bytes_ok mem -> bytes_ok (bytes_at addr n mem).
Proof.
  intros Hb. unfold bytes_at. apply Forall_forall. intros x Hx. unfold bytes_ok in Hb. rewrite Forall_forall in Hb. apply Hb.
  apply firstn_In, skipn_In in Hx. exact Hx.
Qed.
Lemma replaced_same mem addr n new : inside addr n mem -> replaced mem addr (bytes_at addr n mem) new -> new = mem.
Proof.
  intros Hin (a & m & z & E & La & Lm & ->). rewrite E. f_equal. f_equal.
  rewrite bytes_at_length in Lm by assumption. unfold bytes_at. subst addr. rewrite skipn_app_exact.
  rewrite <- Lm. apply firstn_app_exact.
Qed.

Definition int_text (t : reflType) (addr : nat) (mem : list Z) : list Z :=
  let w := le_value (bytes_at addr (Z.to_nat (subSize t)) mem) in
  to_string (match type t with RInteger => sgn (8 * subSize t) w | _ => w end).
Definition int_member (t : reflType) : Prop := (type t = RInteger \/ type t = RUnsigned) /\ int_width t.

Lemma value_bytes mem addr n : bytes_ok mem -> inside addr n mem -> 0 <= le_value (bytes_at addr n mem) < 2 ^ (8 * Z.of_nat n).
Proof.
  intros Hb Hin. pose proof (le_value_bound (bytes_at addr n mem) (bytes_at_ok addr n mem Hb)) as R.
  rewrite bytes_at_length in R by assumption. rewrite pow256 in R by lia. exact R.
Qed.

(** one integer element, at any address *)
Lemma int_round_trip e t addr mem : int_member t -> bytes_ok mem -> inside addr (Z.to_nat (subSize t)) mem -> forall f1 f2,
  GetReflectedPrimitive f1 e t addr mem = Some (int_text t addr mem) /\
  SetReflectedMember f2 e t (int_text t addr mem) addr mem = Some (ENone, mem).
Proof.
  intros [Ht Hw] Hb Hin f1 f2. pose proof (int_width_size t Hw) as Hsz.
  assert (Hn : Z.of_nat (Z.to_nat (subSize t)) = subSize t) by (unfold int_width in Hw; lia).
  pose proof (value_bytes mem addr _ Hb Hin) as V. rewrite Hn in V.
  assert (P64 : 2 ^ (8 * subSize t) <= 2 ^ 64) by (apply Z.pow_le_mono_r; unfold int_width in Hw; lia).
  assert (P63 : 2 ^ (8 * subSize t - 1) <= 2 ^ 63) by (apply Z.pow_le_mono_r; unfold int_width in Hw; lia).
  pose proof (bytes_at_ok addr (Z.to_nat (subSize t)) mem Hb) as Hb2.
  pose proof (bytes_at_length _ _ _ Hin) as Hl.
  unfold int_text. destruct Ht as [Ht|Ht]; rewrite Ht; destruct f1, f2; cbn [GetReflectedPrimitive SetReflectedMember]; rewrite Ht, Hsz, (load_ok _ _ _ Hin);
    (split; [reflexivity|]).
  1-4: set (x := sgn (8 * subSize t) (le_value (bytes_at addr (Z.to_nat (subSize t)) mem)));
    assert (R : - 2 ^ (8 * subSize t - 1) <= x < 2 ^ (8 * subSize t - 1)) by (apply sgn_range; unfold int_width in Hw; lia);
    assert (L : literal (to_string x) (x <? 0) (Z.abs x)) by (apply to_string_literal; change (2 ^ 64) with 18446744073709551616; change (2 ^ 63) with 9223372036854775808 in *; lia);
    rewrite (SetSigned_literal (8 * subSize t) _ _ _ ltac:(unfold int_width in Hw; lia) L);
    replace (if x <? 0 then - Z.abs x else Z.abs x) with x by (destruct (Z.ltb_spec x 0); lia);
    replace ((- 2 ^ (8 * subSize t - 1) <=? x) && (x <? 2 ^ (8 * subSize t - 1))) with true by lia;
    replace (clamp (- 2 ^ (8 * subSize t - 1)) (2 ^ (8 * subSize t - 1) - 1) x) with x by (unfold clamp; lia);
    destruct (assign_value (Z.to_nat (subSize t)) ENone x addr mem Hin) as (new & -> & Rp); f_equal; f_equal;
    apply (replaced_same mem addr (Z.to_nat (subSize t))); [exact Hin|]; unfold x in Rp; rewrite <- Hn in Rp at 2;
    rewrite le_bytes_sgn in Rp by (try assumption; unfold int_width in Hw; lia); exact Rp.
  all: set (x := le_value (bytes_at addr (Z.to_nat (subSize t)) mem)) in *;
    assert (L : literal (to_string x) (x <? 0) (Z.abs x)) by (apply to_string_literal; lia);
    replace (x <? 0) with false in L by lia; replace (Z.abs x) with x in L by lia;
    rewrite (SetUnsigned_literal (wrap (8 * subSize t)) (2 ^ (8 * subSize t) - 1) _ _ _ ltac:(lia) L);
    destruct (Z.leb_spec (2 ^ 64) x); [lia|]; destruct (Z.leb_spec x (2 ^ (8 * subSize t) - 1)); [|lia];
    rewrite Z.min_r by lia;
    destruct (assign_value (Z.to_nat (subSize t)) ENone x addr mem Hin) as (new & -> & Rp); f_equal; f_equal;
    apply (replaced_same mem addr (Z.to_nat (subSize t))); [exact Hin|]; unfold x in Rp;
    rewrite <- Hl in Rp at 1; rewrite le_bytes_value in Rp by assumption; exact Rp.
Qed.

Theorem C35_integers e cls id t mem :
  member_of cls id t -> type t = RInteger \/ type t = RUnsigned -> int_width t -> holds t mem -> bytes_ok mem ->
  exists s, GetReflectedValue e cls (Z.of_nat id) mem = Some s /\
            SetReflectedValue e cls (Z.of_nat id) s mem = Some (ENone, mem).
Proof.
  intros Hm Ht Hw (Ho & Hs & Hin) Hb. exists (int_text t (nat_offset t) mem).
  unfold GetReflectedValue, SetReflectedValue. rewrite (by_id_ok _ _ _ Hm). unfold set_value.
  destruct Ht as [Ht|Ht]; rewrite Ht; apply int_round_trip; try assumption; split; auto.
Qed.
(** What is printed is the number itself. *)
Theorem C35_integers_text e cls id t mem :
  member_of cls id t -> type t = RInteger \/ type t = RUnsigned -> int_width t -> holds t mem -> bytes_ok mem ->
  exists s v, GetReflectedValue e cls (Z.of_nat id) mem = Some s /\ literal s (v <? 0) (Z.abs v) /\
    le_bytes (Z.to_nat (subSize t)) v = bytes_at (Z.to_nat (offset t)) (Z.to_nat (subSize t)) mem /\
    (if ref_eqb (type t) RInteger then - 2 ^ (8 * subSize t - 1) <= v < 2 ^ (8 * subSize t - 1) else 0 <= v < 2 ^ (8 * subSize t)).
Proof.
  intros Hm Ht Hw (Ho & Hs & Hin) Hb.
  assert (Hn : Z.of_nat (Z.to_nat (subSize t)) = subSize t) by lia.
  pose proof (value_bytes mem _ _ Hb Hin) as V. rewrite Hn in V.
  assert (P64 : 2 ^ (8 * subSize t) <= 2 ^ 64) by (apply Z.pow_le_mono_r; unfold int_width in Hw; lia).
  assert (P63 : 2 ^ (8 * subSize t - 1) <= 2 ^ 63) by (apply Z.pow_le_mono_r; unfold int_width in Hw; lia).
  assert (S : - 2 ^ (8 * subSize t - 1) <= sgn (8 * subSize t) (le_value (bytes_at (Z.to_nat (offset t)) (Z.to_nat (subSize t)) mem))
    < 2 ^ (8 * subSize t - 1)) by (apply sgn_range; unfold int_width in Hw; lia).
  exists (int_text t (nat_offset t) mem).
  exists (match type t with RInteger => sgn (8 * subSize t) (le_value (bytes_at (nat_offset t) (Z.to_nat (subSize t)) mem))
          | _ => le_value (bytes_at (nat_offset t) (Z.to_nat (subSize t)) mem) end).
  split.
  - unfold GetReflectedValue. rewrite (by_id_ok _ _ _ Hm).
    destruct Ht as [Ht|Ht]; rewrite Ht; refine (proj1 (int_round_trip e t (nat_offset t) mem _ Hb Hin 2%nat O)); split; auto.
  - unfold nat_offset, int_text in *. cbv zeta.
    destruct Ht as [Ht|Ht]; rewrite Ht; cbn [ref_eqb]; (split; [apply to_string_literal; change (2 ^ 64) with 18446744073709551616 in *; change (2 ^ 63) with 9223372036854775808 in *; lia|split; [|assumption]]).
    + rewrite <- Hn at 2. apply le_bytes_sgn; [apply bytes_at_ok; assumption|apply bytes_at_length; assumption|unfold int_width in Hw; lia].
    + rewrite <- (le_bytes_value (bytes_at (Z.to_nat (offset t)) (Z.to_nat (subSize t)) mem)) at 2 by (apply bytes_at_ok; assumption).
      rewrite bytes_at_length by assumption. reflexivity.
Qed.

(** Unsigned bit fields. *)
Theorem C35_unsigned_bits e cls id t mem :
  member_of cls id t -> bit_member t -> subType t = RUnsigned -> bytes_ok mem -> inside 0 8 mem ->
  exists s, GetReflectedValue e cls (Z.of_nat id) mem = Some s /\
            SetReflectedValue e cls (Z.of_nat id) s mem = Some (ENone, mem).
Proof.
  intros Hm Hbm Hst Hb Hin. pose proof Hbm as (Ht & Ho & Hn & Hp).
  set (x := bf_extract (word_of mem) (offset t) (subSize t)).
  pose proof (word_range mem Hb Hin) as W.
  assert (Hpow : 2 ^ subSize t <= 2 ^ 30) by (apply Z.pow_le_mono_r; lia).
  pose proof (pow2_pos (subSize t) ltac:(lia)) as Hpos.
  assert (R : 0 <= x < 2 ^ subSize t).
  { unfold x. rewrite bf_extract_eq by lia. apply Z.mod_pos_bound. lia. }
  assert (L : literal (to_string x) (x <? 0) (Z.abs x)) by (apply to_string_literal; change (2 ^ 64) with 18446744073709551616; change (2 ^ 30) with 1073741824 in *; change (2 ^ 63) with 9223372036854775808; lia).
  replace (x <? 0) with false in L by lia. replace (Z.abs x) with x in L by lia.
  exists (to_string x). split.
  - unfold GetReflectedValue. rewrite (by_id_ok _ _ _ Hm). rewrite Ht. cbn [GetReflectedPrimitive]. rewrite Ht.
    rewrite load_ok by assumption. rewrite GetMask_ok by lia. rewrite Hst. reflexivity.
  - assert (E : SetUnsigned u64 (2 ^ subSize t - 1) (skip_start (to_string x)) = (ENone, Some x)).
    { rewrite (SetUnsigned_literal u64 (2 ^ subSize t - 1) _ _ _ ltac:(change (2 ^ 64) with 18446744073709551616; change (2 ^ 30) with 1073741824 in *; lia) L).
      destruct (Z.leb_spec (2 ^ 64) x); [change (2 ^ 64) with 18446744073709551616 in *; change (2 ^ 30) with 1073741824 in *; lia|].
      destruct (Z.leb_spec x (2 ^ subSize t - 1)); [|lia]. f_equal. f_equal. lia. }
    destruct (bit_member_set e cls id t _ mem _ _ Hm Hbm Hin E) as (new & -> & Rp). f_equal. f_equal.
    apply (replaced_same mem 0 8); [exact Hin|]. unfold x in Rp. rewrite bf_insert_same in Rp by (assumption || lia).
    unfold word_of in Rp. rewrite <- (bytes_at_length 8 0 mem Hin) in Rp at 1.
    rewrite le_bytes_value in Rp by (apply bytes_at_ok; assumption). exact Rp.
Qed.
Lemma land_high x m : 0 <= m <= 64 -> 0 <= x < 2 ^ 64 -> Z.land x (2 ^ 64 - 2 ^ m) = x / 2 ^ m * 2 ^ m.
Proof.
  intros Hm Hx. replace (2 ^ 64 - 2 ^ m) with (Z.shiftl (Z.ones (64 - m)) m).
  2:{ rewrite Z.ones_equiv, Z.shiftl_mul_pow2 by lia. unfold Z.pred. rewrite Z.mul_add_distr_r, <- Z.pow_add_r by lia. replace (64 - m + m) with 64 by lia. lia. }
  rewrite <- Z.shiftr_div_pow2, <- Z.shiftl_mul_pow2 by lia. apply Z.bits_inj'. intros i Hi.
  rewrite Z.land_spec, !Z.shiftl_spec by lia. destruct (Z.ltb_spec i m).
  - rewrite !(Z.testbit_neg_r _ (i - m)) by lia. apply andb_false_r.
  - rewrite Z.shiftr_spec by lia. replace (i - m + m) with i by lia. destruct (Z.ltb_spec i 64).
    + rewrite Z.ones_spec_low by lia. apply andb_true_r.
    + rewrite Z.ones_spec_high by lia. rewrite andb_false_r. symmetry.
      destruct (Z.eq_dec x 0) as [->|X]; [apply Z.testbit_0_l|]. apply Z.bits_above_log2; [lia|].
      apply Z.log2_lt_pow2; [lia|]. apply Z.lt_le_trans with (2 ^ 64); [lia|]. apply Z.pow_le_mono_r; lia.
Qed.
Lemma sign_extend x n : 1 <= n <= 30 -> 0 <= x < 2 ^ n ->
  sgn 64 (if Z.land x (2 ^ 64 - 1 - Z.shiftr (2 ^ n - 1) 1) =? 0 then x else Z.lor x (2 ^ 64 - 1 - (2 ^ n - 1))) =
  if x <? 2 ^ (n - 1) then x else x - 2 ^ n.
Proof.
  intros Hn Hx. assert (H2 : 2 ^ n = 2 * 2 ^ (n - 1)) by (rewrite <- Z.pow_succ_r by lia; f_equal; lia).
  pose proof (pow2_pos (n - 1) ltac:(lia)) as Hh. assert (Hpow : 2 ^ n <= 2 ^ 30) by (apply Z.pow_le_mono_r; lia).
  assert (L : x < 2 ^ 64) by (change (2 ^ 64) with 18446744073709551616; change (2 ^ 30) with 1073741824 in Hpow; lia).
  rewrite Z.shiftr_div_pow2 by lia. change (2 ^ 1) with 2. replace ((2 ^ n - 1) / 2) with (2 ^ (n - 1) - 1) by (apply Z.div_unique with 1; lia).
  replace (2 ^ 64 - 1 - (2 ^ (n - 1) - 1)) with (2 ^ 64 - 2 ^ (n - 1)) by lia. replace (2 ^ 64 - 1 - (2 ^ n - 1)) with (2 ^ 64 - 2 ^ n) by lia.
  rewrite land_high by lia.
  assert (LO : Z.lor x (2 ^ 64 - 2 ^ n) = x + (2 ^ 64 - 2 ^ n)) by (apply lor_add; rewrite land_high by lia; rewrite Z.div_small by lia; reflexivity).
  rewrite LO. clear LO. unfold sgn, wrap. destruct (Z.ltb_spec x (2 ^ (n - 1))).
  - rewrite Z.div_small by lia. cbn [Z.mul Z.eqb]. rewrite Z.mod_small by lia. change (2 ^ (64 - 1)) with 9223372036854775808. change (2 ^ 30) with 1073741824 in Hpow.
    destruct (Z.ltb_spec x 9223372036854775808); lia.
  - replace (x / 2 ^ (n - 1)) with 1 by (apply Z.div_unique with (x - 2 ^ (n - 1)); lia).
    destruct (Z.eqb_spec (1 * 2 ^ (n - 1)) 0); [lia|]. change (2 ^ (64 - 1)) with 9223372036854775808. change (2 ^ 64) with 18446744073709551616 in *. change (2 ^ 30) with 1073741824 in Hpow.
    rewrite Z.mod_small by lia. destruct (Z.ltb_spec (x + (18446744073709551616 - 2 ^ n)) 9223372036854775808); lia.
Qed.
(** The text of a bit field is the number its bits stand for, in two's complement if it is signed. *)
Theorem C35_bits_text e cls id t mem :
  member_of cls id t -> bit_member t -> subType t = RInteger \/ subType t = RUnsigned -> bytes_ok mem -> inside 0 8 mem ->
  exists s v, GetReflectedValue e cls (Z.of_nat id) mem = Some s /\ literal s (v <? 0) (Z.abs v) /\
    v mod 2 ^ subSize t = word_of mem / 2 ^ offset t mod 2 ^ subSize t /\
    (if ref_eqb (subType t) RInteger then - 2 ^ (subSize t - 1) <= v < 2 ^ (subSize t - 1) else 0 <= v < 2 ^ subSize t).
Proof.
  intros Hm Hbm Hst Hb Hin. pose proof Hbm as (Ht & Ho & Hn & Hp).
  set (x := word_of mem / 2 ^ offset t mod 2 ^ subSize t).
  pose proof (word_range mem Hb Hin) as W. pose proof (pow2_pos (subSize t) ltac:(lia)) as Hpos.
  assert (Hpow : 2 ^ subSize t <= 2 ^ 30) by (apply Z.pow_le_mono_r; lia). change (2 ^ 30) with 1073741824 in Hpow.
  assert (R : 0 <= x < 2 ^ subSize t) by (apply Z.mod_pos_bound; lia).
  assert (EX : bf_extract (word_of mem) (offset t) (subSize t) = x) by (apply bf_extract_eq; lia).
  assert (H2 : 2 ^ subSize t = 2 * 2 ^ (subSize t - 1)) by (rewrite <- Z.pow_succ_r by lia; f_equal; lia).
  pose proof (pow2_pos (subSize t - 1) ltac:(lia)) as Hhalf.
  assert (G : forall v, (if ref_eqb (subType t) RInteger then v = (if x <? 2 ^ (subSize t - 1) then x else x - 2 ^ subSize t) else v = x) ->
    GetReflectedValue e cls (Z.of_nat id) mem = Some (to_string v)).
  { intros v Hv. unfold GetReflectedValue. rewrite (by_id_ok _ _ _ Hm). rewrite Ht. cbn [GetReflectedPrimitive]. rewrite Ht.
    rewrite load_ok by assumption. rewrite GetMask_ok by lia.
    destruct Hst as [Hst|Hst]; rewrite Hst in *; cbn [ref_eqb] in *.
    - replace ((1 <=? subSize t) && (subSize t <=? 30)) with true by lia. cbv zeta.
      match goal with |- context [Z.shiftr (Z.land ?a ?b) ?c] => change (Z.shiftr (Z.land a b) c) with (bf_extract (word_of mem) (offset t) (subSize t)) end.
      rewrite EX. rewrite (sign_extend x (subSize t)) by lia. f_equal. f_equal. symmetry. exact Hv.
    - subst v. rewrite <- EX. reflexivity. }
  exists (to_string (if ref_eqb (subType t) RInteger then (if x <? 2 ^ (subSize t - 1) then x else x - 2 ^ subSize t) else x)).
  exists (if ref_eqb (subType t) RInteger then (if x <? 2 ^ (subSize t - 1) then x else x - 2 ^ subSize t) else x).
  split; [apply G; destruct (ref_eqb (subType t) RInteger); reflexivity|]. clear G.
  assert (M : forall v, (v = x \/ v = x - 2 ^ subSize t) -> v mod 2 ^ subSize t = x).
  { intros v [-> | ->]; [apply Z.mod_small; exact R|]. replace (x - 2 ^ subSize t) with (x + (-1) * 2 ^ subSize t) by lia.
    rewrite Z.mod_add by lia. apply Z.mod_small; exact R. }
  split; [apply to_string_literal; change (2 ^ 64) with 18446744073709551616; change (2 ^ 63) with 9223372036854775808;
    destruct (ref_eqb (subType t) RInteger); [destruct (Z.ltb_spec x (2 ^ (subSize t - 1)))|]; lia|].
  destruct (ref_eqb (subType t) RInteger); [destruct (Z.ltb_spec x (2 ^ (subSize t - 1)))|]; (split; [apply M; auto|lia]).
Qed.
Print Assumptions C35_bits_text.
Example C35_bits_case : member_of [mkRefl RBitMember RInteger 4 0 0 3 0 0] 0 (mkRefl RBitMember RInteger 4 0 0 3 0 0) /\
  bit_member (mkRefl RBitMember RInteger 4 0 0 3 0 0) /\
  GetReflectedValue no_env [mkRefl RBitMember RInteger 4 0 0 3 0 0] 0 [16; 0; 0; 0; 0; 0; 0; 0] = Some [50] /\
  GetReflectedValue no_env [mkRefl RBitMember RInteger 4 0 0 3 0 0] 0 [112; 0; 0; 0; 0; 0; 0; 0] = Some [45; 50].
Proof. repeat split; try reflexivity; cbn; lia. Qed.
(** Signed bit fields do not survive: -2 in three bits comes back as -1. *)
Theorem C35_signed_bits_refuted :
  let cls := [mkRefl RBitMember RInteger 3 0 0 0 0 0] in
  GetReflectedValue no_env cls 0 [6; 0; 0; 0; 0; 0; 0; 0] = Some [45; 50] /\
  SetReflectedValue no_env cls 0 [45; 50] [6; 0; 0; 0; 0; 0; 0; 0] = Some (EOutOfRange, [7; 0; 0; 0; 0; 0; 0; 0]).
Proof. split; reflexivity. Qed.

(** Booleans holding 0 or 1. *)
Theorem C35_bool e cls id t mem b : member_of cls id t -> type t = RBool -> nth_error mem (Z.to_nat (offset t)) = Some b ->
  b = 0 \/ b = 1 ->
  exists s, GetReflectedValue e cls (Z.of_nat id) mem = Some s /\
            SetReflectedValue e cls (Z.of_nat id) s mem = Some (ENone, mem).
Proof.
  intros Hm Ht Hb Hv. exists (if b =? 0 then s_false else s_true).
  assert (L : (Z.to_nat (offset t) < length mem)%nat) by (apply nth_error_Some; congruence).
  assert (Hin : inside (Z.to_nat (offset t)) 1 mem) by (unfold inside; lia).
  assert (B : bytes_at (Z.to_nat (offset t)) 1 mem = [b]).
  { unfold bytes_at. apply nth_error_split in Hb. destruct Hb as (l1 & l2 & -> & <-). rewrite skipn_app_exact. reflexivity. }
  unfold GetReflectedValue, SetReflectedValue. rewrite (by_id_ok _ _ _ Hm). rewrite Ht.
  split.
  - cbn [GetReflectedPrimitive]. rewrite Ht. unfold nat_offset. rewrite load_ok by assumption. rewrite B.
    destruct Hv as [-> | ->]; reflexivity.
  - unfold set_value, set_fuel. rewrite Ht. cbn [SetReflectedMember]. rewrite Ht.
    assert (E : SetBoolean (skip_start (if b =? 0 then s_false else s_true)) = (ENone, b)) by (destruct Hv as [-> | ->]; reflexivity).
    rewrite E. destruct (store_ok [b] (nat_offset t) mem Hin) as (new & -> & R). cbn [option_map]. f_equal. f_equal.
    apply (replaced_same mem (Z.to_nat (offset t)) 1); [exact Hin|]. rewrite B. exact R.
Qed.

(** A boolean prints as true exactly when its byte is not 0; it is set by the words true and false in
    any case, after blanks and whatever follows; any other text is reported and clears it. *)
Theorem C35_bool_text e cls id t mem b : member_of cls id t -> type t = RBool -> nth_error mem (Z.to_nat (offset t)) = Some b ->
  GetReflectedValue e cls (Z.of_nat id) mem = Some (if b =? 0 then [102; 97; 108; 115; 101] else [116; 114; 117; 101]).
Proof.
  intros Hm Ht Hb. assert (L : (Z.to_nat (offset t) < length mem)%nat) by (apply nth_error_Some; congruence).
  assert (Hin : inside (Z.to_nat (offset t)) 1 mem) by (unfold inside; lia).
  assert (B : bytes_at (Z.to_nat (offset t)) 1 mem = [b]).
  { unfold bytes_at. apply nth_error_split in Hb. destruct Hb as (l1 & l2 & -> & <-). rewrite skipn_app_exact. reflexivity. }
  unfold GetReflectedValue. rewrite (by_id_ok _ _ _ Hm). rewrite Ht. cbn [GetReflectedPrimitive]. rewrite Ht. unfold nat_offset.
  rewrite load_ok by assumption. rewrite B. cbn [option_map le_value]. replace (b + 256 * 0) with b by lia. reflexivity.
Qed.
(** [w] is [v] in any case *)
Definition any_case (v w : list Z) : Prop := Forall2 (fun c d => d = c \/ d = c - 32) v w.
Lemma any_case_lower v w r : Forall (fun c => 97 <= c <= 122) v -> any_case v w -> starts_with v (map lower (w ++ r)) = true.
Proof.
  intros F A. induction A as [|c d v w Hd A IH]; [reflexivity|]. inversion F; subst. cbn [app map starts_with].
  assert (E : lower d = c) by (unfold lower; destruct Hd as [-> | ->]; destruct (Z.leb_spec 65 c), (Z.leb_spec c 90), (Z.leb_spec 65 (c - 32)), (Z.leb_spec (c - 32) 90); cbn [andb]; lia).
  rewrite E, Z.eqb_refl. apply IH. assumption.
Qed.
Lemma lower_any_case v s : Forall (fun c => 97 <= c <= 122) v -> starts_with v (map lower s) = true -> exists w r, s = w ++ r /\ any_case v w.
Proof.
  intros F. revert s. induction F as [|c v Hc F IH]; intros s H; [exists [], s; split; [reflexivity|constructor]|].
  destruct s as [|d s]; [discriminate|]. cbn [map starts_with] in H. apply andb_true_iff in H. destruct H as [E H].
  destruct (IH s H) as (w & r & -> & A). exists (d :: w), r. split; [reflexivity|]. constructor; [|exact A].
  apply Z.eqb_eq in E. unfold lower in E. destruct (Z.leb_spec 65 d), (Z.leb_spec d 90); cbn [andb] in E; lia.
Qed.
Theorem C35_bool_set e cls id t mem old blank text : member_of cls id t -> type t = RBool -> nth_error mem (Z.to_nat (offset t)) = Some old ->
  blanks blank -> match text with c :: _ => c <> 32 /\ c <> 9 | [] => True end ->
  exists err new, SetReflectedValue e cls (Z.of_nat id) (blank ++ text) mem = Some (err, new) /\ same_outside (Z.to_nat (offset t)) 1 mem new /\
    ((exists w r, text = w ++ r /\ any_case [116; 114; 117; 101] w) -> err = ENone /\ nth_error new (Z.to_nat (offset t)) = Some 1) /\
    ((exists w r, text = w ++ r /\ any_case [102; 97; 108; 115; 101] w) -> err = ENone /\ nth_error new (Z.to_nat (offset t)) = Some 0) /\
    ((forall w r, text = w ++ r -> ~ any_case [116; 114; 117; 101] w /\ ~ any_case [102; 97; 108; 115; 101] w) ->
       err = EInvalidFormat /\ nth_error new (Z.to_nat (offset t)) = Some 0).
Proof.
  intros Hm Ht Ho Hb Hx.
  assert (L : (Z.to_nat (offset t) < length mem)%nat) by (apply nth_error_Some; congruence).
  assert (Es : skip_start (blank ++ text) = text).
  { rewrite skip_start_blanks by exact Hb. destruct text as [|c r]; [reflexivity|]. apply skip_start_id; tauto. }
  unfold SetReflectedValue. rewrite (by_id_ok _ _ _ Hm). unfold set_value, set_fuel. rewrite Ht. cbn [SetReflectedMember]. rewrite Ht, Es.
  assert (P : forall v, exists new, store [v] (nat_offset t) mem = Some new /\ same_outside (Z.to_nat (offset t)) 1 mem new /\ nth_error new (Z.to_nat (offset t)) = Some v).
  { intros v. destruct (store_ok [v] (nat_offset t) mem) as (new & E & R); [unfold inside, nat_offset; cbn [length]; lia|].
    exists new. split; [exact E|]. split; [apply (replaced_outside _ _ _ _ R)|]. destruct R as (x & m & z & _ & Lx & _ & ->). unfold nat_offset in Lx.
    rewrite <- Lx. rewrite nth_error_app2 by lia. rewrite Nat.sub_diag. reflexivity. }
  assert (FT : Forall (fun c => 97 <= c <= 122) [116; 114; 117; 101]) by (repeat (constructor; [lia|]); constructor).
  assert (FF : Forall (fun c => 97 <= c <= 122) [102; 97; 108; 115; 101]) by (repeat (constructor; [lia|]); constructor).
  unfold SetBoolean. change s_true with [116; 114; 117; 101]. change s_false with [102; 97; 108; 115; 101].
  destruct (starts_with [116; 114; 117; 101] (map lower text)) eqn:ET.
  - destruct (P 1) as (new & E & So & N). rewrite E. exists ENone, new. split; [reflexivity|]. split; [exact So|]. split; [auto|].
    destruct (lower_any_case _ _ FT ET) as (w & r & Ew & Aw). split.
    + intros (w' & r' & Ew' & A). exfalso. inversion A as [|? d ? ? Hd _]; subst. inversion Aw as [|? d' ? ? Hd' _]; subst. cbn [app] in Ew'. injection Ew' as E1 _. lia.
    + intros H. exfalso. exact (proj1 (H w r Ew) Aw).
  - destruct (starts_with [102; 97; 108; 115; 101] (map lower text)) eqn:EF.
    + destruct (P 0) as (new & E & So & N). rewrite E. exists ENone, new. split; [reflexivity|]. split; [exact So|]. split.
      * intros (w & r & -> & A). rewrite any_case_lower in ET by assumption. discriminate.
      * split; [auto|]. destruct (lower_any_case _ _ FF EF) as (w & r & Ew & Aw). intros H. exfalso. exact (proj2 (H w r Ew) Aw).
    + destruct (P 0) as (new & E & So & N). rewrite E. exists EInvalidFormat, new. split; [reflexivity|]. split; [exact So|]. split; [|split].
      * intros (w & r & -> & A). rewrite any_case_lower in ET by assumption. discriminate.
      * intros (w & r & -> & A). rewrite any_case_lower in EF by assumption. discriminate.
      * auto.
Qed.
Example C35_bool_case : any_case [116; 114; 117; 101] [84; 114; 85; 69] /\
  SetReflectedValue no_env [mkRefl RBool RNone 1 0 0 1 0 0] 0 [32; 84; 114; 85; 69; 33] [9; 0; 9] = Some (ENone, [9; 1; 9]).
Proof. split; [repeat (constructor; [lia|]); constructor|reflexivity]. Qed.

Example C35_example :
  GetReflectedValue no_env ex_class 0 [200; 1; 2] = Some [45; 53; 54] /\
  SetReflectedValue no_env ex_class 0 [45; 53; 54] [200; 1; 2] = Some (ENone, [200; 1; 2]) /\
  member_of ex_class 1 (uint16_at 1) /\ holds (uint16_at 1) [200; 1; 2].
Proof. repeat split; cbn; unfold inside; cbn; lia. Qed.

(** ** C36: enums and flags *)
(** A registered name, with blanks around it, stores the value of its first entry. *)
Theorem C36_set e cls id t tab b1 n b2 v mem :
  member_of cls id t -> type t = REnum -> holds t mem -> subSize t <= 8 ->
  enums e (typeHash t) = Some tab -> blanks b1 -> blanks b2 -> trimmed n ->
  first_with (fun p => fst p = n) tab (n, v) ->
  exists new, SetReflectedValue e cls (Z.of_nat id) (b1 ++ n ++ b2) mem = Some (ENone, new) /\
    replaced mem (Z.to_nat (offset t)) (le_bytes (Z.to_nat (subSize t)) v) new.
Proof.
  intros Hm Ht (Ho & Hs & Hin) H8 He Hb1 Hb2 Hn Hf. unfold SetReflectedValue. rewrite (by_id_ok _ _ _ Hm).
  unfold set_value, set_fuel. rewrite Ht. cbn [SetReflectedMember]. rewrite Ht. unfold SetEnum.
  rewrite flag_trim by assumption. rewrite He.
  pose proof (trimmed_ends n Hn) as (_ & _ & Hne). apply value_of_name_some in Hf.
  destruct n as [|c n]; [congruence|]. rewrite Hf. unfold copy_value.
  destruct (Z.leb_spec (subSize t) 8); [|lia].
  destruct (store_ok (le_bytes (Z.to_nat (subSize t)) v) (nat_offset t) mem) as (new & -> & R).
  { rewrite le_bytes_length. exact Hin. }
  exists new. split; [reflexivity|exact R].
Qed.
(** The getter prints the first name with the stored value, nothing if there is none. *)
Theorem C36_get e cls id t tab mem :
  member_of cls id t -> type t = REnum -> holds t mem -> subSize t <= 8 -> enums e (typeHash t) = Some tab ->
  let v := le_value (bytes_at (Z.to_nat (offset t)) (Z.to_nat (subSize t)) mem) in
  exists s, GetReflectedValue e cls (Z.of_nat id) mem = Some s /\
    (first_with (fun p => snd p = v) tab (s, v) \/ s = [] /\ ~ In v (map snd tab)).
Proof.
  intros Hm Ht (Ho & Hs & Hin) H8 He v. unfold GetReflectedValue. rewrite (by_id_ok _ _ _ Hm).
  rewrite Ht. cbn [GetReflectedPrimitive]. rewrite Ht. destruct (Z.leb_spec (subSize t) 8); [|lia].
  unfold nat_offset. rewrite load_ok by assumption. cbn [option_map]. rewrite He. fold v.
  destruct (name_of_value v tab) as [s|] eqn:E.
  - exists s. split; [reflexivity|]. left. apply name_of_value_some. exact E.
  - exists []. split; [reflexivity|]. right. split; [reflexivity|]. clear -E. intros H.
    induction tab as [|[n x] tab IH]; [exact H|]. cbn [name_of_value map snd In] in *.
    destruct (Z.eqb_spec x v) as [->|N]; [discriminate E|]. destruct H; [contradiction|]. apply IH; assumption.
Qed.
(** Set by name then get: the first name with the same value. *)
Theorem C36_round_trip e cls id t tab n v mem :
  member_of cls id t -> type t = REnum -> holds t mem -> subSize t <= 8 ->
  enums e (typeHash t) = Some tab -> trimmed n -> first_with (fun p => fst p = n) tab (n, v) ->
  0 <= v < 2 ^ (8 * subSize t) ->
  exists new s, SetReflectedValue e cls (Z.of_nat id) n mem = Some (ENone, new) /\
    GetReflectedValue e cls (Z.of_nat id) new = Some s /\
    first_with (fun p => snd p = v) tab (s, v).
Proof.
  intros Hm Ht Hh H8 He Hn Hf Hv.
  destruct (C36_set e cls id t tab [] n [] v mem Hm Ht Hh H8 He ltac:(constructor) ltac:(constructor) Hn Hf) as (new & E & R).
  cbn [app] in E. rewrite app_nil_r in E.
  assert (Hh' : holds t new).
  { destruct Hh as (Ho & Hs & Hin). repeat split; try assumption. unfold inside in *. rewrite (replaced_length _ _ _ _ R). exact Hin. }
  destruct (C36_get e cls id t tab new Hm Ht Hh' H8 He) as (s & E2 & S).
  pose proof (replaced_bytes _ _ _ _ R) as B. rewrite le_bytes_length in B. rewrite B in S. rewrite le_value_bytes in S.
  destruct Hh as (Ho & Hs & Hin).
  rewrite pow256, Z2Nat.id in S by lia. rewrite Z.mod_small in S by lia.
  exists new, s. repeat split; try assumption. destruct S as [S|[-> S]]; [exact S|].
  exfalso. apply S. destruct Hf as (a & z & -> & _). rewrite map_app. apply in_or_app. right. left. reflexivity.
Qed.
(** Unknown names, blank text and unregistered enums are refused without effect. *)
Theorem C36_refused e cls id t text mem : member_of cls id t -> type t = REnum ->
  (blanks text -> SetReflectedValue e cls (Z.of_nat id) text mem = Some (EEmptyInput, mem)) /\
  (trimmed text -> enums e (typeHash t) = None ->
     SetReflectedValue e cls (Z.of_nat id) text mem = Some (EInvalidDestination, mem)) /\
  (forall tab, trimmed text -> enums e (typeHash t) = Some tab -> ~ In text (map fst tab) ->
     SetReflectedValue e cls (Z.of_nat id) text mem = Some (EInvalidFormat, mem)).
Proof.
  intros Hm Ht. unfold SetReflectedValue. rewrite (by_id_ok _ _ _ Hm).
  unfold set_value, set_fuel. rewrite Ht. cbn [SetReflectedMember]. rewrite Ht. unfold SetEnum. repeat split.
  - intros Hb. rewrite <- (app_nil_r text). rewrite skip_start_blanks by assumption. reflexivity.
  - intros Hn He. pose proof (trimmed_ends text Hn) as (E1 & E2 & Hne). rewrite E1, E2, He. destruct text; [congruence|reflexivity].
  - intros tab Hn He Hi. pose proof (trimmed_ends text Hn) as (E1 & E2 & Hne). rewrite E1, E2, He.
    apply value_of_name_none in Hi. rewrite Hi. destruct text; [congruence|reflexivity].
Qed.

(** Flags: names separated by bars set exactly the listed bits. *)
Theorem C36_flags_set e cls id t tab ps vs mem :
  member_of cls id t -> type t = REnumFlags -> holds t mem -> subSize t <= 8 -> enums e (typeHash t) = Some tab ->
  ps <> [] -> Forall piece_ok ps ->
  Forall2 (fun p v => first_with (fun q => fst q = snd (fst p)) tab (snd (fst p), v) /\ v < 64) ps vs ->
  Forall (fun v => 0 <= v) vs ->
  exists new bits, SetReflectedValue e cls (Z.of_nat id) (pieces_text ps) mem = Some (ENone, new) /\
    replaced mem (Z.to_nat (offset t)) (le_bytes (Z.to_nat (subSize t)) bits) new /\
    0 <= bits /\ forall i, 0 <= i -> (Z.testbit bits i = true <-> In i vs).
Proof.
  intros Hm Ht (Ho & Hs & Hin) H8 He Hne Hok H2 Hv. unfold SetReflectedValue. rewrite (by_id_ok _ _ _ Hm).
  unfold set_value, set_fuel. rewrite Ht. cbn [SetReflectedMember]. rewrite Ht. unfold SetEnumFlags.
  (* leading blanks are skipped twice *)
  assert (Hloop : flags_loop e (typeHash t) (skip_start (pieces_text ps)) [] 0 ENone = Some (ENone, Some (flag_bits vs 0))).
  { destruct ps as [|[[b1 n] b2] ps]; [congruence|]. inversion Hok as [|? ? P1 P2]; subst.
    assert (E : skip_start (pieces_text ((b1, n, b2) :: ps)) = pieces_text (([], n, b2) :: ps)).
    { pose proof P1 as (B1 & B2 & T & _). cbn [fst snd] in *. destruct T as [(c & r & -> & N1 & N2) _].
      destruct ps; cbn [pieces_text]; unfold piece_text; cbn [fst snd]; rewrite <- ?app_assoc;
        rewrite skip_start_blanks by assumption; cbn [app]; apply skip_start_id; assumption. }
    rewrite E. apply (pieces_loop e (typeHash t) tab He).
    - constructor; [|assumption]. destruct P1 as (B1 & B2 & T & N). repeat split; cbn [fst snd] in *; try assumption; [constructor|apply T..].
    - inversion H2; subst. constructor; assumption. }
  rewrite Hloop. unfold copy_value. destruct (Z.leb_spec (subSize t) 8); [|lia].
  destruct (store_ok (le_bytes (Z.to_nat (subSize t)) (flag_bits vs 0)) (nat_offset t) mem) as (new & -> & R).
  { rewrite le_bytes_length. exact Hin. }
  exists new, (flag_bits vs 0). repeat split; try exact R.
  - apply flag_bits_nonneg; [assumption|lia].
  - intros X. apply flag_bits_test in X; [|assumption..]. destruct X as [X|X]; [rewrite Z.testbit_0_l in X; discriminate|exact X].
  - intros X. apply flag_bits_test; auto.
Qed.

(** Flags survive get and set if the enum's names are distinct, without bars and surrounding
    blanks, NULL is not one of them, and every set bit has a name. *)
Theorem C36_flags_round_trip e cls id t tab mem :
  member_of cls id t -> type t = REnumFlags -> holds t mem -> subSize t <= 8 -> bytes_ok mem ->
  enums e (typeHash t) = Some tab -> NoDup (map fst tab) -> ~ In s_NULL (map fst tab) ->
  (forall n v, In (n, v) tab -> trimmed n /\ ~ In 124 n) ->
  let w := le_value (bytes_at (Z.to_nat (offset t)) (Z.to_nat (subSize t)) mem) in
  (forall i, 0 <= i < 8 * subSize t -> Z.testbit w i = true -> In i (map snd tab)) ->
  exists s, GetReflectedValue e cls (Z.of_nat id) mem = Some s /\
            SetReflectedValue e cls (Z.of_nat id) s mem = Some (ENone, mem).
Proof.
  intros Hm Ht Hh H8 Hb He Hd Hnull Htrim w Hnamed. pose proof Hh as (Ho & Hs & Hin).
  set (n := Z.to_nat (subSize t)) in *. assert (Hn : Z.of_nat n = subSize t) by lia.
  pose proof (bytes_at_length _ _ _ Hin) as Hlen. fold n in Hlen.
  pose proof (value_bytes mem _ _ Hb Hin) as V. fold w in V. rewrite Hn in V.
  assert (Hval : forall i, In i (map snd tab) -> exists x, name_of_value i tab = Some x).
  { clear. intros i H. induction tab as [|[x y] tab IH]; [destruct H|]. cbn [map snd In name_of_value] in *.
    destruct (Z.eqb_spec y i); [eexists; reflexivity|]. destruct H; [contradiction|auto]. }
  assert (Hnn : forall x y, In (x, y) tab -> x <> []).
  { intros x y H. destruct (Htrim x y H) as [T _]. apply (trimmed_ends x T). }
  destruct (print_flags_names tab w Hnn (8 * n) 0 []) as (ns & F & P).
  { constructor. }
  { intros i Hi Hbit. apply Hval, Hnamed; [lia|exact Hbit]. }
  cbn [joinb app] in P.
  assert (G : GetReflectedValue e cls (Z.of_nat id) mem = Some (match joinb ns with [] => s_NULL | _ => joinb ns end)).
  { unfold GetReflectedValue. rewrite (by_id_ok _ _ _ Hm). rewrite Ht. cbn [GetReflectedPrimitive]. rewrite Ht.
    destruct (Z.leb_spec (subSize t) 8); [|lia]. unfold nat_offset. fold n. rewrite load_ok by assumption. cbn [option_map].
    unfold PrintEnumFlags. rewrite He. rewrite Hlen. fold w. rewrite P. reflexivity. }
  exists (match joinb ns with [] => s_NULL | _ => joinb ns end). split; [exact G|].
  (* the names and their values *)
  assert (Hpairs : Forall2 (fun nm i => first_with (fun q => fst q = nm) tab (nm, i) /\ i < 64) ns (bit_list w 0 (8 * n))).
  { assert (Hall : forall i, In i (bit_list w 0 (8 * n)) -> i < 64) by (intros i Hi; apply bit_list_in in Hi; lia).
    revert F Hall. generalize (bit_list w 0 (8 * n)). clear - Hd He. intros l F. induction F as [|i nm l ns H F IH]; intros Hall; [constructor|].
    constructor; [|apply IH; intros j Hj; apply Hall; right; exact Hj].
    split; [|apply Hall; left; reflexivity].
    apply (nodup_first e (typeHash t) tab He); [exact Hd|]. apply name_of_value_some in H. destruct H as (a & z & -> & _). apply in_elt. }
  assert (Htr : forall nm, In nm ns -> trimmed nm /\ ~ In 124 nm).
  { intros nm Hnm. clear - F Hnm Htrim. induction F as [|i x l ns H F IH]; [destruct Hnm|].
    destruct Hnm as [->|Hnm]; [|auto]. apply name_of_value_some in H. destruct H as (a & z & E & _).
    apply (Htrim nm i). rewrite E. apply in_elt. }
  destruct ns as [|n1 ns].
  - (* no bit set *)
    cbn [joinb]. assert (Hw0 : w = 0).
    { assert (E : bit_list w 0 (8 * n) = []) by (remember (bit_list w 0 (8 * n)) as bl; inversion F; reflexivity). apply Z.bits_inj'. intros i Hi. rewrite Z.testbit_0_l.
      destruct (Z.testbit w i) eqn:Eb; [|reflexivity]. exfalso.
      assert (i < 8 * subSize t) by (destruct (Z.lt_ge_cases i (8 * subSize t)); [assumption|rewrite (testbit_above (8 * subSize t)) in Eb by lia; discriminate]).
      assert (X : In i (bit_list w 0 (8 * n))) by (apply bit_list_in; split; [lia|exact Eb]). rewrite E in X. exact X. }
    unfold SetReflectedValue. rewrite (by_id_ok _ _ _ Hm).
    unfold set_value, set_fuel. rewrite Ht. cbn [SetReflectedMember]. rewrite Ht. unfold SetEnumFlags.
    change (skip_start s_NULL) with s_NULL.
    pose proof (flag_null e (typeHash t) tab He [] [] 0 ltac:(constructor) ltac:(constructor) Hnull) as K.
    rewrite <- (app_nil_r s_NULL). rewrite pass_name by (cbn; lia).
    change (flags_loop e (typeHash t) [] ([] ++ s_NULL) 0 ENone) with
      (match FlagFromEnum e s_NULL (typeHash t) 0 with
           | None => None
           | Some (sub, acc') =>
             if is_dest sub then Some (sub, None)
             else Some (if is_none sub then ENone else sub, Some acc')
           end).
    cbn [app] in K. rewrite app_nil_r in K. rewrite K. cbn [is_dest is_none]. unfold copy_value.
    destruct (Z.leb_spec (subSize t) 8); [|lia].
    destruct (store_ok (le_bytes (Z.to_nat (subSize t)) 0) (nat_offset t) mem) as (new & -> & R).
    { rewrite le_bytes_length. exact Hin. }
    cbn [option_map]. f_equal. f_equal. apply (replaced_same mem (Z.to_nat (offset t)) n); [exact Hin|].
    fold n in R. rewrite <- Hw0 in R. unfold w in R. rewrite <- Hlen in R at 1.
    rewrite le_bytes_value in R by (apply bytes_at_ok; assumption). exact R.
  - pose proof (decorate_text (n1 :: ns) [] ltac:(discriminate)) as DT. cbn [app] in DT.
    assert (NE : joinb (n1 :: ns) <> []).
    { apply joinb_nonempty; [discriminate|]. apply Forall_forall. intros x Hx. destruct (Htr x Hx) as [T _]. apply (trimmed_ends x T). }
    assert (Em : match joinb (n1 :: ns) with [] => s_NULL | _ => joinb (n1 :: ns) end = pieces_text (decorate [] (n1 :: ns))).
    { rewrite DT. destruct (joinb (n1 :: ns)); [congruence|reflexivity]. }
    rewrite Em.
    destruct (C36_flags_set e cls id t tab (decorate [] (n1 :: ns)) (bit_list w 0 (8 * n)) mem) as (new & bits & E & R & B0 & B);
      try assumption.
    + destruct ns; discriminate.
    + apply decorate_ok; [exact Htr|constructor].
    + pose proof (decorate_names (n1 :: ns) []) as DN. revert Hpairs.
      generalize dependent (decorate [] (n1 :: ns)). intros ps _ _ DN. revert DN. generalize (n1 :: ns). clear.
      intros l E F. subst l. remember (map (fun p => snd (fst p)) ps) as l eqn:El. revert ps El.
      induction F as [|x y l l' H F IH]; intros ps El; destruct ps as [|p ps]; try discriminate El; [constructor|].
      cbn [map] in El. injection El as -> El. constructor; [exact H|]. apply IH. exact El.
    + apply Forall_forall. intros i Hi. apply bit_list_in in Hi. lia.
    + rewrite E. f_equal. f_equal. apply (replaced_same mem (Z.to_nat (offset t)) n); [exact Hin|].
      fold n in R. assert (Eb : bits = w).
      { apply Z.bits_inj'. intros i Hi. specialize (B i Hi). rewrite bit_list_in in B.
        destruct (Z.testbit w i) eqn:Ew, (Z.testbit bits i) eqn:Eb; try reflexivity.
        - exfalso. assert (i < 8 * subSize t) by (destruct (Z.lt_ge_cases i (8 * subSize t)); [assumption|rewrite (testbit_above (8 * subSize t)) in Ew by lia; discriminate]).
          assert (X : false = true) by (apply B; split; [lia|reflexivity]). discriminate X.
        - exfalso. assert (X : 0 <= i < 0 + Z.of_nat (8 * n) /\ false = true) by (apply B; reflexivity). destruct X; discriminate. }
      rewrite Eb in R. unfold w in R. rewrite <- Hlen in R at 1.
      rewrite le_bytes_value in R by (apply bytes_at_ok; assumption). exact R.
Qed.

(** Enumerators outside the member's width, and flags without a name, do not survive. *)
Definition ex_env : env := mkEnv (fun h => if h =? 7 then Some [([65], 0); ([66], 3); ([67], 2 ^ 64 - 1); ([68], 3)] else None)
  (fun _ _ old => (EInvalidFormat, old)) (fun _ _ => []).
Definition ex_enum := mkRefl REnum RNone 1 0 0 0 0 7.
Definition ex_flags := mkRefl REnumFlags RNone 1 0 0 0 0 7.
Theorem C36_negative_refuted :
  SetReflectedValue ex_env [ex_enum] 0 [67] [0] = Some (ENone, [255]) /\
  GetReflectedValue ex_env [ex_enum] 0 [255] = Some [].
Proof. split; reflexivity. Qed.
Theorem C36_unnamed_flag_refuted :
  GetReflectedValue ex_env [ex_flags] 0 [5] = Some [65; 32; 124; 32] /\
  SetReflectedValue ex_env [ex_flags] 0 [65; 32; 124; 32] [5] = Some (EEmptyInput, [1]).
Proof. split; reflexivity. Qed.
Theorem C36_large_flag_refuted : SetReflectedValue ex_env [ex_flags] 0 [67] [0] = None.
Proof. reflexivity. Qed.

Example C36_example :
  enums ex_env (typeHash ex_enum) = Some [([65], 0); ([66], 3); ([67], 2 ^ 64 - 1); ([68], 3)] /\
  SetReflectedValue ex_env [ex_enum] 0 [32; 68; 32] [9] = Some (ENone, [3]) /\
  GetReflectedValue ex_env [ex_enum] 0 [3] = Some [66] /\
  SetReflectedValue ex_env [ex_flags] 0 [66; 124; 32; 65] [9] = Some (ENone, [9]) /\
  GetReflectedValue ex_env [ex_flags] 0 [9] = Some [65; 32; 124; 32; 66].
Proof. repeat split. Qed.

Print Assumptions C34_signed.
Print Assumptions C34_unsigned.
Print Assumptions C34_malformed.
Print Assumptions C34_no_member.
Print Assumptions C34_bitfield.
Print Assumptions C34_bitfield_negative_refuted.
Print Assumptions C34_bitfield_malformed_refuted.
Print Assumptions C34_wide_bitfield_refuted.
Print Assumptions C34_newline_refuted.
Print Assumptions C35_integers.
Print Assumptions C35_integers_text.
Print Assumptions C35_unsigned_bits.
Print Assumptions C35_signed_bits_refuted.
Print Assumptions C35_bool.
Print Assumptions C36_set.
Print Assumptions C36_get.
Print Assumptions C36_round_trip.
Print Assumptions C36_refused.
Print Assumptions C36_flags_set.
Print Assumptions C36_flags_round_trip.
Print Assumptions C36_negative_refuted.
Print Assumptions C36_unnamed_flag_refuted.
Print Assumptions C36_large_flag_refuted.
