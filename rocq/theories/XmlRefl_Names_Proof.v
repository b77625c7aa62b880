(** Names of elements and what the reader makes of them. *)
From Verif Require Import Base Jenkins_Model FileInfo_Model StringView_Model Reflector_Model Reflector_Spec
  Reflector_Proof Reflector_Fmt_Proof RefAccess_Model XmlRefl_Model XmlRefl_Spec.

Lemma hex_digits_ok : forall f x, 0 <= x < 16 ^ Z.of_nat f -> (1 <= f)%nat -> digits 16 (hex_digits f x) x.
Proof.
  assert (D : forall d, 0 <= d < 16 -> is_digit 16 (hex_char d) d).
  { intros d Hd. unfold is_digit, hex_char. destruct (Z.ltb_spec d 10); lia. }
  induction f as [|f IH]; intros x Hx Hf; [lia|]. cbn [hex_digits]. destruct (Z.ltb_spec x 16).
  - constructor. apply D. lia.
  - rewrite Nat2Z.inj_succ, Z.pow_succ_r in Hx by lia.
    replace x with ((x / 16) * 16 + x mod 16) at 3 by lia.
    apply digits_more.
    + apply IH; [lia|]. destruct f; [cbn in Hx; lia|lia].
    + apply D. lia.
Qed.
Lemma digits_strto base ds v : base = 10 \/ base = 16 -> digits base ds v -> strto base ds = Some (false, v).
Proof.
  intros Hb Hd. destruct (digits_head _ _ _ Hd) as (c & r & d & E & Hc).
  pose proof (digit_no_space _ _ _ Hc) as (N1 & N2 & N3 & _). pose proof (digits_all _ _ _ Hd) as Ha.
  assert (Es : strip_hex base ds = ds).
  { destruct ds as [|z [|x [|y l]]]; try reflexivity. cbn [strip_hex].
    assert (Nx : (x =? 120) || (x =? 88) = false).
    { inversion Ha as [|? ? _ Ha2]; subst. inversion Ha2 as [|? ? [q Hq] _]; subst. unfold is_digit in Hq. lia. }
    rewrite Nx. rewrite !andb_false_r. reflexivity. }
  rewrite E. rewrite strto_unsigned by assumption. rewrite <- E, Es. rewrite <- (app_nil_r ds).
  rewrite (scan_literal base ds v []) by (try assumption; exact I). reflexivity.
Qed.

Lemma c_string_id s : Forall (fun c => c <> 0) s -> forall z, c_string (s ++ repeat 0 z) = s.
Proof.
  intros F z. induction F as [|c s Hc F IH]; [destruct z; reflexivity|]. cbn [app c_string].
  destruct (Z.eqb_spec c 0); [contradiction|]. rewrite IH. reflexivity.
Qed.
Lemma hash_name_read h : 0 <= h < 2 ^ 32 -> MakeHash (c_string (hash_name h)) = h.
Proof.
  intros H. assert (D : digits 16 (hex_digits 8 h) h) by (apply hex_digits_ok; [change (16 ^ Z.of_nat 8) with (2 ^ 32)|]; lia).
  unfold hash_name, pad15. rewrite c_string_id.
  - cbn [app MakeHash]. unfold strtoull. rewrite (digits_strto 16 _ h) by auto. change (2 ^ 32) with 4294967296 in H.
    destruct (Z.leb_spec (2 ^ 64) h) as [X|X]; [change (2 ^ 64) with 18446744073709551616 in X; lia|]. apply wrap_small. change (2 ^ 32) with 4294967296. lia.
  - apply Forall_app. split; [repeat constructor; lia|]. eapply Forall_impl; [|apply (digits_all _ _ _ D)]. cbn beta.
    intros c [d Hd]. unfold is_digit in Hd. lia.
Qed.
Lemma word_read n : word n -> c_string n = n /\ MakeHash n = jenkins 64 n.
Proof.
  intros [_ F]. split.
  - rewrite <- (app_nil_r n) at 1. change (@nil Z) with (repeat 0 0). apply c_string_id. eapply Forall_impl; [|exact F]. cbn beta. intros; lia.
  - unfold MakeHash. inversion F as [|c r Hc F1]; [reflexivity|]; subst. inversion F1 as [|d r' Hd F2]; subst.
    + destruct c as [|c|c]; try reflexivity. do 8 (try (destruct c as [c|c|]; try reflexivity)).
    + assert (Hd' : d <> 58) by lia. clear - Hd'.
      destruct c as [|c|c]; try reflexivity. do 8 (try (destruct c as [c|c|]; try reflexivity)).
      destruct d as [|d|d]; try reflexivity. do 8 (try (destruct d as [d|d|]; try reflexivity)). lia.
Qed.
Lemma atoll_to_string s : 0 <= s < 2 ^ 63 -> u64 (atoll (to_string s)) = s.
Proof.
  intros H. unfold atoll, to_string. destruct (Z.ltb_spec s 0); [lia|].
  assert (D : digits 10 (dec_digits 20 s) s) by (apply dec_digits_ok; [change (10 ^ Z.of_nat 20) with 100000000000000000000; change (2 ^ 63) with 9223372036854775808 in H|]; lia).
  rewrite (digits_strto 10 _ s (or_introl eq_refl) D).
  destruct (Z.leb_spec (2 ^ 63) s); [lia|]. unfold u64. apply wrap_small. change (2 ^ 64) with (2 * 2 ^ 63). lia.
Qed.

(** members of a described class *)
Lemma described_name c i t : described c -> nth_error (xTypes c) i = Some t ->
  exists nm, GetName c t i = Some nm /\ MakeHash (c_string nm) = nameHash t.
Proof.
  intros (Hd & Hi & _ & Hn) Et. destruct (Hi i t Et) as [_ Hh]. unfold GetName. destruct (xNames c) as [ns|].
  - destruct Hn as (Hl & Hw & Hm). destruct (nth_error ns i) as [nm|] eqn:En.
    + exists nm. split; [reflexivity|]. rewrite Forall_forall in Hw. destruct (word_read nm (Hw _ (nth_error_In _ _ En))) as [-> ->].
      pose proof (f_equal (fun l => nth_error l i) Hm) as E. cbn beta in E. rewrite !nth_error_map, En, Et in E. cbn [option_map] in E. congruence.
    + apply nth_error_None in En. assert (i < length (xTypes c))%nat by (apply nth_error_Some; congruence). lia.
  - exists (hash_name (nameHash t)). split; [reflexivity|]. apply hash_name_read. exact Hh.
Qed.
Lemma find_nodup ts i t : NoDup (map nameHash ts) -> nth_error ts i = Some t -> find (fun u => nameHash u =? nameHash t) ts = Some t.
Proof.
  revert i. induction ts as [|u ts IH]; intros i Hd Et; [destruct i; discriminate|]. cbn [map find] in *. inversion Hd; subst.
  destruct i as [|i]; [injection Et as ->; rewrite Z.eqb_refl; reflexivity|]. cbn [nth_error] in Et.
  destruct (Z.eqb_spec (nameHash u) (nameHash t)) as [E|_].
  - exfalso. apply H1. rewrite E. apply in_map. apply (nth_error_In _ _ Et).
  - apply (IH i); assumption.
Qed.
Lemma described_type c i t : described c -> nth_error (xTypes c) i = Some t -> GetReflectedType (xinfo c) (nameHash t) = Some t.
Proof.
  intros (Hd & _) Et. unfold GetReflectedType, by_hash. cbn [xinfo iTypes]. rewrite (find_nodup _ i t) by assumption. reflexivity.
Qed.
Lemma described_id c i t : described c -> nth_error (xTypes c) i = Some t -> by_id (xTypes c) (Z.of_nat i) = Some t /\ ID t = Z.of_nat i.
Proof.
  intros (_ & Hi & _) Et. split; [|apply (Hi i t Et)]. unfold by_id.
  assert (i < length (xTypes c))%nat by (apply nth_error_Some; congruence).
  destruct (Z.leb_spec 0 (Z.of_nat i)); [|lia]. destruct (Z.ltb_spec (Z.of_nat i) (Z.of_nat (length (xTypes c)))); [|lia].
  cbn [andb]. rewrite Nat2Z.id. exact Et.
Qed.
