(** Proofs for C87. *)
From Verif Require Import Base Supercore_Model StringView_Model Bitfield_Model Reflector_Model Reflector_Spec
  Reflector_Proof Reflector_Fmt_Proof Reflector_Flags_Proof Reflector_Array_Proof Reflector_Props Reflector_Array_Props
  RefAccess_Model XmlRefl_Model XmlRefl_Spec XmlRefl_Names_Proof XmlRefl_Leaf_Proof XmlRefl_Bits_Proof XmlRefl_Proof XmlRefl_Props XmlAgain_Spec.

(** ** The shape of an object *)
Lemma object_mono (V V' : nat -> reflType -> nat -> Prop) (M M' : nat -> reflType -> Prop) reg len : (forall base t, (base <= len)%nat -> values V len base t -> M base t -> values V' len base t /\ M' base t) ->
  forall n own, object_of V M n reg own len -> object_of V' M' n reg own len.
Proof.
  intros H. induction n as [|n IH]; intros own W; [exact W|]. cbn [object_of] in *. destruct W as (D & B & W). split; [exact D|]. split; [exact B|].
  intros t Ht. destruct (W t Ht) as [W1 W2]. split.
  - intros Ho. destruct (W1 Ho) as (A1 & A2 & A3 & A4 & A5). repeat split; try assumption; try lia. intros o Hc. apply IH, A5, Hc.
  - intros N1 N2. destruct (W2 N1 N2) as [X Y]. apply H; assumption.
Qed.
Lemma values_mono (V V' : nat -> reflType -> nat -> Prop) len base t : (forall u addr, V base u addr -> V' base u addr) -> values V len base t -> values V' len base t.
Proof.
  intros H (Ho & [X|[(A & B & C & D & [(E & F)|(E & F & G & I & J)])|X]]); (split; [exact Ho|]).
  - left. auto.
  - right. left. repeat (split; [assumption|]). left. split; [exact E|]. auto.
  - right. left. repeat (split; [assumption|]). right. repeat (split; [assumption|]). auto.
  - right. right. exact X.
Qed.
(** the bits of every member are bits of the object *)
Lemma object_bits V M reg len : forall n own, object_of V M n reg own len ->
  object_of V (fun base t => M base t /\ forall k, member_bits t k -> Bits reg own (8 * base + k)%nat) n reg own len.
Proof.
  induction n as [|n IH]; intros own W; [exact W|]. cbn [object_of] in *. destruct W as (D & B & W). split; [exact D|]. split; [exact B|].
  intros t Ht. destruct (W t Ht) as [W1 W2]. split.
  - intros Ho. destruct (W1 Ho) as (A1 & A2 & A3 & A4 & A5). repeat split; try assumption; try lia. intros o Hc.
    eapply object_mono; [|apply IH, A5, Hc]. cbv beta. intros base u _ X [Y Z]. split; [exact X|]. split; [exact Y|]. intros k Hk.
    eapply bits_child; [exact Ht|exact Hc|]. apply Z. exact Hk.
  - intros N1 N2. destruct (W2 N1 N2) as [X Y]. split; [exact X|]. split; [exact Y|]. intros k Hk. apply (bits_member reg own t k); assumption.
Qed.

(** ** The same texts give the same document *)
Lemma save_elems_same f g n : forall s, (forall i, s <= i < s + Z.of_nat n -> f i = g i) -> save_elems f n s = save_elems g n s.
Proof. induction n as [|n IH]; intros s H; [reflexivity|]. cbn [save_elems]. rewrite H by lia. rewrite (IH (s + 1)) by (intros; apply H; lia). reflexivity. Qed.
Lemma save_loop_same c f g ts : forall i, (forall j t, nth_error ts j = Some t -> f t (i + j)%nat = g t (i + j)%nat) -> save_loop c f ts i = save_loop c g ts i.
Proof.
  induction ts as [|t ts IH]; intros i H; [reflexivity|]. cbn [save_loop]. pose proof (H 0%nat t eq_refl) as H0. rewrite Nat.add_0_r in H0. rewrite H0.
  rewrite (IH (S i)); [reflexivity|]. intros j u Hu. specialize (H (S j) u Hu). rewrite Nat.add_succ_r in H. exact H.
Qed.
Lemma save_same V e reg a a' len n own : object_of V (fun base t => GetReflectedValue e [t] 0 (skipn base a) = GetReflectedValue e [t] 0 (skipn base a')) n reg own len ->
  forall f, SaveKids f e reg own a = SaveKids f e reg own a'.
Proof.
  revert own. induction n as [|n IH]; intros own W f; [destruct W|]. destruct W as (Hd & Hb & W). destruct f as [|f]; [reflexivity|]. cbn [SaveKids]. cbv zeta.
  apply save_loop_same. intros i t Et. cbn [Nat.add]. destruct (W t (nth_error_In _ _ Et)) as [HO HL].
  destruct (described_id _ i t Hd Et) as [Ei En]. destruct (subclass_id _ i t Hd Et) as [Hsc Har].
  destruct (IsReflectedSubClass (xinfo (fst own)) (Z.of_nat i)) eqn:Esc.
  - pose proof (proj1 Hsc eq_refl) as Ho. destruct (HO Ho) as (H0 & Hsz & Hnum & Hreg & Hch). rewrite Har.
    destruct (reg (typeHash t)) as [kc|] eqn:Ereg; [|congruence].
    assert (HC : forall s k, 0 <= s < Z.max 1 (numItems t) -> (is_array t = true -> s < numItems t) -> (is_array t = false -> s = 0) -> XSub reg own (Z.of_nat i) s = Some k -> child reg own t k).
    { intros s k Hs Hs1 Hs2 E. unfold XSub in E. destruct own as [c base]. cbn [fst snd] in *. rewrite Ei in E.
      destruct (negb (s =? 0) && (numItems t <=? s)); [discriminate|].
      destruct Ho as [Ho|(Ha & Ho)].
      - assert (Na : match type t with RArray | RVector | RArrayClass => true | _ => false end = false) by (destruct Ho as [X|X]; rewrite X; reflexivity).
        rewrite Na in E. assert (E' : Some (kc, (base + nat_offset t + 0)%nat) = Some k) by (destruct Ho as [X|X]; rewrite X, Ereg in E; exact E). injection E' as <-.
        split; [exact Ereg|]. left. split; [exact Ho|]. cbn [snd]. unfold nat_offset. lia.
      - assert (Na : match type t with RArray | RVector | RArrayClass => true | _ => false end = true) by (destruct Ha as [X|X]; rewrite X; reflexivity).
        assert (Ia : is_array t = true) by (unfold is_array; destruct Ha as [X|X]; rewrite X; reflexivity).
        rewrite Na in E. assert (E' : Some (kc, (base + nat_offset t + Z.to_nat (s * subSize t))%nat) = Some k) by (destruct Ho as [X|X]; rewrite X, Ereg in E; exact E). injection E' as <-.
        split; [exact Ereg|]. right. split; [split; assumption|]. exists s. split; [specialize (Hs1 Ia); lia|]. cbn [snd]. unfold nat_offset. assert (0 <= s * subSize t) by nia. lia. }
    destruct (is_array t) eqn:Ea.
    + apply save_elems_same. intros s Hs. destruct (XSub reg own (Z.of_nat i) s) as [k|] eqn:Ex; [|reflexivity]. apply IH, Hch. apply (HC s); [lia|lia|congruence|exact Ex].
    + destruct (XSub reg own (Z.of_nat i) 0) as [k|] eqn:Ex; [|reflexivity]. apply IH, Hch. apply (HC 0); [lia|congruence|reflexivity|exact Ex].
  - assert (N1 : ~ is_object t) by (intros X; assert (false = true) by (apply Hsc; auto); discriminate).
    assert (N2 : ~ is_object_array t) by (intros X; assert (false = true) by (apply Hsc; auto); discriminate).
    destruct (HL N1 N2) as [_ Eq]. unfold GetAt, GetReflectedValue in *. rewrite Ei.
    assert (B1 : by_id [t] 0 = Some t) by reflexivity. rewrite B1 in Eq. rewrite Eq. reflexivity.
Qed.

(** ** Texts *)
Lemma skipn_bytes base addr n a : bytes_at addr n (skipn base a) = bytes_at (base + addr) n a.
Proof. unfold bytes_at. rewrite skipn_skipn. do 2 f_equal. lia. Qed.
Lemma load_same n addr a a' : length a = length a' -> bytes_at addr n a = bytes_at addr n a' -> load n addr a = load n addr a'.
Proof. intros L E. unfold load. rewrite L. unfold bytes_at in E. rewrite E. reflexivity. Qed.
Lemma single_local e t addr a a' : single_value e t addr a -> length a = length a' ->
  bytes_at addr (Z.to_nat (subSize t)) a = bytes_at addr (Z.to_nat (subSize t)) a' ->
  forall f, GetReflectedPrimitive f e t addr a = GetReflectedPrimitive f e t addr a'.
Proof.
  intros (Hin & H) L E f. pose proof (load_same _ _ _ _ L E) as Ld.
  destruct f; cbn [GetReflectedPrimitive]; destruct (type t) eqn:Ht; try contradiction; try (rewrite Ld; reflexivity);
    destruct H as (Hs & _); rewrite Hs in Ld; change (Z.to_nat 1) with 1%nat in Ld; rewrite Ld; reflexivity.
Qed.
Lemma list_same e t addr a a' f : listing t ->
  (forall i, (i < Z.to_nat (numItems t))%nat -> GetReflectedPrimitive f e (element_type t) (element_addr addr t i) a = GetReflectedPrimitive f e (element_type t) (element_addr addr t i) a') ->
  GetReflectedPrimitive (S f) e t addr a = GetReflectedPrimitive (S f) e t addr a'.
Proof.
  intros Hl H.
  assert (E : map (fun i => GetReflectedPrimitive f e (element_type t) (addr + Z.to_nat (subSize t * Z.of_nat i))%nat a) (seq 0 (Z.to_nat (numItems t))) =
              map (fun i => GetReflectedPrimitive f e (element_type t) (addr + Z.to_nat (subSize t * Z.of_nat i))%nat a') (seq 0 (Z.to_nat (numItems t)))).
  { apply map_ext_in. intros i Hi. apply in_seq in Hi. apply H. lia. }
  cbn [GetReflectedPrimitive]. destruct Hl as [T|[T|T]]; rewrite T; cbv zeta; rewrite E; reflexivity.
Qed.
Lemma field_same e t a a' : bytes_ok a -> bytes_ok a' -> length a = length a' -> type t = RBitMember -> subType t = RUnsigned ->
  0 <= offset t -> 1 <= subSize t <= 30 -> offset t + subSize t <= 64 -> inside 0 8 a ->
  (forall k, member_bits t k -> bit a' k = bit a k) ->
  forall f, GetReflectedPrimitive f e t 0 a = GetReflectedPrimitive f e t 0 a'.
Proof.
  intros Ha Ha' L Ht Hs Ho Hn Hp Hin H f.
  assert (W : bf_extract (word_of a) (offset t) (subSize t) = bf_extract (word_of a') (offset t) (subSize t)).
  { rewrite !bf_extract_eq by lia. apply Z.bits_inj'. intros k Hk. destruct (Z.lt_ge_cases k (subSize t)) as [C|C]; [|rewrite !Z.mod_pow2_bits_high by lia; reflexivity].
    rewrite !Z.mod_pow2_bits_low by lia. rewrite <- !Z.shiftr_div_pow2 by lia. rewrite !Z.shiftr_spec by lia.
    replace (k + offset t) with (Z.of_nat (Z.to_nat (k + offset t))) by lia. rewrite !word_bit by (assumption || lia). symmetry. apply H.
    unfold member_bits. rewrite Ht. lia. }
  assert (G : forall m, inside 0 8 m -> GetReflectedPrimitive f e t 0 m = Some (to_string (bf_extract (word_of m) (offset t) (subSize t)))).
  { intros m Hm. destruct f; cbn [GetReflectedPrimitive]; rewrite Ht, (load_ok 8 0 m Hm), GetMask_ok by lia; rewrite Hs; reflexivity. }
  rewrite (G a), (G a'), W; [reflexivity| |exact Hin]. unfold inside in *. lia.
Qed.
Lemma values_text (V : nat -> reflType -> nat -> Prop) e len base t a a' : values V len base t -> bytes_ok a -> bytes_ok a' ->
  length (skipn base a) = (len - base)%nat -> length (skipn base a') = (len - base)%nat ->
  (forall u addr, V base u addr -> type u <> RBitMember /\ forall f, GetReflectedPrimitive f e u addr (skipn base a) = GetReflectedPrimitive f e u addr (skipn base a')) ->
  (type t = RBitMember -> forall k, member_bits t k -> bit (skipn base a') k = bit (skipn base a) k) ->
  GetReflectedValue e [t] 0 (skipn base a) = GetReflectedValue e [t] 0 (skipn base a').
Proof.
  intros Hv Ba Ba' La La' HV HB. unfold GetReflectedValue. assert (B1 : by_id [t] 0 = Some t) by reflexivity. rewrite B1. clear B1.
  assert (Sk : forall m, bytes_ok m -> bytes_ok (skipn base m)). { intros m Hm. apply Forall_forall. intros x Hx. unfold bytes_ok in Hm. rewrite Forall_forall in Hm. apply Hm. apply skipn_In in Hx. exact Hx. }
  destruct Hv as (Ho & [X|[(A & B & C & D & X)|(A & B & C & D & X)]]).
  - destruct (HV _ _ X) as [Nb Eq]. assert (Ea : match type t with RBitMember => 0%nat | _ => nat_offset t end = Z.to_nat (offset t)) by (destruct (type t); (congruence || reflexivity)).
    rewrite Ea. apply Eq.
  - assert (Ea : match type t with RBitMember => 0%nat | _ => nat_offset t end = Z.to_nat (offset t)) by (destruct A as [-> | [-> | ->]]; reflexivity). rewrite Ea.
    apply list_same; [exact A|]. intros i Hi. rewrite <- element_of_type. destruct X as [(E & F)|(E & F & G & I & J)]; [apply HV, F, Hi|].
    assert (Lv : listing (element_of t)) by (unfold element_of; rewrite E; right; left; reflexivity).
    assert (Nv : numItems (element_of t) = dec_num (typeHash t)) by (unfold element_of; rewrite E; reflexivity).
    apply list_same; [exact Lv|]. intros j Hj. rewrite Nv in Hj. rewrite <- element_of_type. apply HV, J; assumption.
  - rewrite A. apply field_same; try assumption; try (apply Sk; assumption); [lia|unfold inside; lia|apply HB; exact A].
Qed.

(** ** Settled objects *)
Lemma settled_single e t addr a a' : length a = length a' -> settled_value e t addr a a' -> single_value e t addr a'.
Proof.
  intros L H. unfold settled_value in H. destruct (type t) eqn:Ht; try (destruct H as [(Hin & H) E]; unfold single_value in *; rewrite Ht in *; unfold value_at in *; try contradiction;
    (split; [unfold inside in *; lia|]); try rewrite E; try exact H).
  - destruct H as (Hs & Hin & P & Q & R & S). unfold single_value. rewrite Ht. split; [unfold inside in *; lia|]. split; [exact Hs|]. cbv zeta in *. rewrite S. repeat split; try assumption; apply P.
  - destruct H as (Hs & H). split; [exact Hs|]. rewrite Hs in E. change (Z.to_nat 1) with 1%nat in E. rewrite E. exact H.
Qed.
Lemma settled_text e t addr a a' : length a = length a' -> settled_value e t addr a a' ->
  type t <> RBitMember /\ forall f, GetReflectedPrimitive f e t addr a = GetReflectedPrimitive f e t addr a'.
Proof.
  intros L H. split.
  - intros Hb. unfold settled_value in H. rewrite Hb in H. destruct H as [(_ & H) _]. rewrite Hb in H. exact H.
  - intros f. unfold settled_value in H. destruct (type t) eqn:Ht; try (destruct H as [H E]; apply single_local; [exact H|exact L|symmetry; exact E]).
    destruct H as (Hs & Hin & P & Q & R & S). assert (Hin' : inside addr (Z.to_nat (subSize t)) a') by (unfold inside in *; lia).
    assert (C : (subSize t =? 4) || (subSize t =? 8) = true) by (destruct Hs as [-> | ->]; reflexivity).
    destruct f; cbn [GetReflectedPrimitive]; rewrite Ht, C, (load_ok _ _ _ Hin), (load_ok _ _ _ Hin'); cbn [option_map]; f_equal; symmetry; exact S.
Qed.
Lemma object_writable n e reg own a (M : nat -> reflType -> Prop) : (forall base t, M base t -> short_text e a base t) ->
  object_of (fun base t addr => single_value e t addr (skipn base a)) M n reg own (length a) -> writable n e reg own a.
Proof.
  intros HM. revert own. induction n as [|n IH]; intros own W; [exact W|]. cbn [object_of writable] in *. destruct W as (D & B & W). split; [exact D|]. split; [exact B|].
  intros t Ht. destruct (W t Ht) as [W1 W2]. split.
  - intros Ho. destruct (W1 Ho) as (A1 & A2 & A3 & A4 & A5). repeat split; try assumption; try lia. intros o Hc. apply IH, A5, Hc.
  - intros N1 N2. destruct (W2 N1 N2) as [(Ho & X) Y]. split; [|apply HM; exact Y]. split; [exact Ho|]. destruct X as [X|[(A & C & E & F & X)|(A & C & E & F & X)]].
    + left. exact X.
    + right. left. repeat (split; [assumption|]). split; [unfold inside; rewrite skipn_length; lia|exact X].
    + right. right. repeat (split; [assumption|]). unfold inside. rewrite skipn_length. lia.
Qed.
Lemma writable_object n e reg own a : writable n e reg own a ->
  object_of (fun base t addr => single_value e t addr (skipn base a)) (short_text e a) n reg own (length a).
Proof.
  revert own. induction n as [|n IH]; intros own W; [exact W|]. cbn [object_of writable] in *. destruct W as (D & B & W). split; [exact D|]. split; [exact B|].
  intros t Ht. destruct (W t Ht) as [W1 W2]. split.
  - intros Ho. destruct (W1 Ho) as (A1 & A2 & A3 & A4 & A5). repeat split; try assumption; try lia. intros o Hc. apply IH, A5, Hc.
  - intros N1 N2. destruct (W2 N1 N2) as [(Ho & X) Y]. split; [|exact Y]. split; [exact Ho|]. destruct X as [X|[(A & C & E & F & X)|(A & C & E & F & X)]].
    + left. exact X.
    + right. left. repeat (split; [assumption|]). split; [unfold inside in F; rewrite skipn_length in F; lia|exact X].
    + right. right. repeat (split; [assumption|]). unfold inside in X. rewrite skipn_length in X. lia.
Qed.

Lemma settled_same n e reg own a a' : settled n e reg own a a' -> bytes_ok a -> bytes_ok a' -> length a' = length a ->
  writable n e reg own a' /\ forall f, SaveKids f e reg own a = SaveKids f e reg own a'.
Proof.
  intros W Ba Ba' L. unfold settled in W.
  assert (T : forall base t, (base <= length a)%nat -> values (fun base t addr => settled_value e t addr (skipn base a) (skipn base a')) (length a) base t ->
    (type t = RBitMember -> forall k, member_bits t k -> bit (skipn base a') k = bit (skipn base a) k) ->
    GetReflectedValue e [t] 0 (skipn base a) = GetReflectedValue e [t] 0 (skipn base a')).
  { intros base t Hb Hv Hm. eapply values_text; [exact Hv|exact Ba|exact Ba'|apply skipn_length|rewrite skipn_length, L; reflexivity| |exact Hm].
    intros u addr Hu. apply settled_text; [rewrite !skipn_length, L; reflexivity|exact Hu]. }
  split.
  - apply object_writable with (M := short_text e a'); [auto|]. rewrite L. eapply object_mono; [|exact W]. cbv beta. intros base t Hb Hv [Hs Hm]. split.
    + eapply values_mono; [|exact Hv]. cbv beta. intros u addr Hu. eapply settled_single; [|exact Hu]. rewrite !skipn_length, L. reflexivity.
    + intros s Es. apply Hs. rewrite (T base t Hb Hv Hm). exact Es.
  - apply (save_same (fun base t addr => settled_value e t addr (skipn base a) (skipn base a')) e reg a a' (length a) n). eapply object_mono; [|exact W]. cbv beta. intros base t Hb Hv [Hs Hm]. split; [exact Hv|]. apply T; assumption.
Qed.

Lemma bits_bytes (m m' : list Z) i : bytes_ok m -> bytes_ok m' -> (forall k, (8 * i <= k < 8 * (i + 1))%nat -> bit m' k = bit m k) -> nth i m' 0 = nth i m 0.
Proof.
  intros Hm Hm' H. apply Z.bits_inj'. intros j Hj.
  assert (Hbyte : forall l, bytes_ok l -> 0 <= nth i l 0 < 2 ^ 8).
  { intros l Hl. destruct (Nat.lt_ge_cases i (length l)); [|rewrite nth_overflow by lia; lia]. unfold bytes_ok in Hl. rewrite Forall_forall in Hl. apply (Hl (nth i l 0)). apply nth_In. assumption. }
  destruct (Z.lt_ge_cases j 8) as [J|J].
  - specialize (H (8 * i + Z.to_nat j)%nat ltac:(lia)). unfold bit in H.
    assert (D : ((8 * i + Z.to_nat j) / 8 = i)%nat) by (symmetry; apply Nat.div_unique with (r := Z.to_nat j); lia).
    assert (R : ((8 * i + Z.to_nat j) mod 8 = Z.to_nat j)%nat) by (symmetry; apply Nat.mod_unique with (q := i); lia).
    rewrite D, R, Z2Nat.id in H by lia. exact H.
  - rewrite <- (Z.mod_small (nth i m' 0) (2 ^ 8)), <- (Z.mod_small (nth i m 0) (2 ^ 8)) by (apply Hbyte; assumption). rewrite !Z.mod_pow2_bits_high by lia. reflexivity.
Qed.
Lemma bits_range (m m' : list Z) addr n : bytes_ok m -> bytes_ok m' -> length m = length m' -> inside addr n m ->
  (forall k, (8 * addr <= k < 8 * (addr + n))%nat -> bit m' k = bit m k) -> bytes_at addr n m = bytes_at addr n m'.
Proof.
  intros Hm Hm' L Hin H. apply nth_ext with (d := 0) (d' := 0); [rewrite !bytes_at_length; [reflexivity|unfold inside in *; lia|exact Hin]|].
  intros i Hi. rewrite bytes_at_length in Hi by exact Hin. rewrite !bytes_at_nth by exact Hi. symmetry. apply bits_bytes; [assumption|assumption|]. intros k Hk. apply H. lia.
Qed.
Lemma skipn_bit base a k : bit (skipn base a) k = bit a (8 * base + k).
Proof.
  unfold bit. rewrite nth_skipn. assert (D : ((8 * base + k) / 8 = base + k / 8)%nat) by (replace (8 * base + k)%nat with (k + base * 8)%nat by lia; rewrite Nat.div_add by lia; lia).
  assert (R : ((8 * base + k) mod 8 = k mod 8)%nat) by (replace (8 * base + k)%nat with (k + base * 8)%nat by lia; apply Nat.mod_add; lia). rewrite D, R. reflexivity.
Qed.
(** the texts of a member depend on its bits only *)
Lemma member_local e base t a b : (base <= length a)%nat -> values (fun base t addr => single_value e t addr (skipn base a)) (length a) base t ->
  bytes_ok a -> bytes_ok b -> length b = length a -> (forall k, member_bits t k -> bit b (8 * base + k) = bit a (8 * base + k)) ->
  GetReflectedValue e [t] 0 (skipn base a) = GetReflectedValue e [t] 0 (skipn base b).
Proof.
  intros Hb Hv Ba Bb L H.
  assert (Sk : forall m, bytes_ok m -> bytes_ok (skipn base m)). { intros m Hm. apply Forall_forall. intros x Hx. unfold bytes_ok in Hm. rewrite Forall_forall in Hm. apply Hm. apply skipn_In in Hx. exact Hx. }
  assert (Ls : length (skipn base a) = length (skipn base b)) by (rewrite !skipn_length; lia).
  (* the values in the bytes of this member *)
  set (V := fun (bs : nat) u addr => single_value e u addr (skipn base a) /\ 0 <= subSize u /\ forall k, (8 * addr <= k < 8 * (addr + Z.to_nat (subSize u)))%nat -> member_bits t k).
  assert (Sz : forall u addr m, single_value e u addr m -> 0 <= subSize u) by (intros u addr m (_ & X); destruct (type u); try contradiction; lia).
  assert (Hv' : values V (length a) base t).
  { destruct Hv as (Ho & X). split; [exact Ho|]. destruct X as [X|[(A & B & C & D & X)|X]].
    - left. split; [exact X|]. split; [eapply Sz; exact X|]. intros k Hk. pose proof (Sz _ _ _ X) as S0. destruct X as (_ & Ty). unfold member_bits. destruct (type t); try contradiction; lia.
    - right. left. repeat (split; [assumption|]).
      assert (MB : forall k, (8 * Z.to_nat (offset t) <= k < 8 * (Z.to_nat (offset t) + Z.to_nat (numItems t * subSize t)))%nat -> member_bits t k).
      { intros k Hk. unfold member_bits. assert (0 <= numItems t * subSize t) by nia. destruct A as [-> | [-> | ->]]; lia. }
      destruct X as [(E & F)|(E & F & G & I & J)].
      + left. split; [exact E|]. intros i Hi. split; [apply F; exact Hi|]. assert (Es : subSize (element_of t) = subSize t) by (unfold element_of; destruct (subType t); (congruence || reflexivity)).
        rewrite Es. split; [exact C|]. intros k Hk. apply MB. unfold element_addr in Hk.
        assert (0 <= subSize t * Z.of_nat i /\ subSize t * Z.of_nat i + subSize t <= numItems t * subSize t) by nia. lia.
      + right. repeat (split; [assumption|]). intros i j Hi Hj. split; [apply J; assumption|].
        assert (Es : subSize (element_of t) = dec_size (typeHash t)) by (unfold element_of; rewrite E; reflexivity).
        assert (Es2 : subSize (element_of (element_of t)) = dec_size (typeHash t)).
        { unfold element_of at 1. unfold element_of. rewrite E. cbn [subType]. destruct (dec_type (typeHash t)); (congruence || reflexivity). }
        pose proof (Sz _ _ _ (J i j Hi Hj)) as S0. split; [exact S0|]. rewrite Es2 in *. intros k Hk. apply MB. unfold element_addr in Hk. rewrite Es in Hk.
        set (ds := dec_size (typeHash t)) in *. set (dn := dec_num (typeHash t)) in *.
        assert (0 <= subSize t * Z.of_nat i /\ subSize t * Z.of_nat i + subSize t <= numItems t * subSize t) by nia.
        assert (0 <= ds * Z.of_nat j /\ ds * Z.of_nat j + ds <= subSize t) by nia. lia.
    - right. right. exact X. }
  eapply values_text; [exact Hv'|exact Ba|exact Bb|apply skipn_length|rewrite skipn_length, L; reflexivity| |].
  - intros u addr (Su & S0 & Hk). split; [destruct Su as (_ & Ty); destruct (type u); try contradiction; discriminate|].
    apply single_local; [exact Su|exact Ls|]. apply bits_range; [apply Sk; exact Ba|apply Sk; exact Bb|exact Ls|apply Su|].
    intros k K. rewrite !skipn_bit. apply H, Hk, K.
  - intros _ k Hk. rewrite !skipn_bit. apply H, Hk.
Qed.

(** what was loaded is saved as it was *)
Lemma copied_same n e reg own a b b' : writable n e reg own a -> bytes_ok a -> bytes_ok b' -> length b = length a -> copied (Bits reg own) a b b' ->
  forall f, SaveKids f e reg own b' = SaveKids f e reg own a.
Proof.
  intros W Ba Bb L [Lb C] f. symmetry. apply writable_object, object_bits in W.
  apply (save_same (fun base t addr => single_value e t addr (skipn base a)) e reg a b' (length a) n). eapply object_mono; [|exact W]. cbv beta. intros base t Hb Hv [_ Hk]. split; [exact Hv|].
  apply member_local; try assumption; [lia|]. intros k Hm. destruct (C (8 * base + k)%nat) as [[_ E]|[N _]]; [exact E|]. exfalso. apply N, Hk, Hm.
Qed.
