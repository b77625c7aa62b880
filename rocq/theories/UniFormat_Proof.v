(** Lemmas for C47-C49. *)
From Coq Require Import Floats.SpecFloat.
From Verif Require Import Base Float_Model Float_Proof HalfFloat_Model HalfFloat_Spec HalfFloat_Proof Vector_Model Vector_Spec Vector_Proof Float_Mul_Proof UniFormat_Model UniFormat_Spec.

(** *** Fields of little-endian words *)
Definition word (n : nat) (mem : list Z) : Z := le_value (firstn n mem).
Lemma pow256_2 n : 256 ^ Z.of_nat n = 2 ^ (8 * Z.of_nat n).
Proof. change 256 with (2 ^ 8). rewrite <- Z.pow_mul_r by lia. reflexivity. Qed.
Lemma word_range n mem : bytes_ok mem -> (n <= length mem)%nat -> 0 <= word n mem < 2 ^ (8 * Z.of_nat n).
Proof.
  intros B L. unfold word. rewrite <- pow256_2. replace n with (length (firstn n mem)) at 3 by (rewrite firstn_length; lia).
  apply le_value_bound. unfold bytes_ok in *. rewrite Forall_forall in *. intros x Hx. apply B. rewrite <- (firstn_skipn n mem). apply in_or_app. now left.
Qed.
Lemma bytes_skipn n mem : bytes_ok mem -> bytes_ok (skipn n mem).
Proof. unfold bytes_ok. rewrite !Forall_forall. intros B x Hx. apply B. rewrite <- (firstn_skipn n mem). apply in_or_app. now right. Qed.
Lemma word_split n m mem : (n <= m)%nat -> (m <= length mem)%nat -> word m mem = word n mem + 2 ^ (8 * Z.of_nat n) * word (m - n) (skipn n mem).
Proof.
  intros Hnm Hm. unfold word. rewrite <- pow256_2. rewrite <- (firstn_skipn n (firstn m mem)), le_value_app.
  rewrite firstn_firstn, Nat.min_l by lia. rewrite firstn_length, Nat.min_l by lia. rewrite firstn_skipn_comm. replace (n + (m - n))%nat with m by lia. reflexivity.
Qed.
Lemma div_mod_low V a b k w : 0 <= k -> 0 <= w -> k + w <= b -> V = a + 2 ^ b * (V / 2 ^ b) -> (V / 2 ^ k) mod 2 ^ w = (a / 2 ^ k) mod 2 ^ w.
Proof.
  intros Hk Hw Hb E. set (h := V / 2 ^ b) in *. clearbody h. rewrite E.
  replace b with (k + (w + (b - k - w))) by lia. rewrite !Z.pow_add_r by lia.
  replace (a + 2 ^ k * (2 ^ w * 2 ^ (b - k - w)) * h) with (a + 2 ^ w * (2 ^ (b - k - w) * h) * 2 ^ k) by ring.
  rewrite Z.div_add by (apply Z.pow_nonzero; lia). replace (2 ^ w * (2 ^ (b - k - w) * h)) with (2 ^ (b - k - w) * h * 2 ^ w) by ring. apply Z.mod_add. apply Z.pow_nonzero; lia.
Qed.
Lemma word_field_low n m mem k w : bytes_ok mem -> (n <= m)%nat -> (m <= length mem)%nat -> 0 <= k -> 0 <= w -> k + w <= 8 * Z.of_nat n ->
  (word m mem / 2 ^ k) mod 2 ^ w = (word n mem / 2 ^ k) mod 2 ^ w.
Proof.
  intros B Hnm Hm Hk Hw Hb. apply div_mod_low with (b := 8 * Z.of_nat n); try lia.
  pose proof (word_range n mem B ltac:(lia)) as R. rewrite (word_split n m mem Hnm Hm) at 1 2. f_equal. f_equal.
  rewrite Z.mul_comm, Z.div_add by (apply Z.pow_nonzero; lia). rewrite Z.div_small by exact R. reflexivity.
Qed.
Lemma chunk size off tot mem : bytes_ok mem -> (off + size <= tot)%nat -> (tot <= length mem)%nat ->
  word size (skipn off mem) = (word tot mem / 2 ^ (8 * Z.of_nat off)) mod 2 ^ (8 * Z.of_nat size).
Proof.
  intros B H Ht. rewrite (word_split off tot mem) by lia. pose proof (word_range off mem B ltac:(lia)) as R.
  rewrite Z.mul_comm, Z.div_add by (apply Z.pow_nonzero; lia). rewrite Z.div_small by exact R. rewrite Z.add_0_l.
  pose proof (word_field_low size (tot - off) (skipn off mem) 0 (8 * Z.of_nat size) (bytes_skipn off mem B) ltac:(lia)) as F.
  rewrite skipn_length in F. specialize (F ltac:(lia) ltac:(lia) ltac:(lia) ltac:(lia)). change (2 ^ 0) with 1 in F. rewrite !Z.div_1_r in F. rewrite F.
  symmetry. apply Z.mod_small. apply word_range; [now apply bytes_skipn|rewrite skipn_length; lia].
Qed.
Lemma rd_ok n mem : (n <= length mem)%nat -> rd n mem = Some (word n mem).
Proof. intros H. unfold rd. apply Nat.leb_le in H. now rewrite H. Qed.
Lemma rd_none n mem : rd n mem = None <-> (length mem < n)%nat.
Proof. unfold rd. destruct (Nat.leb_spec n (length mem)); split; intros; try discriminate; try lia; reflexivity. Qed.
Lemma rdv_ok size count mem : (size * count <= length mem)%nat ->
  rdv size count mem = Some (map (fun i => word size (skipn (size * i) mem)) (seq 0 count)).
Proof. intros H. unfold rdv. apply Nat.leb_le in H. now rewrite H. Qed.

(** *** Lanes *)
Lemma shr_field w k s : 0 <= w -> 0 <= k <= s -> s < 32 -> Z.shiftr (wrap 32 (w * 2 ^ k)) s = (w / 2 ^ (s - k)) mod 2 ^ (32 - s).
Proof.
  intros Hw Hk Hs. rewrite Z.shiftr_div_pow2 by lia. unfold wrap.
  replace 32 with (k + (32 - k)) at 1 by lia. rewrite Z.pow_add_r by lia. rewrite (Z.mul_comm w), Zmult_mod_distr_l.
  replace (2 ^ s) with (2 ^ k * 2 ^ (s - k)) by (rewrite <- Z.pow_add_r by lia; f_equal; lia).
  rewrite Z.div_mul_cancel_l by (apply Z.pow_nonzero; lia).
  replace (32 - k) with ((s - k) + (32 - s)) by lia. rewrite Z.pow_add_r by lia.
  rewrite Z.rem_mul_r by (try apply Z.pow_nonzero; try apply pow2_pos; lia).
  rewrite (Z.mul_comm (2 ^ (s - k))), Z.div_add by (apply Z.pow_nonzero; lia).
  rewrite Z.div_small by (apply Z.mod_pos_bound, pow2_pos; lia). lia.
Qed.
Lemma sar_shl r k : 0 <= k < 32 -> Z.shiftr (sgn 32 (wrap 32 (r * 2 ^ k))) k = sgn (32 - k) r.
Proof.
  intros Hk. rewrite wrap_sgn by lia. unfold sgn, wrap. cbv zeta.
  set (n := 32 - k). assert (E : 2 ^ 32 = 2 ^ n * 2 ^ k) by (rewrite <- Z.pow_add_r by lia; f_equal; lia).
  rewrite E, Zmult_mod_distr_r. assert (P := pow2_pos k ltac:(lia)).
  replace (2 ^ (32 - 1)) with (2 ^ (n - 1) * 2 ^ k) by (rewrite <- Z.pow_add_r by lia; f_equal; lia).
  replace (r mod 2 ^ n * 2 ^ k <? 2 ^ (n - 1) * 2 ^ k) with (r mod 2 ^ n <? 2 ^ (n - 1)).
  - rewrite Z.shiftr_div_pow2 by lia. destruct (_ <? _).
    + apply Z.div_mul. lia.
    + rewrite <- Z.mul_sub_distr_r. apply Z.div_mul. lia.
  - set (x := r mod 2 ^ n) in *. set (y := 2 ^ (n - 1)). destruct (Z.ltb_spec x y) as [L|L]; symmetry.
    + apply Z.ltb_lt. apply Z.mul_lt_mono_pos_r; lia.
    + apply Z.ltb_ge. apply Z.mul_le_mono_nonneg_r; lia.
Qed.
Lemma sgn_sword n m x : 1 <= n <= m -> is_sword m (sgn n x).
Proof.
  intros H. pose proof (sgn_range n x ltac:(lia)) as R. unfold is_sword in *.
  assert (2 ^ (n - 1) <= 2 ^ (m - 1)) by (apply Z.pow_le_mono_r; lia). lia.
Qed.

(** *** Components *)
Lemma component_none d mem i : (length (layout d) <= i)%nat -> component d mem i = 0.
Proof. intros H. unfold component, width. rewrite (nth_overflow (layout d)) by exact H. change (2 ^ 0) with 1. apply Z.mod_1_r. Qed.
Lemma layout_fits d i : 0 <= sum (firstn i (layout d)) /\ 0 <= width d i <= 32 /\ sum (firstn i (layout d)) + width d i <= 8 * Z.of_nat (element_size d).
Proof. destruct d; destruct i as [|[|[|[|[|i]]]]]; vm_compute; intuition congruence. Qed.
Lemma width_pos d i : (i < length (layout d))%nat -> 1 <= width d i.
Proof. destruct d; destruct i as [|[|[|[|i]]]]; cbn; lia. Qed.
Lemma layout_length d : (length (layout d) <= 4)%nat.
Proof. destruct d; cbn; lia. Qed.
Lemma component_range d mem i : 0 <= component d mem i < 2 ^ width d i.
Proof. unfold component. apply Z.mod_pos_bound, pow2_pos. apply layout_fits. Qed.
Lemma component_at d mem i m : bytes_ok mem -> (element_size d <= m)%nat -> (m <= length mem)%nat ->
  component d mem i = (word m mem / 2 ^ sum (firstn i (layout d))) mod 2 ^ width d i.
Proof.
  intros B H Hm. pose proof (layout_fits d i) as (A1 & A2 & A3). unfold component. fold (word (element_size d) mem). symmetry.
  apply word_field_low; auto; lia.
Qed.
Definition components (d : dtype) (mem : list Z) : list Z := map (component d mem) [0; 1; 2; 3]%nat.
Lemma wrap_mod32 x w : 0 <= w <= 32 -> wrap 32 (x mod 2 ^ w) = x mod 2 ^ w.
Proof.
  intros H. apply wrap_small. pose proof (Z.mod_pos_bound x (2 ^ w) (pow2_pos w ltac:(lia))).
  assert (2 ^ w <= 2 ^ 32) by (apply Z.pow_le_mono_r; lia). lia.
Qed.
Lemma vec4_small a b c d : is_word 32 a -> is_word 32 b -> is_word 32 c -> is_word 32 d -> vec4 a b c d = [a; b; c; d].
Proof. intros. unfold vec4. cbn [map]. rewrite !wrap_small by assumption. reflexivity. Qed.
Lemma land_mask w k n : 0 <= w -> 0 <= k -> 0 <= n <= 32 -> Z.land (wrap 32 (Z.shiftr w k)) (wrap 32 (2 ^ n - 1)) = (w / 2 ^ k) mod 2 ^ n.
Proof.
  intros Hw Hk Hn. rewrite Z.shiftr_div_pow2 by lia. rewrite (wrap_small 32 (2 ^ n - 1)).
  2:{ assert (2 ^ n <= 2 ^ 32) by (apply Z.pow_le_mono_r; lia). pose proof (pow2_pos n ltac:(lia)). lia. }
  replace (2 ^ n - 1) with (Z.ones n) by (rewrite Z.ones_equiv; lia). rewrite Z.land_ones by lia.
  unfold wrap. set (q := w / 2 ^ k). replace 32 with (n + (32 - n)) by lia. rewrite Z.pow_add_r by lia.
  rewrite Z.rem_mul_r by (try apply Z.pow_nonzero; try apply pow2_pos; lia).
  rewrite Z.mul_comm, Z.mod_add by (apply Z.pow_nonzero; lia). apply Z.mod_mod. apply Z.pow_nonzero; lia.
Qed.
Lemma word_nonneg n mem : bytes_ok mem -> 0 <= word n mem.
Proof.
  intros B. unfold word. assert (H : bytes_ok (firstn n mem)).
  { unfold bytes_ok in *. rewrite Forall_forall in *. intros x Hx. apply B. rewrite <- (firstn_skipn n mem). apply in_or_app. now left. }
  apply le_value_bound in H. lia.
Qed.
Lemma component_word d mem i : is_word 32 (component d mem i).
Proof.
  pose proof (component_range d mem i). pose proof (layout_fits d i) as (_ & Hw & _). unfold is_word.
  assert (2 ^ width d i <= 2 ^ 32) by (apply Z.pow_le_mono_r; lia). lia.
Qed.
Lemma components_words d mem : Forall (is_word 32) (components d mem).
Proof. unfold components. cbn [map]. repeat constructor; apply component_word. Qed.
(** chunk of the memory as component *)
Lemma chunk_component d mem i size off : bytes_ok mem -> (element_size d <= length mem)%nat ->
  (off + size <= element_size d)%nat -> sum (firstn i (layout d)) = 8 * Z.of_nat off -> width d i = 8 * Z.of_nat size ->
  word size (skipn off mem) = component d mem i.
Proof. intros B L H Ho Hw. rewrite (chunk size off (element_size d)) by auto. unfold component. rewrite Ho, Hw. reflexivity. Qed.

Lemma masked_component d mem i m k n : element_size d = m -> sum (firstn i (layout d)) = k -> width d i = n -> bytes_ok mem ->
  Z.land (wrap 32 (Z.shiftr (word m mem) k)) (wrap 32 (2 ^ n - 1)) = component d mem i.
Proof.
  intros <- <- <- B. pose proof (layout_fits d i) as (A1 & A2 & A3). rewrite land_mask by (lia || apply word_nonneg, B). reflexivity.
Qed.
Lemma plain_component d mem : bytes_ok mem -> (element_size d <= length mem)%nat -> layout d = [8 * Z.of_nat (element_size d)] ->
  wrap 32 (word (element_size d) mem) = component d mem 0.
Proof.
  intros B L E. assert (H : word (element_size d) (skipn 0 mem) = component d mem 0).
  { apply chunk_component; auto; unfold width; rewrite E; reflexivity. }
  cbn [skipn] in H. rewrite H. apply wrap_small, component_word.
Qed.

Lemma uint_ok d mem : bytes_ok mem -> d <> CUSTOM -> (reach UINT d <= length mem)%nat -> uint_value d mem = Some (components d mem).
Proof.
  intros B Hd L. assert (Le : (element_size d <= length mem)%nat) by (destruct d; cbn in *; lia).
  assert (None_ : forall i, (length (layout d) <= i)%nat -> component d mem i = 0) by (intros; now apply component_none).
  assert (W := word_nonneg).
  destruct d; try congruence; cbn [uint_value reach] in *; try (change (element_size _) with 4%nat in L); try (change (element_size _) with 2%nat in L);
    try (change (element_size _) with 1%nat in L);
    first [rewrite rdv_ok by (cbn in *; lia)|rewrite rd_ok by (cbn in *; lia)]; cbn [map seq Nat.mul Nat.add]; apply f_equal;
    unfold ibinary, zipw, vec4, components; cbn [map combine fst snd ilane];
    repeat match goal with |- context [component ?d mem ?i] => rewrite (None_ i) by (cbn; lia) end.
  all: try (repeat (apply f_equal2; [first [reflexivity|
     match goal with |- wrap 32 (word ?s (skipn ?o ?m)) = component ?d ?m ?i => 
       rewrite (chunk_component d m i s o) by (first [assumption|reflexivity|cbn; lia]); apply wrap_small, component_word end]|]); reflexivity).
  all: repeat (apply f_equal2; [first [reflexivity|
    match goal with
    | |- _ = component ?d ?m ?i =>
      first [exact (masked_component d m i (element_size d) _ _ eq_refl eq_refl eq_refl B)
            |rewrite (chunk_component d m i (element_size d) 0 B Le) by (first [reflexivity|cbn; lia]); apply wrap_small, component_word
            |exact (plain_component d m B Le eq_refl)]
    end]|]); reflexivity.
Qed.

(** *** INT *)
Lemma signed_sgn d mem i : 1 <= width d i -> signed_component d mem i = sgn (width d i) (component d mem i).
Proof.
  intros H. unfold signed_component, sgn. cbv zeta. rewrite wrap_small by apply component_range.
  assert (E : 2 ^ width d i = 2 * 2 ^ (width d i - 1)) by (rewrite <- Z.pow_succ_r by lia; f_equal; lia).
  replace (2 * component d mem i <? 2 ^ width d i) with (component d mem i <? 2 ^ (width d i - 1)); [reflexivity|].
  rewrite E. set (c := component d mem i). set (p := 2 ^ (width d i - 1)). destruct (Z.ltb_spec c p), (Z.ltb_spec (2 * c) (2 * p)); lia.
Qed.
Lemma signed_none d mem i : (length (layout d) <= i)%nat -> signed_component d mem i = 0.
Proof. intros H. unfold signed_component. rewrite component_none by exact H. unfold width. rewrite nth_overflow by exact H. reflexivity. Qed.
Lemma signed_range d mem i : is_sword 32 (signed_component d mem i).
Proof.
  destruct (Nat.lt_ge_cases i (length (layout d))) as [H|H].
  - pose proof (width_pos d i H). pose proof (layout_fits d i) as (_ & ? & _). rewrite signed_sgn by lia. apply sgn_sword. lia.
  - rewrite signed_none by exact H. unfold is_sword. lia.
Qed.
Lemma int_lane n c : 1 <= n < 32 -> 0 <= c < 2 ^ n ->
  lblend c (Z.lor c (2 ^ 32 - 2 ^ n)) (lcmpgt c (2 ^ (n - 1) - 1)) = wrap 32 (sgn n c).
Proof.
  intros Hn Hc. assert (E : 2 ^ n = 2 * 2 ^ (n - 1)) by (rewrite <- Z.pow_succ_r by lia; f_equal; lia).
  assert (Pn := pow2_pos (n - 1) ltac:(lia)). assert (U : 2 ^ n <= 2 ^ 31) by (apply Z.pow_le_mono_r; lia).
  unfold lblend, lcmpgt. assert (SW : forall x, 0 <= x < 2 ^ 31 -> sgn 32 x = x) by (intros x Hx; apply sgn_small; [lia|unfold is_sword; change (32 - 1) with 31; lia]).
  rewrite !SW by lia. unfold sgn. cbv zeta. rewrite (wrap_small n c) by exact Hc.
  destruct (Z.ltb_spec (2 ^ (n - 1) - 1) c) as [H|H].
  - change (Z.testbit (2 ^ 32 - 1) 31) with true. cbv iota. replace (c <? 2 ^ (n - 1)) with false by lia.
    rewrite lor_add.
    + unfold wrap. replace (c - 2 ^ n) with (c + (2 ^ 32 - 2 ^ n) + (-1) * 2 ^ 32) by lia. rewrite Z.mod_add by lia. symmetry. apply Z.mod_small. lia.
    + replace (2 ^ 32 - 2 ^ n) with (Z.shiftl (2 ^ (32 - n) - 1) n).
      * apply Z.bits_inj'. intros i Hi. rewrite Z.land_spec, Z.bits_0. destruct (Z.ltb_spec i n).
        -- rewrite Z.shiftl_spec_low by lia. apply andb_false_r.
        -- rewrite (testbit_above n c i) by lia. reflexivity.
      * rewrite Z.shiftl_mul_pow2, Z.mul_sub_distr_r, <- Z.pow_add_r by lia. replace (32 - n + n) with 32 by lia. lia.
  - rewrite Z.bits_0. replace (c <? 2 ^ (n - 1)) with true by lia. symmetry. apply wrap_small. lia.
Qed.
Definition signed_components (d : dtype) (mem : list Z) : list Z := map (signed_component d mem) [0; 1; 2; 3]%nat.
Lemma int_comp d mem i n : width d i = n -> 1 <= n < 32 ->
  lblend (component d mem i) (Z.lor (component d mem i) (2 ^ 32 - 2 ^ n)) (lcmpgt (component d mem i) (2 ^ (n - 1) - 1)) = wrap 32 (signed_component d mem i).
Proof. intros <- H. rewrite signed_sgn by lia. apply int_lane; [exact H|apply component_range]. Qed.
Lemma int_ok d mem : bytes_ok mem -> d <> CUSTOM -> (reach INT d <= length mem)%nat ->
  int_value d mem = Some (map (wrap 32) (signed_components d mem)).
Proof.
  intros B Hd L. pose proof (uint_ok d mem B Hd L) as U.
  assert (N : forall i, (length (layout d) <= i)%nat -> signed_component d mem i = 0) by (intros; now apply signed_none).
  assert (N' : forall i, (length (layout d) <= i)%nat -> component d mem i = 0) by (intros; now apply component_none).
  assert (W32 : forall i, width d i = 32 -> component d mem i = wrap 32 (signed_component d mem i)).
  { intros i Hi. rewrite signed_sgn, Hi by lia. rewrite sgn_wrap by lia. symmetry. apply wrap_small, component_word. }
  destruct d; try congruence; cbn [int_value]; rewrite U; apply f_equal; unfold components, signed_components; cbn [map].
  1,2,4,6: repeat (apply f_equal2; [first [apply W32; reflexivity|rewrite N, N' by (cbn; lia); reflexivity]|]); reflexivity.
  all: repeat match goal with |- context [ibinary_scalar ?o ?v ?s] => let x := eval vm_compute in (ibinary_scalar o v s) in change (ibinary_scalar o v s) with x end.
  all: unfold ibinary, zipw; cbn [map combine fst snd ilane].
  all: repeat (apply f_equal2; [first [
     match goal with |- _ = wrap 32 (signed_component ?d ?m ?i) => exact (int_comp d m i _ eq_refl ltac:(cbn; lia)) end
     |rewrite N, N' by (cbn; lia); reflexivity]|]); reflexivity.
Qed.

(** *** The raw lanes of the normalised formats *)
Lemma spread_lane w k s : 0 <= w -> 0 <= k <= s -> s < 32 ->
  (if count s <? 32 then Z.shiftr (ilane IMul (wrap 32 w) (wrap 32 (2 ^ k))) (count s) else 0) = (w / 2 ^ (s - k)) mod 2 ^ (32 - s).
Proof.
  intros Hw Hk Hs. unfold count. rewrite (wrap_small 32 s) by lia. replace (s <? 32) with true by lia.
  cbn [ilane]. rewrite (wrap_small 32 (2 ^ k)) by (assert (2 ^ k <= 2 ^ 31) by (apply Z.pow_le_mono_r; lia); assert (P := pow2_pos k ltac:(lia)); lia).
  rewrite <- (shr_field w k s) by lia. f_equal. unfold wrap. apply Z.mul_mod_idemp_l. lia.
Qed.
Lemma spread_zero w s : (if count s <? 32 then Z.shiftr (ilane IMul w (wrap 32 0)) (count s) else 0) = 0.
Proof. cbn [ilane]. rewrite Z.mul_0_r. unfold wrap at 1. destruct (_ <? _); [|reflexivity]. change (0 mod 2 ^ 32) with 0. now rewrite Z.shiftr_0_l. Qed.
Lemma spread_component d mem i m k s : bytes_ok mem -> (element_size d <= m)%nat -> (m <= length mem)%nat -> 0 <= k <= s -> s < 32 ->
  sum (firstn i (layout d)) = s - k -> width d i = 32 - s ->
  (if count s <? 32 then Z.shiftr (ilane IMul (wrap 32 (word m mem)) (wrap 32 (2 ^ k))) (count s) else 0) = component d mem i.
Proof.
  intros B H Hm Hk Hs E1 E2. rewrite spread_lane by (auto using word_nonneg; lia). rewrite (component_at d mem i m) by auto. now rewrite E1, E2.
Qed.
(** the same with the 32-bit word already cut out of a longer one *)
Lemma spread_component_hi d mem i m k s o : bytes_ok mem -> (element_size d <= m)%nat -> (m <= length mem)%nat -> 0 <= k <= s -> s < 32 -> 0 <= o ->
  sum (firstn i (layout d)) = o + (s - k) -> width d i = 32 - s ->
  (if count s <? 32 then Z.shiftr (ilane IMul (Z.shiftr (word m mem) o) (wrap 32 (2 ^ k))) (count s) else 0) = component d mem i.
Proof.
  intros B H Hm Hk Hs Ho E1 E2. rewrite (component_at d mem i m) by auto. rewrite E1, E2. rewrite Z.pow_add_r by lia.
  rewrite <- Z.div_div by (try apply Z.pow_nonzero; try apply pow2_pos; lia). rewrite <- (Z.shiftr_div_pow2 _ o) by lia.
  assert (0 <= Z.shiftr (word m mem) o) by (rewrite Z.shiftr_nonneg; auto using word_nonneg).
  rewrite <- spread_lane by lia. destruct (_ <? _); [|reflexivity]. f_equal. cbn [ilane]. unfold wrap. symmetry. apply Z.mul_mod_idemp_l. lia.
Qed.
Definition muddy (d : dtype) : bool := match d with R5G6B5 | R11G11B10 | R5G5B5A1 => true | _ => false end.
Lemma top_component d mem i m k : bytes_ok mem -> (element_size d <= length mem)%nat -> element_size d = m -> sum (firstn i (layout d)) = k ->
  k + width d i = 8 * Z.of_nat m -> Z.shiftr (word m mem) k = component d mem i.
Proof.
  intros B L <- <- E. pose proof (layout_fits d i) as (A1 & A2 & A3). unfold component. fold (word (element_size d) mem).
  rewrite Z.shiftr_div_pow2 by lia. symmetry. apply Z.mod_small. pose proof (word_range (element_size d) mem B L) as R.
  split; [apply Z.div_pos; [lia|apply pow2_pos; lia]|]. apply Z.div_lt_upper_bound; [apply pow2_pos; lia|]. rewrite <- Z.pow_add_r, E by lia. lia.
Qed.
Ltac raw_side B := first [exact B|reflexivity|cbn in *; lia].
Ltac raw_lane B Le N :=
  match goal with
  | |- (if count ?s <? 32 then Z.shiftr (ilane IMul _ (wrap 32 0)) _ else 0) = component ?d ?m ?i =>
    rewrite (N i) by (cbn; lia); apply spread_zero
  | |- (if count ?s <? 32 then Z.shiftr (ilane IMul (wrap 32 (word ?n ?m)) (wrap 32 1)) _ else 0) = component ?d ?m ?i =>
    apply (spread_component d m i n 0 s); raw_side B
  | |- (if count ?s <? 32 then Z.shiftr (ilane IMul (wrap 32 (word ?n ?m)) (wrap 32 (2 ^ ?k))) _ else 0) = component ?d ?m ?i =>
    apply (spread_component d m i n k s); raw_side B
  | |- (if count ?s <? 32 then Z.shiftr (ilane IMul (Z.shiftr (word ?n ?m) ?o) (wrap 32 1)) _ else 0) = component ?d ?m ?i =>
    apply (spread_component_hi d m i n 0 s o); raw_side B
  | |- (if count ?s <? 32 then Z.shiftr (ilane IMul (Z.shiftr (word ?n ?m) ?o) (wrap 32 (2 ^ ?k))) _ else 0) = component ?d ?m ?i =>
    apply (spread_component_hi d m i n k s o); raw_side B
  | |- wrap 32 0 = component ?d ?m ?i => rewrite (N i) by (cbn; lia); reflexivity
  | |- wrap 32 (word ?n ?m) = component ?d ?m ?i => exact (plain_component d m B Le eq_refl)
  | |- wrap 32 (Z.land (word ?n ?m) (2 ^ ?w - 1)) = component ?d ?m ?i => 
    rewrite <- (wrap_small 32 (component d m i)) by (apply component_word); apply f_equal; 
    replace (2 ^ w - 1) with (Z.ones w) by reflexivity; rewrite Z.land_ones by lia; unfold component; change (2 ^ sum (firstn i (layout d))) with 1; rewrite Z.div_1_r; reflexivity
  | |- wrap 32 (Z.shiftr (word ?n ?m) ?k) = component ?d ?m ?i =>
    rewrite <- (wrap_small 32 (component d m i)) by (apply component_word); apply f_equal; apply top_component; auto
  | |- Z.shiftr (word ?n ?m) ?k = component ?d ?m ?i => apply top_component; auto
  end.
Lemma raw_ok d mem : bytes_ok mem -> d <> CUSTOM -> muddy d = false -> (reach UNORM d <= length mem)%nat -> unorm_raw d mem = Some (components d mem).
Proof.
  intros B Hd Hm L. assert (Le : (element_size d <= length mem)%nat) by (destruct d; cbn in *; lia).
  assert (N : forall i, (length (layout d) <= i)%nat -> component d mem i = 0) by (intros; now apply component_none).
  destruct d; try congruence; try discriminate; unfold unorm_raw; try (apply uint_ok; auto; discriminate).
  all: rewrite rd_ok by (cbn in *; lia); cbn [omap]; apply f_equal; unfold ishr, ibinary, zipw, vec4, iall, components; cbn [repeat map combine fst snd nth].
  all: repeat (apply f_equal2; [raw_lane B Le N|]); reflexivity.
Qed.

Lemma raw_11_11_10 mem : bytes_ok mem -> (4 <= length mem)%nat ->
  let c := component R11G11B10 mem in unorm_raw R11G11B10 mem = Some [c 0%nat; c 1%nat; 2 * c 2%nat + c 1%nat / 2 ^ 10; 0].
Proof.
  intros B L c. unfold unorm_raw. rewrite rd_ok by exact L. cbn [omap]. apply f_equal. unfold ishr, ibinary, zipw, vec4, iall; cbn [repeat map combine fst snd nth].
  assert (N : forall i, (3 <= i)%nat -> component R11G11B10 mem i = 0) by (intros; now apply component_none).
  assert (Le : (element_size R11G11B10 <= length mem)%nat) by exact L.
  pose proof (word_range 4 mem B L) as R. change (8 * Z.of_nat 4) with 32 in R.
  apply f_equal2; [unfold c; raw_lane B Le N|]. apply f_equal2; [unfold c; raw_lane B Le N|]. apply f_equal2; [|apply f_equal2; [apply spread_zero|reflexivity]].
  change (wrap 32 1) with (wrap 32 (2 ^ 0)). rewrite spread_lane by lia. unfold c.
  change (component R11G11B10 mem 2) with ((word 4 mem / 2 ^ 22) mod 2 ^ 10). change (component R11G11B10 mem 1) with ((word 4 mem / 2 ^ 11) mod 2 ^ 11).
  change (21 - 0) with 21. change (32 - 21) with 11. set (w := word 4 mem) in *. clearbody w.
  change (2 ^ 32) with 4294967296 in R. change (2 ^ 21) with 2097152. change (2 ^ 11) with 2048. change (2 ^ 22) with 4194304. change (2 ^ 10) with 1024. lia.
Qed.
Lemma raw_5_6_5 mem : bytes_ok mem -> (2 <= length mem)%nat ->
  let c := component R5G6B5 mem in unorm_raw R5G6B5 mem = Some [2 * c 0%nat; c 1%nat; 2 * c 2%nat + c 1%nat / 2 ^ 5; 0].
Proof.
  intros B L c. unfold unorm_raw. rewrite rd_ok by exact L. cbn [omap]. apply f_equal. unfold ishr, ibinary, zipw, vec4, iall; cbn [repeat map combine fst snd nth].
  assert (N : forall i, (3 <= i)%nat -> component R5G6B5 mem i = 0) by (intros; now apply component_none).
  assert (Le : (element_size R5G6B5 <= length mem)%nat) by exact L.
  pose proof (word_range 2 mem B L) as R. change (8 * Z.of_nat 2) with 16 in R.
  apply f_equal2; [|apply f_equal2; [unfold c; raw_lane B Le N|apply f_equal2; [|apply f_equal2; [apply spread_zero|reflexivity]]]].
  - unfold c. change (component R5G6B5 mem 0) with ((word 2 mem / 2 ^ 0) mod 2 ^ 5). set (w := word 2 mem) in *. clearbody w.
    change (count 26) with 26. change (26 <? 32) with true. cbv iota. cbn [ilane]. rewrite (wrap_small 32 w) by lia.
    rewrite Z.shiftr_div_pow2 by lia. unfold wrap. change (2 ^ 27 mod 2 ^ 32) with 134217728. change (2 ^ 32) with 4294967296. change (2 ^ 26) with 67108864.
    change (2 ^ 0) with 1. change (2 ^ 5) with 32. change (2 ^ 16) with 65536 in R. lia.
  - rewrite spread_lane by lia. unfold c.
    change (component R5G6B5 mem 2) with ((word 2 mem / 2 ^ 11) mod 2 ^ 5). change (component R5G6B5 mem 1) with ((word 2 mem / 2 ^ 5) mod 2 ^ 6).
    change (26 - 16) with 10. change (32 - 26) with 6. set (w := word 2 mem) in *. clearbody w.
    change (2 ^ 16) with 65536 in R. change (2 ^ 10) with 1024. change (2 ^ 6) with 64. change (2 ^ 11) with 2048. change (2 ^ 5) with 32. lia.
Qed.
Lemma land_bit x n : 0 <= x -> 0 <= n -> Z.land x (2 ^ n) = if Z.testbit x n then 2 ^ n else 0.
Proof.
  intros Hx Hn. apply Z.bits_inj'. intros i Hi. rewrite Z.land_spec, Z.pow2_bits_eqb by lia.
  destruct (Z.eqb_spec n i) as [->|Ne].
  - rewrite andb_true_r. destruct (Z.testbit x i); [now rewrite Z.pow2_bits_true|now rewrite Z.bits_0].
  - rewrite andb_false_r. destruct (Z.testbit x n); [now rewrite Z.pow2_bits_false by lia|now rewrite Z.bits_0].
Qed.
Lemma lor_add_all w : 0 <= w < 2 ^ 32 -> Z.lor w (2 ^ 32 - 1) = 2 ^ 32 - 1.
Proof.
  intros H. apply Z.bits_inj'. intros i Hi. rewrite Z.lor_spec. change (2 ^ 32 - 1) with (Z.ones 32). rewrite Z.testbit_ones_nonneg by lia.
  destruct (Z.ltb_spec i 32); [apply orb_true_r|]. rewrite (testbit_above 32 w i) by lia. reflexivity.
Qed.
Lemma raw_5_5_5_1 mem : bytes_ok mem -> (2 <= length mem)%nat ->
  let c := component R5G5B5A1 mem in unorm_raw R5G5B5A1 mem = Some [c 0%nat; c 1%nat; c 2%nat; 31 * c 3%nat].
Proof.
  intros B L c. unfold unorm_raw. rewrite rd_ok by exact L. cbn [omap]. apply f_equal. unfold ishr, icompound, ibinary, zipw, vec4, iall; cbn [repeat map combine fst snd nth].
  pose proof (word_range 2 mem B L) as R. change (8 * Z.of_nat 2) with 16 in R.
  assert (Le : (element_size R5G5B5A1 <= length mem)%nat) by exact L.
  assert (N : forall i, (4 <= i)%nat -> component R5G5B5A1 mem i = 0) by (intros; now apply component_none).
  assert (Clean : forall k, 17 <= k < 32 ->
    ilane IOr (ilane IMul (wrap 32 (word 2 mem)) (wrap 32 (2 ^ k))) (lcmpeq (wrap 32 (2 ^ 15)) (ilane IAnd (ilane IMul (wrap 32 (word 2 mem)) (wrap 32 (2 ^ k))) (wrap 32 (2 ^ 15)))) =
    ilane IMul (wrap 32 (word 2 mem)) (wrap 32 (2 ^ k))).
  { intros k Hk. set (w := word 2 mem) in *. clearbody w. change (wrap 32 (2 ^ 15)) with (2 ^ 15). cbn [ilane].
    rewrite (wrap_small 32 (2 ^ k)) by (assert (2 ^ k <= 2 ^ 31) by (apply Z.pow_le_mono_r; lia); assert (P := pow2_pos k ltac:(lia)); lia).
    rewrite land_bit by (try apply wrap_range; lia). rewrite wrap_testbit by lia. rewrite Z.mul_pow2_bits_low by lia. rewrite andb_false_r.
    change (lcmpeq (2 ^ 15) 0) with 0. apply Z.lor_0_r. }
  rewrite !Clean by lia. unfold c.
  apply f_equal2; [raw_lane B Le N|]. apply f_equal2; [raw_lane B Le N|]. apply f_equal2; [raw_lane B Le N|]. apply f_equal2; [|reflexivity].
  change (component R5G5B5A1 mem 3) with ((word 2 mem / 2 ^ 15) mod 2 ^ 1). set (w := word 2 mem) in *. clearbody w.
  change (wrap 32 1) with 1. change (wrap 32 (2 ^ 15)) with (2 ^ 15). change (count 27) with 27. change (27 <? 32) with true. cbv iota. cbn [ilane]. rewrite !Z.mul_1_r. rewrite (wrap_small 32 w) by lia. rewrite (wrap_small 32 w) by lia.
  rewrite land_bit by lia. rewrite Z.testbit_odd, (Z.shiftr_div_pow2 w 15) by lia.
  change (2 ^ 1) with 2. rewrite Zmod_odd. destruct (Z.odd (w / 2 ^ 15)).
  - change (lcmpeq (2 ^ 15) (2 ^ 15)) with (2 ^ 32 - 1). rewrite lor_add_all by lia. reflexivity.
  - change (lcmpeq (2 ^ 15) 0) with 0. rewrite Z.lor_0_r, Z.shiftr_div_pow2 by lia. change (2 ^ 27) with 134217728. change (2 ^ 16) with 65536 in R. lia.
Qed.
