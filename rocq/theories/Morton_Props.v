(** C40: Morton (swizzled) texture addresses, formats/addr_ps3.hpp.
    [Morton_new w h = Some m]: constructing the settings for a w x h texture stays inside its
    arrays.  [MortonAddr x y m] is the address of texel (x, y). *)
From Verif Require Import Base Morton_Model Morton_Spec Morton_Proof.

(** Sizes 2^a x 2^b the code is meant for: at least 16, the smaller side below 2^14 (or a square
    of 2^14), addresses within 64 bits. *)
Definition supported (lo hi : Z) : Prop :=
  4 <= lo /\ lo <= hi /\ lo + hi <= 64 /\ (lo <= 13 \/ lo = hi /\ lo = 14).

(** For a texture at least as wide as high every texel gets its address in Morton order. *)
Theorem C40_morton_order : forall a b x y, supported b a ->
  0 <= x < 2 ^ a -> 0 <= y < 2 ^ b ->
  exists m, Morton_new (2 ^ a) (2 ^ b) = Some m /\ morton_order a b x y (MortonAddr x y m).
Proof.
  intros a b x y HS Hx Hy. destruct (wide_masks a b HS) as (m & E & _). exists m. split; [exact E|].
  pose proof HS as (H4 & H1 & H2 & H3).
  assert (BIT : forall n, 0 <= n -> Z.testbit (MortonAddr x y m) n = true ->
     (exists i, 0 <= i < b /\ n = 2 * i /\ Z.testbit x i = true) \/
     (exists i, 0 <= i < b /\ n = 2 * i + 1 /\ Z.testbit y i = true) \/
     (b <= n - b < a /\ Z.testbit x (n - b) = true)).
  { intros n Hn. apply (wide_bit a b x y m n HS Hn E). }
  split; [|split].
  - assert (0 <= MortonAddr x y m).
    { destruct (Z.lt_ge_cases (MortonAddr x y m) 0) as [N|N]; [|exact N]. exfalso.
      pose proof (Z.bits_iff_neg_ex (MortonAddr x y m)) as [B _].
      apply B in N as (k & Hk).
      specialize (Hk (Z.max (k + 1) 200) ltac:(lia)).
      apply BIT in Hk; [|lia]. destruct Hk as [(i & ? & ? & _)|[(i & ? & ? & _)|(? & _)]]; lia. }
    split; [assumption|]. apply lt_pow2_of_bits; [lia|assumption|]. intros i Hi. destruct (Z.testbit (MortonAddr x y m) i) eqn:B; [|reflexivity]. exfalso.
      apply BIT in B; [|lia]. destruct B as [(j & ? & ? & _)|[(j & ? & ? & _)|(? & _)]]; lia.
  - intros i Hi. split; apply eq_true_iff_eq; rewrite (wide_bit a b x y m) by (auto; lia).
    + split.
      * intros [(j & Hj & Ej & T)|[(j & Hj & Ej & T)|(Hr & T)]]; [|lia|lia].
        replace i with j by lia. exact T.
      * intros T. left. exists i. repeat split; auto; lia.
    + split.
      * intros [(j & Hj & Ej & T)|[(j & Hj & Ej & T)|(Hr & T)]]; [lia| |lia].
        replace i with j by lia. exact T.
      * intros T. right. left. exists i. repeat split; auto; lia.
  - intros i Hi. apply eq_true_iff_eq. rewrite (wide_bit a b x y m) by (auto; lia). split.
    + intros [(j & Hj & Ej & T)|[(j & Hj & Ej & T)|(Hr & T)]]; [lia|lia|].
      replace (b + i - b) with i in T by lia. exact T.
    + intros T. right. right. replace (b + i - b) with i by lia. split; [lia|exact T].
Qed.
Print Assumptions C40_morton_order.

(** So two texels never share an address, and every address below width * height is taken. *)
Theorem C40_bijective : forall a b m, supported b a -> Morton_new (2 ^ a) (2 ^ b) = Some m ->
  (forall x y, 0 <= x < 2 ^ a -> 0 <= y < 2 ^ b -> 0 <= MortonAddr x y m < 2 ^ a * 2 ^ b) /\
  (forall x y x' y', 0 <= x < 2 ^ a -> 0 <= y < 2 ^ b -> 0 <= x' < 2 ^ a -> 0 <= y' < 2 ^ b ->
     MortonAddr x y m = MortonAddr x' y' m -> x = x' /\ y = y') /\
  (forall addr, 0 <= addr < 2 ^ a * 2 ^ b ->
     exists x y, 0 <= x < 2 ^ a /\ 0 <= y < 2 ^ b /\ MortonAddr x y m = addr).
Proof.
  intros a b m HS E. pose proof HS as (H4 & H1 & H2 & H3).
  assert (O : forall x y, 0 <= x < 2 ^ a -> 0 <= y < 2 ^ b -> morton_order a b x y (MortonAddr x y m)).
  { intros x y Hx Hy. destruct (C40_morton_order a b x y HS Hx Hy) as (m' & E' & M).
    rewrite E in E'. injection E' as <-. exact M. }
  rewrite <- Z.pow_add_r by lia. split; [|split].
  - intros x y Hx Hy. apply (O x y Hx Hy).
  - intros x y x' y' Hx Hy Hx' Hy' EQ.
    apply (order_unique a b x y x' y' (MortonAddr x y m)); auto; [lia|]. rewrite EQ. auto.
  - intros addr Ha.
    set (x := of_bits (Z.to_nat a) (fun i => if i <? b then Z.testbit addr (2 * i) else Z.testbit addr (b + i))).
    set (y := of_bits (Z.to_nat b) (fun i => Z.testbit addr (2 * i + 1))).
    assert (Hx : 0 <= x < 2 ^ a) by (pose proof (of_bits_bound (Z.to_nat a) (fun i => if i <? b then Z.testbit addr (2 * i) else Z.testbit addr (b + i))) as B; rewrite Z2Nat.id in B by lia; exact B).
    assert (Hy : 0 <= y < 2 ^ b) by (pose proof (of_bits_bound (Z.to_nat b) (fun i => Z.testbit addr (2 * i + 1))) as B; rewrite Z2Nat.id in B by lia; exact B).
    exists x, y. split; [exact Hx|]. split; [exact Hy|].
    destruct (O x y Hx Hy) as (R & I & L).
    apply Z.bits_inj'. intros n Hn. destruct (Z.lt_ge_cases n (2 * b)).
    + assert (n = 2 * (n / 2) \/ n = 2 * (n / 2) + 1) as [En|En] by lia.
      * rewrite En at 1. rewrite (proj1 (I (n / 2) ltac:(lia))). unfold x. rewrite of_bits_spec by lia.
        destruct (Z.ltb_spec (n / 2) b); [|lia]. now rewrite <- En.
      * rewrite En at 1. rewrite (proj2 (I (n / 2) ltac:(lia))). unfold y. rewrite of_bits_spec by lia.
        now rewrite <- En.
    + destruct (Z.lt_ge_cases n (a + b)).
      * replace n with (b + (n - b)) at 1 by lia. rewrite L by lia. unfold x. rewrite of_bits_spec by lia.
        destruct (Z.ltb_spec (n - b) b); [lia|]. f_equal. lia.
      * rewrite !(testbit_above (a + b)) by lia. reflexivity.
Qed.
Print Assumptions C40_bijective.

Example C40_nonvacuous : supported 13 14 /\ supported 4 4 /\
  match Morton_new 64 16 with
  | Some m => MortonAddr 3 1 m = 7 /\ MortonAddr 63 15 m = 1023 /\ MortonAddr 16 0 m = 256
  | None => False
  end.
Proof. unfold supported. split; [lia|]. split; [lia|]. vm_compute. auto. Qed.

(** ** Where the claim fails in the code *)
(** Textures higher than wide: the rows below the first square are placed one bit too high, so the
    middle row already lies outside the texture. *)
Theorem C40_tall_refuted : forall a b m, supported a b -> a < b -> a + b <= 63 ->
  Morton_new (2 ^ a) (2 ^ b) = Some m ->
  0 <= 2 ^ (b - 1) < 2 ^ b /\ MortonAddr 0 (2 ^ (b - 1)) m = 2 ^ a * 2 ^ b.
Proof.
  intros a b m HS Hlt H63 E. pose proof HS as (H4 & H1 & H2 & H3). split.
  - split; [apply Z.pow_nonneg; lia|]. apply Z.pow_lt_mono_r; lia.
  - rewrite <- Z.pow_add_r by lia. apply Z.bits_inj'. intros n Hn. apply eq_true_iff_eq.
    rewrite (tall_bit a b 0 (2 ^ (b - 1)) m n HS) by (auto; lia).
    rewrite (pow2_bit (a + b) n) by lia. split.
    + intros [(i & Hi & -> & T)|[(i & Hi & -> & T)|(Hr & T)]].
      * rewrite Z.bits_0 in T. discriminate.
      * apply pow2_bit in T; lia.
      * apply pow2_bit in T; lia.
    + intros ->. right. right. split; [lia|]. apply pow2_bit; lia.
Qed.
Print Assumptions C40_tall_refuted.

(** They still do not collide. *)
Theorem C40_tall_injective : forall a b m, supported a b -> a < b -> a + b <= 63 ->
  Morton_new (2 ^ a) (2 ^ b) = Some m ->
  forall x y x' y', 0 <= x < 2 ^ a -> 0 <= y < 2 ^ b -> 0 <= x' < 2 ^ a -> 0 <= y' < 2 ^ b ->
     MortonAddr x y m = MortonAddr x' y' m -> x = x' /\ y = y'.
Proof.
  intros a b m HS Hlt H63 E x y x' y' Hx Hy Hx' Hy' EQ. pose proof HS as (H4 & H1 & H2 & H3).
  assert (X : forall u v i, 0 <= i < a -> Z.testbit (MortonAddr u v m) (2 * i) = Z.testbit u i).
  { intros u v i Hi. apply eq_true_iff_eq. rewrite (tall_bit a b u v m) by (auto; lia). split.
    - intros [(j & Hj & Ej & T)|[(j & Hj & Ej & T)|(Hr & T)]]; [|lia|lia]. replace i with j by lia. exact T.
    - intros T. left. exists i. repeat split; auto; lia. }
  assert (Y : forall u v i, 0 <= i < a -> Z.testbit (MortonAddr u v m) (2 * i + 1) = Z.testbit v i).
  { intros u v i Hi. apply eq_true_iff_eq. rewrite (tall_bit a b u v m) by (auto; lia). split.
    - intros [(j & Hj & Ej & T)|[(j & Hj & Ej & T)|(Hr & T)]]; [lia| |lia]. replace i with j by lia. exact T.
    - intros T. right. left. exists i. repeat split; auto; lia. }
  assert (YH : forall u v i, a <= i < b -> Z.testbit (MortonAddr u v m) (a + i + 1) = Z.testbit v i).
  { intros u v i Hi. apply eq_true_iff_eq. rewrite (tall_bit a b u v m) by (auto; lia). split.
    - intros [(j & Hj & Ej & T)|[(j & Hj & Ej & T)|(Hr & T)]]; [lia|lia|].
      replace (a + i + 1 - a - 1) with i in T by lia. exact T.
    - intros T. right. right. replace (a + i + 1 - a - 1) with i by lia. split; [lia|exact T]. }
  split; apply Z.bits_inj'; intros n Hn.
  - destruct (Z.lt_ge_cases n a).
    + rewrite <- (X x y n), <- (X x' y' n), EQ by lia. reflexivity.
    + rewrite !(testbit_above a) by lia. reflexivity.
  - destruct (Z.lt_ge_cases n a).
    + rewrite <- (Y x y n), <- (Y x' y' n), EQ by lia. reflexivity.
    + destruct (Z.lt_ge_cases n b).
      * rewrite <- (YH x y n), <- (YH x' y' n), EQ by lia. reflexivity.
      * rewrite !(testbit_above b) by lia. reflexivity.
Qed.
Print Assumptions C40_tall_injective.

(** Sizes below 16 with unequal sides, and anything beyond 2^14, write outside the mask arrays. *)
Theorem C40_small_or_huge_refuted : forall a b, 0 <= a -> 0 <= b ->
  (a <> b /\ (a < 4 \/ b < 4)) \/ (14 <= a /\ 14 <= b /\ (a <> 14 \/ b <> 14)) ->
  Morton_new (2 ^ a) (2 ^ b) = None.
Proof.
  assert (DL : forall n k xm ym xm' ym', diagonal n k xm ym = Some (xm', ym') ->
     length xm' = length xm /\ length ym' = length ym).
  { assert (SL : forall l i v l', set_at l i v = Some l' -> length l' = length l).
    { intros l i v l' H. unfold set_at in H. destruct ((0 <=? i) && (i <? Z.of_nat (length l))) eqn:C; [|discriminate].
      assert (L : l' = firstn (Z.to_nat i) l ++ v :: skipn (S (Z.to_nat i)) l) by congruence. rewrite L, app_length. change (length (v :: skipn (S (Z.to_nat i)) l)) with (S (length (skipn (S (Z.to_nat i)) l))). rewrite firstn_length, skipn_length. lia. }
    induction n as [|n IH]; intros k xm ym xm' ym' H; cbn [diagonal] in H.
    - injection H as -> ->. auto.
    - destruct (set_at xm _ _) eqn:E1; [|discriminate]. destruct (set_at ym _ _) eqn:E2; [|discriminate].
      apply IH in H as [L1 L2]. rewrite L1, L2. split; eapply SL; eauto. }
  assert (DN : forall n k xm ym, length xm = 10%nat -> length ym = 10%nat -> k <= 14 -> 15 <= k + Z.of_nat n -> diagonal n k xm ym = None).
  { assert (SL : forall l i v l', set_at l i v = Some l' -> length l' = length l /\ i < Z.of_nat (length l)).
    { intros l i v l' H. unfold set_at in H. destruct ((0 <=? i) && (i <? Z.of_nat (length l))) eqn:C; [|discriminate].
      assert (L : l' = firstn (Z.to_nat i) l ++ v :: skipn (S (Z.to_nat i)) l) by congruence. rewrite L, app_length. change (length (v :: skipn (S (Z.to_nat i)) l)) with (S (length (skipn (S (Z.to_nat i)) l))). rewrite firstn_length, skipn_length. lia. }
    induction n as [|n IH]; intros k xm ym L1 L2 Hk Hn; [lia|]. cbn [diagonal].
    destruct (set_at xm _ _) as [xm'|] eqn:E1; [|reflexivity]. destruct (set_at ym _ _) as [ym'|] eqn:E2; [|reflexivity].
    apply SL in E1 as [S1 B1]. apply SL in E2 as [S2 B2]. apply IH; lia. }
  intros a b Ha Hb H. unfold Morton_new. rewrite !Z.log2_pow2 by lia.
  destruct (diagonal _ 4 _ _) as [[xm ym]|] eqn:D; [|reflexivity].
  pose proof (DL _ _ _ _ _ _ D) as [L1 L2]. rewrite repeat_length in L1, L2.
  assert (SN : forall l i v, length l = 10%nat -> (i < 0 \/ 10 <= i) -> set_at l i v = None).
  { intros l i v Hl Hi. unfold set_at. rewrite Hl. destruct (Z.leb_spec 0 i), (Z.ltb_spec i (Z.of_nat 10)); cbn [andb]; try reflexivity; lia. }
  assert ((if b <? a then b else a) <= 14).
  { destruct (Z.le_gt_cases (if b <? a then b else a) 14) as [|G]; [assumption|].
    rewrite DN in D; [discriminate|reflexivity|reflexivity|lia|lia]. }
  destruct (Z.eqb_spec a b) as [->|N].
  - exfalso. destruct (Z.ltb_spec b b); lia.
  - destruct (Z.ltb_spec b a); rewrite SN by lia; reflexivity.
Qed.
Print Assumptions C40_small_or_huge_refuted.
