(** Proofs for C42 and C43. *)
From Coq Require Import String Ascii.
From Verif Require Import Base Flags_Model Dds_Model Dds_Spec.
Local Open Scope Z_scope.

(** the size the code computes for a level of w x h *)
Definition code_size (block : bool) (bits w h : Z) : Z :=
  let '(w', h') := if block && (u32 (w * h) <? 16) then (4, 4) else (w, h) in
  u32 (u32 (u32 (w' * h') * bits) + 7) / 8.
Definition code_level (block : bool) (bits w h : Z) (k : nat) : Z :=
  code_size block bits (w / 2 ^ Z.of_nat k) (h / 2 ^ Z.of_nat k).

Lemma half_pow w k : w / 2 / 2 ^ Z.of_nat k = w / 2 ^ Z.of_nat (S k).
Proof. rewrite Z.div_div by lia. f_equal. rewrite Nat2Z.inj_succ, Z.pow_succ_r by lia. reflexivity. Qed.

Lemma mip_loop_ok block bits n : forall m w h total, m + Z.of_nat n <= 15 -> 0 <= total < 2 ^ 32 ->
  exists mips, mip_loop block bits n m w h total = Some ((total + sum (map fst mips)) mod 2 ^ 32, mips) /\
    length mips = n /\
    forall k s o, nth_error mips k = Some (s, o) ->
      s = code_level block bits w h k /\ o = (total + sum (map fst (firstn k mips))) mod 2 ^ 32.
Proof.
  induction n as [|n IH]; intros m w h total Hm Ht.
  - exists []. cbn [mip_loop map sum fold_right length]. rewrite Z.add_0_r, Z.mod_small by exact Ht.
    repeat split; destruct k; discriminate.
  - cbn [mip_loop]. destruct (Z.leb_spec 15 m); [lia|].
    set (size := code_size block bits w h).
    destruct (IH (m + 1) (w / 2) (h / 2) (u32 (total + size))) as (mips & E & L & N); [lia|unfold u32, wrap; apply Z.mod_pos_bound; lia|].
    exists ((size, total) :: mips). split; [|split].
    + replace (if block && (u32 (w * h) <? 16) then (4, 4) else (w, h)) with
        (fst (if block && (u32 (w * h) <? 16) then (4, 4) else (w, h)), snd (if block && (u32 (w * h) <? 16) then (4, 4) else (w, h)))
        by (destruct (_ && _); reflexivity).
      cbv iota beta.
      assert (ES : u32 (u32 (u32 (fst (if block && (u32 (w * h) <? 16) then (4, 4) else (w, h)) *
                     snd (if block && (u32 (w * h) <? 16) then (4, 4) else (w, h))) * bits) + 7) / 8 = size).
      { unfold size, code_size. destruct (_ && _); reflexivity. }
      rewrite ES, E. f_equal. f_equal. unfold u32, wrap. cbn [map fst]. unfold sum; fold sum. cbn [fold_right].
      fold (sum (map fst mips)). rewrite Zplus_mod_idemp_l. f_equal. lia.
    + cbn [length]. now rewrite L.
    + intros [|k] s o Hk; cbn [nth_error] in Hk.
      * injection Hk as <- <-. cbn [firstn map sum fold_right]. rewrite Z.add_0_r, Z.mod_small by exact Ht.
        split; [|reflexivity]. unfold code_level, size. change (2 ^ Z.of_nat 0) with 1. now rewrite !Z.div_1_r.
      * apply N in Hk as [-> ->]. split.
        -- unfold code_level. now rewrite !half_pow.
        -- cbn [firstn map fst]. unfold u32, wrap. rewrite Zplus_mod_idemp_l. f_equal.
           unfold sum. cbn [fold_right]. lia.
Qed.
Lemma mip_loop_many block bits n : forall m w h total, 0 <= m <= 15 -> 15 < m + Z.of_nat n ->
  mip_loop block bits n m w h total = None.
Proof.
  induction n as [|n IH]; intros m w h total Hm Hn; [lia|]. cbn [mip_loop].
  destruct (Z.leb_spec 15 m); [reflexivity|].
  destruct (if block && (u32 (w * h) <? 16) then (4, 4) else (w, h)). rewrite IH by lia. reflexivity.
Qed.

Definition level_count (mips : Z) : Z := if mips =? 0 then 1 else mips.
Lemma buffer_ok d : bpp (pf d) <> 0 -> 0 <= mipMapCount d -> level_count (mipMapCount d) <= 15 ->
  exists mips, ComputeBufferSize d = Some ((sum (map fst mips)) mod 2 ^ 32, mips) /\
    length mips = Z.to_nat (level_count (mipMapCount d)) /\
    forall k s o, nth_error mips k = Some (s, o) ->
      s = code_level (useBlockCompression d) (bpp (pf d)) (width d) (height d) k /\
      o = (sum (map fst (firstn k mips))) mod 2 ^ 32.
Proof.
  intros Hb H0 Hm. unfold ComputeBufferSize. destruct (Z.eqb_spec (bpp (pf d)) 0); [contradiction|].
  fold (level_count (mipMapCount d)).
  destruct (mip_loop_ok (useBlockCompression d) (bpp (pf d)) (Z.to_nat (level_count (mipMapCount d))) 0 (width d) (height d) 0)
    as (mips & E & L & N); [unfold level_count in *; destruct (mipMapCount d =? 0) eqn:E0; lia|lia|].
  exists mips. cbv zeta. rewrite E. auto.
Qed.

(** ** Sizes *)
Lemma div_pow_range w k : 0 <= w -> 0 <= w / 2 ^ Z.of_nat k.
Proof. intros. apply Z.div_pos; lia. Qed.
Lemma ge_one_iff w k : 0 <= w -> (1 <= w / 2 ^ Z.of_nat k <-> 2 ^ Z.of_nat k <= w).
Proof.
  intros H. assert (0 < 2 ^ Z.of_nat k) by lia. split; intros A.
  - assert (w = 2 ^ Z.of_nat k * (w / 2 ^ Z.of_nat k) + w mod 2 ^ Z.of_nat k) by (apply Z.div_mod; lia).
    pose proof (Z.mod_pos_bound w (2 ^ Z.of_nat k) ltac:(lia)).
    assert (2 ^ Z.of_nat k * 1 <= 2 ^ Z.of_nat k * (w / 2 ^ Z.of_nat k)) by (apply Z.mul_le_mono_nonneg_l; lia). lia.
  - apply Z.div_le_lower_bound; lia.
Qed.

Lemma plain_level bits w h k : 0 < bits -> 0 <= w -> 0 <= h ->
  w / 2 ^ Z.of_nat k * (h / 2 ^ Z.of_nat k) * bits + 7 < 2 ^ 32 ->
  code_level false bits w h k = plain_size w h bits k <-> (2 ^ Z.of_nat k <= w /\ 2 ^ Z.of_nat k <= h).
Proof.
  intros Hb Hw Hh Hs. unfold code_level, code_size, plain_size, mip_dim. cbn [andb].
  rewrite <- !ge_one_iff by assumption.
  pose proof (div_pow_range w k Hw). pose proof (div_pow_range h k Hh).
  set (a := w / 2 ^ Z.of_nat k) in *. set (b := h / 2 ^ Z.of_nat k) in *. clearbody a b.
  assert (P : 0 <= a * b) by (apply Z.mul_nonneg_nonneg; lia).
  assert (Q : a * b * 1 <= a * b * bits) by (apply Z.mul_le_mono_nonneg_l; lia).
  unfold u32. rewrite (wrap_small 32 (a * b)) by lia. rewrite (wrap_small 32 (a * b * bits)) by lia.
  rewrite wrap_small by lia. split.
  - intros E. destruct (Z.le_gt_cases 1 a) as [Ha|Ha]; [destruct (Z.le_gt_cases 1 b) as [Hb'|Hb']; [lia|]|].
    + exfalso. assert (b = 0) as -> by lia. rewrite Z.mul_0_r, Z.mul_0_l in E. change (Z.max 1 0) with 1 in E.
      assert (1 * bits <= Z.max 1 a * 1 * bits) by (apply Z.mul_le_mono_nonneg_r; lia).
      set (x := Z.max 1 a * 1 * bits) in *. clearbody x. lia.
    + exfalso. assert (a = 0) as -> by lia. rewrite !Z.mul_0_l in E. change (Z.max 1 0) with 1 in E.
      assert (1 * bits <= 1 * Z.max 1 b * bits) by (apply Z.mul_le_mono_nonneg_r; lia).
      set (x := 1 * Z.max 1 b * bits) in *. clearbody x. lia.
  - intros [Ha Hb']. rewrite !Z.max_r by lia. reflexivity.
Qed.

(** exact multiples: the product reaches the rounded-up product only if nothing was rounded *)
Lemma product_gap a b x y : 1 <= a <= 4 * x -> 1 <= b <= 4 * y -> 4 * x - 4 < a -> 4 * y - 4 < b ->
  (a = 4 * x /\ b = 4 * y) \/ a * b <= 16 * (x * y) - 4.
Proof.
  intros Ha Hb Ga Gb. assert (1 <= x /\ 1 <= y) by lia.
  destruct (Z.eq_dec a (4 * x)) as [->|Na]; [destruct (Z.eq_dec b (4 * y)) as [->|Nb]; [now left|]|]; right.
  - assert (4 * x * b <= 4 * x * (4 * y - 1)) by (apply Z.mul_le_mono_nonneg_l; lia). lia.
  - assert (a * b <= (4 * x - 1) * b) by (apply Z.mul_le_mono_nonneg_r; lia).
    assert ((4 * x - 1) * b <= (4 * x - 1) * (4 * y)) by (apply Z.mul_le_mono_nonneg_l; lia). lia.
Qed.

Lemma block_level bits w h k : 2 <= bits -> bits mod 4 = 0 -> 0 <= w -> 0 <= h ->
  w / 2 ^ Z.of_nat k * (h / 2 ^ Z.of_nat k) * bits + 7 < 2 ^ 32 -> 16 * bits + 7 < 2 ^ 32 ->
  code_level true bits w h k = block_size w h bits k <->
    (let a := w / 2 ^ Z.of_nat k in let b := h / 2 ^ Z.of_nat k in
     (a * b < 16 /\ a <= 4 /\ b <= 4) \/ (16 <= a * b /\ a mod 4 = 0 /\ b mod 4 = 0)).
Proof.
  intros Hb Hb4 Hw Hh Hs Hs'. cbv zeta. unfold code_level, code_size, block_size, mip_dim. cbn [andb].
  pose proof (div_pow_range w k Hw). pose proof (div_pow_range h k Hh).
  set (a := w / 2 ^ Z.of_nat k) in *. set (b := h / 2 ^ Z.of_nat k) in *. clearbody a b.
  assert (P : 0 <= a * b) by (apply Z.mul_nonneg_nonneg; lia).
  assert (Q : a * b * 1 <= a * b * bits) by (apply Z.mul_le_mono_nonneg_l; lia).
  assert (D : 16 * bits / 8 = 2 * bits) by lia.
  assert (EW : u32 (a * b) = a * b) by (apply wrap_small; lia). rewrite EW. destruct (Z.ltb_spec (a * b) 16) as [Hlt|Hge].
  - unfold u32. rewrite (wrap_small 32 (4 * 4)) by lia. rewrite (wrap_small 32 (4 * 4 * bits)) by lia.
    rewrite wrap_small by lia. rewrite D.
    set (x := (Z.max 1 a + 3) / 4). set (y := (Z.max 1 b + 3) / 4).
    assert (1 <= x) by (unfold x; lia). assert (1 <= y) by (unfold y; lia).
    split.
    + intros E. left. assert (X : 2 * bits = x * y * (2 * bits)) by lia.
      assert (x * y = 1) by nia. assert (x = 1 /\ y = 1) as [Hx Hy] by nia. unfold x in Hx. unfold y in Hy. lia.
    + intros [(_ & Ha & Hb')|(? & _)]; [|lia]. assert (x = 1) as -> by (unfold x; lia). assert (y = 1) as -> by (unfold y; lia). lia.
  - assert (1 <= a /\ 1 <= b) as [A1 B1] by nia.
    rewrite EW. unfold u32. rewrite (wrap_small 32 (a * b * bits)) by lia.
    rewrite wrap_small by lia. rewrite D, !Z.max_r by lia.
    set (x := (a + 3) / 4). set (y := (b + 3) / 4).
    assert (GX : 1 <= a <= 4 * x /\ 4 * x - 4 < a) by (unfold x; lia).
    assert (GY : 1 <= b <= 4 * y /\ 4 * y - 4 < b) by (unfold y; lia).
    assert (PG := product_gap a b x y ltac:(lia) ltac:(lia) ltac:(lia) ltac:(lia)). clearbody x y.
    destruct PG as [[Ea Eb]|G].
    + split; [intros _; right; split; [lia|split; [|]]|intros _].
      * rewrite Ea, Z.mul_comm. apply Z.mod_mul. lia.
      * rewrite Eb, Z.mul_comm. apply Z.mod_mul. lia.
      * rewrite Ea, Eb. replace (4 * x * (4 * y) * bits) with (8 * (x * y * (2 * bits))) by lia. lia.
    + split.
      * intros E. exfalso. assert (a * b * bits <= (16 * (x * y) - 4) * bits) by (apply Z.mul_le_mono_nonneg_r; lia).
        assert (Z4 : (16 * (x * y) - 4) * bits = 8 * (x * y * (2 * bits)) - 4 * bits) by lia.
        set (u := a * b * bits) in *. set (v := x * y * (2 * bits)) in *. clearbody u v. lia.
      * intros [(? & _)|(_ & Ha & Hb')]; [lia|]. exfalso.
        assert (a = 4 * x) by lia. assert (b = 4 * y) by lia. subst a b.
        assert (4 * x * (4 * y) = 16 * (x * y)) by lia. lia.
Qed.
