(** Correct rounding of the executable binary32 arithmetic, in integers: what [to_bits] of a rounded
    m * 2^e is. *)
From Coq Require Import Floats.SpecFloat.
From Verif Require Import Base Float_Model.

(** m / 2^k to the nearest integer, ties to even (k <= 0: an exact multiplication) *)
Definition rne (m k : Z) : Z :=
  if k <=? 0 then m * 2 ^ (- k)
  else
    let q := m / 2 ^ k in let r := m mod 2 ^ k in
    if 2 * r <? 2 ^ k then q else if 2 ^ k <? 2 * r then q + 1 else if Z.even q then q else q + 1.

Lemma digits_log2 p : Zpos (digits2_pos p) = Z.log2 (Zpos p) + 1.
Proof.
  induction p as [p IH|p IH|]; cbn [digits2_pos]; [| |reflexivity]; rewrite Pos2Z.inj_succ, IH.
  - rewrite Pos2Z.inj_xI, Z.log2_succ_double by lia. lia.
  - rewrite Pos2Z.inj_xO, Z.log2_double by lia. lia.
Qed.
Lemma shift_pos_mul d p : Zpos (shift_pos d p) = Zpos p * 2 ^ Zpos d.
Proof. rewrite shift_pos_correct. change (Z.pow_pos 2 d) with (2 ^ Zpos d). lia. Qed.

(** the record after shifting m right by k *)
Definition shrn (m k : Z) : shr_record :=
  if k =? 0 then Build_shr_record m false false
  else Build_shr_record (m / 2 ^ k) (Z.odd (m / 2 ^ (k - 1))) (negb (m mod 2 ^ (k - 1) =? 0)).
Lemma shr_1_half q r s : 0 <= q -> shr_1 (Build_shr_record q r s) = Build_shr_record (q / 2) (Z.odd q) (r || s).
Proof.
  intros Hq. destruct q as [|p|p]; [reflexivity| |lia].
  destruct p as [p|p|]; cbn [shr_1 Z.odd].
  - f_equal. rewrite Pos2Z.inj_xI. lia.
  - f_equal. rewrite Pos2Z.inj_xO. lia.
  - reflexivity.
Qed.
Lemma shrn_step m k : 0 <= m -> 0 <= k -> shr_1 (shrn m k) = shrn m (k + 1).
Proof.
  intros Hm Hk. unfold shrn. replace (k + 1 =? 0) with false by lia. replace (k + 1 - 1) with k by lia.
  destruct (Z.eqb_spec k 0) as [->|Hn].
  - rewrite shr_1_half by lia. change (2 ^ 0) with 1. change (2 ^ (0 + 1)) with 2.
    rewrite Z.div_1_r, Z.mod_1_r. reflexivity.
  - assert (P : 0 < 2 ^ (k - 1)) by (apply pow2_pos; lia).
    assert (E : 2 ^ k = 2 ^ (k - 1) * 2).
    { replace k with ((k - 1) + 1) at 1 by lia. rewrite Z.pow_add_r by lia. reflexivity. }
    assert (E' : 2 ^ (k + 1) = 2 ^ k * 2) by (rewrite Z.pow_add_r by lia; reflexivity).
    rewrite shr_1_half by (apply Z.div_pos; lia).
    f_equal.
    + rewrite Z.div_div by lia. now rewrite E'.
    + rewrite E. rewrite (Z.rem_mul_r m (2 ^ (k - 1)) 2) by lia.
      pose proof (Z.mod_pos_bound m (2 ^ (k - 1)) P) as B.
      rewrite Zodd_mod. set (b := (m / 2 ^ (k - 1)) mod 2). set (r := m mod 2 ^ (k - 1)) in *.
      assert (Hb : b = 0 \/ b = 1) by (unfold b; pose proof (Z.mod_pos_bound (m / 2 ^ (k - 1)) 2); lia).
      destruct Hb as [-> | ->].
      * rewrite Z.mul_0_r, Z.add_0_r. reflexivity.
      * rewrite Z.mul_1_r. cbn [Zeq_bool]. change (Zeq_bool 1 1) with true. cbn [orb].
        symmetry. apply negb_true_iff. apply Z.eqb_neq. lia.
Qed.
Lemma shrn_iter m p : 0 <= m -> forall k, 0 <= k -> SpecFloat.iter_pos shr_1 p (shrn m k) = shrn m (k + Zpos p).
Proof.
  intros Hm. induction p as [p IH|p IH|]; intros k Hk; cbn [SpecFloat.iter_pos].
  - rewrite shrn_step, IH, IH by lia. f_equal. lia.
  - rewrite IH, IH by lia. f_equal. lia.
  - now apply shrn_step.
Qed.
Lemma shr_ok m e k : 0 <= m -> shr (shr_record_of_loc m loc_Exact) e k = if 0 <? k then (shrn m k, e + k) else (shrn m 0, e).
Proof.
  intros Hm. destruct k as [|p|p]; try reflexivity. cbn [shr shr_record_of_loc].
  change (Build_shr_record m false false) with (shrn m 0). rewrite shrn_iter by lia. reflexivity.
Qed.
Lemma round_shrn m k : 0 <= m -> 0 <= k ->
  round_nearest_even (shr_m (shrn m k)) (loc_of_shr_record (shrn m k)) = rne m k.
Proof.
  intros Hm Hk. unfold shrn, rne. destruct (Z.eqb_spec k 0) as [->|Hn].
  - cbn. lia.
  - destruct (Z.leb_spec k 0); [lia|]. cbn [shr_m loc_of_shr_record].
    assert (P : 0 < 2 ^ (k - 1)) by (apply pow2_pos; lia).
    assert (E : 2 ^ k = 2 ^ (k - 1) * 2).
    { replace k with ((k - 1) + 1) at 1 by lia. rewrite Z.pow_add_r by lia. reflexivity. }
    pose proof (Z.rem_mul_r m (2 ^ (k - 1)) 2 ltac:(lia) ltac:(lia)) as R. rewrite <- E in R.
    pose proof (Z.mod_pos_bound m (2 ^ (k - 1)) P) as B. rewrite Zodd_mod.
    set (b := (m / 2 ^ (k - 1)) mod 2) in *. set (r := m mod 2 ^ (k - 1)) in *. set (q := m / 2 ^ k).
    set (h := 2 ^ (k - 1)) in *.
    assert (Hb : b = 0 \/ b = 1) by (unfold b; pose proof (Z.mod_pos_bound (m / h) 2); lia).
    destruct Hb as [Hb | Hb]; rewrite Hb in *; cbn [Zeq_bool]; rewrite R, E.
    + change (Zeq_bool 0 1) with false. replace (2 * (r + h * 0) <? h * 2) with true by lia.
      destruct (r =? 0); reflexivity.
    + change (Zeq_bool 1 1) with true. replace (2 * (r + h * 1) <? h * 2) with false by lia.
      destruct (Z.eqb_spec r 0) as [Hr|Hr]; cbn [negb round_nearest_even].
      * replace (h * 2 <? 2 * (r + h * 1)) with false by lia. reflexivity.
      * replace (h * 2 <? 2 * (r + h * 1)) with true by lia. reflexivity.
Qed.

Lemma rne_bound m k d : 0 <= m < 2 ^ d -> 0 <= k -> 0 <= d -> d - k <= 24 -> 0 <= rne m k <= 2 ^ 24.
Proof.
  intros Hm Hk Hd Hdk. unfold rne. destruct (Z.leb_spec k 0).
  - assert (k = 0) by lia. subst k. cbn [Z.opp]. rewrite Z.mul_1_r.
    assert (2 ^ d <= 2 ^ 24) by (apply Z.pow_le_mono_r; lia). lia.
  - assert (P : 0 < 2 ^ k) by (apply pow2_pos; lia).
    assert (Q : 0 <= m / 2 ^ k < 2 ^ 24).
    { split; [apply Z.div_pos; lia|]. apply Z.div_lt_upper_bound; [lia|]. rewrite <- Z.pow_add_r by lia.
      assert (2 ^ d <= 2 ^ (k + 24)) by (apply Z.pow_le_mono_r; lia). lia. }
    cbv zeta. set (q := m / 2 ^ k) in *.
    destruct (_ <? _); [lia|]. destruct (_ <? _); [lia|]. destruct (Z.even q); lia.
Qed.

Definition sign_bit (s : bool) : Z := if s then 2 ^ 31 else 0.
(** the exponent at which m * 2^e is rounded *)
Definition round_at (m e : Z) : Z := Z.max (Z.log2 m + 1 + e - 24) (-149).

Lemma finish s R ex : 0 <= R <= 2 ^ 24 -> -149 <= ex <= 104 -> (R < 2 ^ 23 -> ex = -149) ->
  to_bits (match (let '(mrs'', e'') := shr_fexp 24 128 R ex loc_Exact in
                  match shr_m mrs'' with
                  | Z0 => S754_zero s
                  | Zpos m => if Zle_bool e'' (128 - 24) then S754_finite s m e'' else S754_infinity s
                  | _ => S754_nan
                  end) with x => x end) = sign_bit s + (ex + 149) * 2 ^ 23 + R.
Proof.
  intros HR Hex Hsub. unfold shr_fexp.
  destruct (Z.eq_dec R (2 ^ 24)) as [->|Hlt].
  - change (Zdigits2 (2 ^ 24)) with 25. unfold fexp, emin.
    replace (Z.max (25 + ex - 24) (3 - 128 - 24) - ex) with 1 by lia.
    change (shr (shr_record_of_loc (2 ^ 24) loc_Exact) ex 1) with (Build_shr_record (Zpos (2 ^ 23)) false false, ex + 1).
    cbv beta iota. cbn [shr_m].
    destruct (Z.leb (ex + 1) (128 - 24)) eqn:L; fold (sign_bit s).
    + unfold to_bits. fold (sign_bit s). change (Z.pos (2 ^ 23) <? 2 ^ 23) with false. cbv iota.
      change (Z.pos (2 ^ 23)) with (2 ^ 23). lia.
    + apply Z.leb_gt in L. assert (ex = 104) by lia. subst ex. unfold to_bits. fold (sign_bit s). lia.
  - assert (D : Zdigits2 R <= 24).
    { destruct R as [|p|p]; [cbn; lia| |lia]. cbn [Zdigits2]. rewrite digits_log2.
      assert (Z.log2 (Zpos p) < 24) by (apply Z.log2_lt_pow2; lia). lia. }
    set (k := fexp 24 128 (Zdigits2 R + ex) - ex).
    assert (K : k <= 0) by (unfold k, fexp, emin; lia).
    rewrite shr_ok by lia. replace (0 <? k) with false by lia. cbv iota beta. change (shr_m (shrn R 0)) with R.
    destruct R as [|p|p]; [| |lia].
    + rewrite (Hsub ltac:(lia)). unfold to_bits. fold (sign_bit s). lia.
    + replace (ex <=? 128 - 24) with true by lia. unfold to_bits. fold (sign_bit s).
      destruct (Z.ltb_spec (Zpos p) (2 ^ 23)) as [Hs|Hs]; [rewrite (Hsub Hs); lia|lia].
Qed.

Lemma rne_low m k : 0 < m -> 0 <= k -> Z.log2 m - k = 23 -> 2 ^ 23 <= rne m k.
Proof.
  intros Hm Hk Hl. pose proof (Z.log2_spec m Hm) as [L _].
  unfold rne. destruct (Z.leb_spec k 0).
  - assert (k = 0) by lia. subst k. replace (Z.log2 m) with 23 in L by lia. cbn [Z.opp]. lia.
  - assert (P : 0 < 2 ^ k) by (apply pow2_pos; lia).
    assert (2 ^ 23 <= m / 2 ^ k).
    { apply Z.div_le_lower_bound; [lia|]. rewrite <- Z.pow_add_r by lia. now replace (k + 23) with (Z.log2 m) by lia. }
    cbv zeta. destruct (_ <? _); [lia|]. destruct (_ <? _); [lia|]. destruct (Z.even _); lia.
Qed.

Lemma rne_shift m j k : 0 <= m -> 0 <= j -> k + j <= 0 -> rne (m * 2 ^ j) (k + j) = rne m k.
Proof.
  intros Hm Hj Hk. unfold rne. destruct (Z.leb_spec (k + j) 0); [|lia]. destruct (Z.leb_spec k 0); [|lia].
  rewrite <- Z.mul_assoc, <- Z.pow_add_r by lia. do 2 f_equal. lia.
Qed.

(** The pattern of the rounded value. *)
Theorem binary_round_bits s m e : Z.log2 (Zpos m) + e < 128 ->
  to_bits (binary_round 24 128 s m e) =
  sign_bit s + (round_at (Zpos m) e + 149) * 2 ^ 23 + rne (Zpos m) (round_at (Zpos m) e - e).
Proof.
  intros Hov. unfold binary_round. rewrite digits_log2.
  set (ex := round_at (Zpos m) e).
  assert (Eex : fexp 24 128 (Z.log2 (Zpos m) + 1 + e) = ex) by (unfold ex, round_at, fexp, emin; lia).
  rewrite Eex.
  pose proof (Z.log2_spec (Zpos m) ltac:(lia)) as Hlog. pose proof (Z.log2_nonneg (Zpos m)) as Hl0.
  assert (Hex : -149 <= ex <= 104) by (unfold ex, round_at; lia).
  assert (G : forall mz ez, ez <= ex -> Z.log2 (Zpos mz) + ez = Z.log2 (Zpos m) + e ->
     rne (Zpos mz) (ex - ez) = rne (Zpos m) (ex - e) ->
     to_bits (binary_round_aux 24 128 s (Zpos mz) ez loc_Exact) = sign_bit s + (ex + 149) * 2 ^ 23 + rne (Zpos m) (ex - e)).
  { intros mz ez Hez Hl HR. unfold binary_round_aux, shr_fexp at 1. cbn [Zdigits2]. rewrite digits_log2.
    replace (fexp 24 128 (Z.log2 (Zpos mz) + 1 + ez) - ez) with (ex - ez).
    2:{ rewrite <- Eex. f_equal. f_equal. lia. }
    rewrite shr_ok by lia.
    assert (E : (if 0 <? ex - ez then (shrn (Z.pos mz) (ex - ez), ez + (ex - ez)) else (shrn (Z.pos mz) 0, ez)) =
                (shrn (Zpos mz) (ex - ez), ex)).
    { destruct (Z.ltb_spec 0 (ex - ez)); [f_equal; lia|]. replace (ex - ez) with 0 by lia. f_equal. lia. }
    rewrite E. cbv iota beta. rewrite round_shrn by lia. rewrite HR.
    pose proof (Z.log2_spec (Zpos mz) ltac:(lia)) as Hlz. pose proof (Z.log2_nonneg (Zpos mz)) as Hlz0.
    apply (finish s (rne (Z.pos m) (ex - e)) ex).
    - rewrite <- HR. apply (rne_bound _ _ (Z.succ (Z.log2 (Zpos mz)))); try lia. unfold ex, round_at in *. lia.
    - lia.
    - intros Hs. destruct (Z.eq_dec ex (-149)) as [|Hn]; [assumption|]. exfalso.
      assert (2 ^ 23 <= rne (Zpos mz) (ex - ez)); [|lia].
      apply rne_low; try lia. unfold ex, round_at in *. lia. }
  unfold shl_align. remember (ex - e) as k eqn:Ek. destruct k as [|p|p].
  - apply G; rewrite <- ?Ek; try reflexivity; lia.
  - apply G; rewrite <- ?Ek; try reflexivity; lia.
  - apply G; rewrite <- ?Ek.
    + lia.
    + rewrite shift_pos_mul, Z.log2_mul_pow2 by lia. lia.
    + rewrite shift_pos_mul. replace (ex - ex) with (Zneg p + Zpos p) by lia. apply rne_shift; lia.
Qed.

(** ** Patterns and magnitudes in units of 2^-149 *)
(** the magnitude of a finite pattern *)
Definition mag (w : Z) : Z :=
  let E := (w / 2 ^ 23) mod 2 ^ 8 in let M := w mod 2 ^ 23 in
  if E =? 0 then M else (M + 2 ^ 23) * 2 ^ (E - 1).
Definition finite (w : Z) : Prop := 0 <= w < 2 ^ 32 /\ (w / 2 ^ 23) mod 2 ^ 8 <> 255.
Definition val (w : Z) : Z := if Z.testbit w 31 then - mag w else mag w.
(** the pattern of the float nearest to X * 2^-149 *)
Definition enc (X : Z) : Z := let k := Z.max (Z.log2 X - 23) 0 in k * 2 ^ 23 + rne X k.

Lemma rne_scale m j k : 0 <= m -> 0 <= j -> rne (m * 2 ^ j) (k + j) = rne m k.
Proof.
  intros Hm Hj. unfold rne.
  destruct (Z.leb_spec k 0) as [Hk|Hk], (Z.leb_spec (k + j) 0) as [Hkj|Hkj]; try lia.
  - rewrite <- Z.mul_assoc, <- Z.pow_add_r by lia. do 2 f_equal. lia.
  - assert (P : 0 < 2 ^ (k + j)) by (apply pow2_pos; lia).
    assert (E : m * 2 ^ j = m * 2 ^ (- k) * 2 ^ (k + j)).
    { rewrite <- Z.mul_assoc, <- Z.pow_add_r by lia. do 2 f_equal. lia. }
    rewrite E, Z.div_mul, Z.mod_mul by lia. cbv zeta. destruct (Z.ltb_spec (2 * 0) (2 ^ (k + j))); lia.
  - assert (P : 0 < 2 ^ k) by (apply pow2_pos; lia). assert (Pj : 0 < 2 ^ j) by (apply pow2_pos; lia).
    rewrite Z.pow_add_r by lia.
    rewrite Z.div_mul_cancel_r by lia. rewrite Z.mul_mod_distr_r by lia. cbv zeta.
    set (r := m mod 2 ^ k). set (h := 2 ^ k) in *. set (t := 2 ^ j) in *.
    assert (A : (2 * (r * t) <? h * t) = (2 * r <? h)).
    { destruct (Z.ltb_spec (2 * r) h), (Z.ltb_spec (2 * (r * t)) (h * t)); auto; exfalso; nia. }
    assert (B : (h * t <? 2 * (r * t)) = (h <? 2 * r)).
    { destruct (Z.ltb_spec h (2 * r)), (Z.ltb_spec (h * t) (2 * (r * t))); auto; exfalso; nia. }
    rewrite A, B. reflexivity.
Qed.

(** rounding m * 2^e when that is X * 2^-149 *)
Lemma binary_round_enc s m e X : 0 < X -> X < 2 ^ 277 -> -149 <= e -> X = Zpos m * 2 ^ (e + 149) ->
  to_bits (binary_round 24 128 s m e) = sign_bit s + enc X.
Proof.
  intros HX Hov He EX. pose proof (Z.log2_nonneg (Zpos m)).
  assert (L : Z.log2 X = Z.log2 (Zpos m) + (e + 149)) by (rewrite EX, Z.log2_mul_pow2; lia).
  assert (Hl : Z.log2 X < 277) by (apply Z.log2_lt_pow2; lia).
  rewrite binary_round_bits by lia. unfold enc, round_at.
  replace (Z.max (Z.log2 (Z.pos m) + 1 + e - 24) (-149) + 149) with (Z.max (Z.log2 X - 23) 0) by lia.
  set (k := Z.max (Z.log2 X - 23) 0).
  replace (Z.max (Z.log2 (Z.pos m) + 1 + e - 24) (-149) - e) with (k - (e + 149)) by lia.
  rewrite <- (rne_scale (Zpos m) (e + 149) (k - (e + 149))) by lia.
  rewrite <- EX. replace (k - (e + 149) + (e + 149)) with k by lia. lia.
Qed.

Lemma mag_nonneg w : 0 <= mag w.
Proof.
  unfold mag. cbv zeta. pose proof (Z.mod_pos_bound w (2 ^ 23) ltac:(lia)).
  destruct (_ =? 0); [lia|]. apply Z.mul_nonneg_nonneg; [lia|]. apply Z.pow_nonneg. lia.
Qed.
Lemma mag_bound w : finite w -> mag w < 2 ^ 277.
Proof.
  intros [Hw Hf]. unfold mag. cbv zeta. pose proof (Z.mod_pos_bound w (2 ^ 23) ltac:(lia)).
  pose proof (Z.mod_pos_bound (w / 2 ^ 23) (2 ^ 8) ltac:(lia)) as HE. set (E := (w / 2 ^ 23) mod 2 ^ 8) in *.
  destruct (Z.eqb_spec E 0); [change (2 ^ 277) with (2 ^ 23 * 2 ^ 254); lia|].
  assert (2 ^ (E - 1) <= 2 ^ 253) by (apply Z.pow_le_mono_r; lia).
  change (2 ^ 277) with (2 ^ 24 * 2 ^ 253). apply Z.lt_le_trans with (2 ^ 24 * 2 ^ (E - 1)).
  - apply Z.mul_lt_mono_pos_r; [apply pow2_pos; lia|lia].
  - apply Z.mul_le_mono_nonneg_l; lia.
Qed.

(** what [of_bits] is on a finite pattern *)
Lemma of_bits_finite w : finite w ->
  (mag w = 0 /\ of_bits w = S754_zero (Z.testbit w 31)) \/
  (exists m e, of_bits w = S754_finite (Z.testbit w 31) m e /\ -149 <= e /\ mag w = Zpos m * 2 ^ (e + 149)).
Proof.
  intros [Hw Hf]. unfold of_bits, mag. cbv zeta.
  pose proof (Z.mod_pos_bound w (2 ^ 23) ltac:(lia)) as HM.
  pose proof (Z.mod_pos_bound (w / 2 ^ 23) (2 ^ 8) ltac:(lia)) as HE. set (E := (w / 2 ^ 23) mod 2 ^ 8) in *.
  destruct (Z.eqb_spec E 255); [contradiction|]. destruct (Z.eqb_spec E 0).
  - destruct (w mod 2 ^ 23) as [|p|p]; [left; auto| |lia].
    right. exists p, (-149). split; [reflexivity|]. split; [lia|]. change (2 ^ (-149 + 149)) with 1. lia.
  - right. destruct (w mod 2 ^ 23 + 2 ^ 23) as [|p|p] eqn:Ep; [lia| |lia].
    exists p, (E - 150). split; [reflexivity|]. split; [lia|]. do 2 f_equal. lia.
Qed.

Lemma align_mag m e ez : ez <= e -> Zpos (fst (shl_align m e ez)) = Zpos m * 2 ^ (e - ez).
Proof.
  intros H. unfold shl_align. destruct (ez - e) as [|p|p] eqn:E; cbn [fst].
  - replace (e - ez) with 0 by lia. change (2 ^ 0) with 1. lia.
  - lia.
  - rewrite shift_pos_mul. do 2 f_equal. lia.
Qed.

Lemma normalize_enc N ez X : N <> 0 -> -149 <= ez -> X = N * 2 ^ (ez + 149) -> Z.abs X < 2 ^ 277 ->
  to_bits (binary_normalize 24 128 N ez false) = sign_bit (X <? 0) + enc (Z.abs X).
Proof.
  intros HN Hez HX Hb. assert (P : 0 < 2 ^ (ez + 149)) by (apply pow2_pos; lia).
  destruct N as [|p|p]; [lia| |]; cbn [binary_normalize].
  - assert (0 < X) by (rewrite HX; apply Z.mul_pos_pos; lia).
    replace (X <? 0) with false by lia. apply binary_round_enc; try lia.
  - assert (X < 0) by (rewrite HX; apply Z.mul_neg_pos; lia).
    replace (X <? 0) with true by lia. apply binary_round_enc; try lia.
Qed.

(** a finite pattern below the sign bit is the encoding of its magnitude *)
Lemma enc_exact q k : 0 <= k -> 0 < q < 2 ^ 24 -> (0 < k -> 2 ^ 23 <= q) -> enc (q * 2 ^ k) = k * 2 ^ 23 + q.
Proof.
  intros Hk Hq Hn. unfold enc. rewrite Z.log2_mul_pow2 by lia.
  assert (Hl : Z.log2 q < 24) by (apply Z.log2_lt_pow2; lia). pose proof (Z.log2_nonneg q).
  destruct (Z.eq_dec k 0) as [->|Hk0].
  - rewrite Z.max_r by lia. unfold rne. cbn [Z.leb Z.opp Z.compare]. change (2 ^ 0) with 1. lia.
  - assert (Z.log2 q = 23) by (apply Z.log2_unique; [lia|]; change (2 ^ Z.succ 23) with (2 ^ 24); lia).
    rewrite Z.max_l by lia. replace (k + Z.log2 q - 23) with (0 + k) by lia.
    rewrite rne_scale by lia. unfold rne. cbn [Z.leb Z.opp Z.compare]. change (2 ^ 0) with 1. lia.
Qed.
Lemma enc_mag w : finite w -> mag w <> 0 -> enc (mag w) = w mod 2 ^ 31.
Proof.
  intros [Hw Hf] H0. unfold mag in *. cbv zeta in *.
  pose proof (Z.mod_pos_bound w (2 ^ 23) ltac:(lia)) as HM.
  pose proof (Z.mod_pos_bound (w / 2 ^ 23) (2 ^ 8) ltac:(lia)) as HE.
  assert (S : w mod 2 ^ 31 = ((w / 2 ^ 23) mod 2 ^ 8) * 2 ^ 23 + w mod 2 ^ 23).
  { change (2 ^ 31) with (2 ^ 23 * 2 ^ 8). rewrite Z.rem_mul_r by lia. lia. }
  rewrite S. set (E := (w / 2 ^ 23) mod 2 ^ 8) in *. set (M := w mod 2 ^ 23) in *.
  destruct (Z.eqb_spec E 0) as [E0|E0].
  - rewrite E0. pose proof (enc_exact M 0 ltac:(lia) ltac:(lia) ltac:(lia)) as X. change (2 ^ 0) with 1 in X.
    rewrite Z.mul_1_r in X. lia.
  - rewrite enc_exact by lia. lia.
Qed.
Lemma sign_split w : 0 <= w < 2 ^ 32 -> w = sign_bit (Z.testbit w 31) + w mod 2 ^ 31.
Proof.
  intros Hw. unfold sign_bit. rewrite Z.testbit_odd, Z.shiftr_div_pow2 by lia.
  assert (H : w / 2 ^ 31 = 0 \/ w / 2 ^ 31 = 1) by lia.
  pose proof (Z.div_mod w (2 ^ 31) ltac:(lia)). destruct H as [H|H]; rewrite H in *; cbn [Z.odd]; lia.
Qed.
Lemma not_nan w : finite w -> is_nan_bits w = false.
Proof. intros [_ H]. unfold is_nan_bits. destruct (Z.eqb_spec ((w / 2 ^ 23) mod 2 ^ 8) 255); [contradiction|reflexivity]. Qed.
Lemma val_zero w : val w = 0 <-> mag w = 0.
Proof. unfold val. destruct (Z.testbit w 31); lia. Qed.
Lemma val_neg w : mag w <> 0 -> (val w <? 0) = Z.testbit w 31.
Proof. intros H. pose proof (mag_nonneg w). unfold val. destruct (Z.testbit w 31); lia. Qed.
Lemma val_abs w : Z.abs (val w) = mag w.
Proof. pose proof (mag_nonneg w). unfold val. destruct (Z.testbit w 31); lia. Qed.

(** Addition is exact addition followed by rounding. *)
Theorem fadd_bits_val a b : finite a -> finite b -> val a + val b <> 0 -> Z.abs (val a + val b) < 2 ^ 277 ->
  fadd_bits a b = sign_bit (val a + val b <? 0) + enc (Z.abs (val a + val b)).
Proof.
  intros Fa Fb HN Hov. unfold fadd_bits. rewrite !not_nan by assumption.
  assert (one : forall w, finite w -> mag w <> 0 -> w = sign_bit (val w <? 0) + enc (Z.abs (val w))).
  { intros w Fw Hw. rewrite val_neg, val_abs, enc_mag by assumption. apply sign_split, Fw. }
  assert (tb : forall w m e, finite w -> of_bits w = S754_finite (Z.testbit w 31) m e -> mag w <> 0 -> to_bits (of_bits w) = w).
  { intros w m e Fw Ew Hw. rewrite Ew. unfold to_bits. fold (sign_bit (Z.testbit w 31)).
    transitivity (sign_bit (Z.testbit w 31) + w mod 2 ^ 31); [|symmetry; apply sign_split, Fw].
    revert Ew. destruct Fw as [Rw Nw]. unfold of_bits. cbv zeta.
    pose proof (Z.mod_pos_bound w (2 ^ 23) ltac:(lia)) as HM.
    pose proof (Z.mod_pos_bound (w / 2 ^ 23) (2 ^ 8) ltac:(lia)) as HE.
    assert (S : w mod 2 ^ 31 = ((w / 2 ^ 23) mod 2 ^ 8) * 2 ^ 23 + w mod 2 ^ 23).
    { change (2 ^ 31) with (2 ^ 23 * 2 ^ 8). rewrite Z.rem_mul_r by lia. lia. }
    rewrite S. set (E := (w / 2 ^ 23) mod 2 ^ 8) in *. set (M := w mod 2 ^ 23) in *.
    destruct (Z.eqb_spec E 255); [contradiction|]. destruct (Z.eqb_spec E 0) as [E0|E0].
    - destruct M as [|p|p] eqn:EM; intros X; [discriminate| |discriminate].
      assert (p = m) by congruence. subst p. replace (Z.pos m <? 2 ^ 23) with true by lia. rewrite E0. lia.
    - destruct (M + 2 ^ 23) as [|p|p] eqn:EM; intros X; [discriminate| |discriminate].
      assert (p = m) by congruence. assert (e = E - 150) by congruence. subst p e.
      replace (Z.pos m <? 2 ^ 23) with false by lia. lia. }
  destruct (of_bits_finite a Fa) as [[Za Ea]|(ma & ea & Ea & Ha & Ma)];
  destruct (of_bits_finite b Fb) as [[Zb Eb]|(mb & eb & Eb & Hb & Mb)].
  - exfalso. apply HN. rewrite (proj2 (val_zero a) Za), (proj2 (val_zero b) Zb). reflexivity.
  - rewrite (proj2 (val_zero a) Za), Z.add_0_l in *.
    assert (mag b <> 0) by (rewrite <- val_zero; lia).
    rewrite <- (one b Fb) by assumption.
    unfold fadd, SFadd. rewrite Ea, Eb. rewrite <- Eb. now apply (tb b mb eb).
  - rewrite (proj2 (val_zero b) Zb), Z.add_0_r in *.
    assert (mag a <> 0) by (rewrite <- val_zero; lia).
    rewrite <- (one a Fa) by assumption.
    unfold fadd, SFadd. rewrite Ea, Eb. rewrite <- Ea. now apply (tb a ma ea).
  - unfold fadd, SFadd. rewrite Ea, Eb. cbv zeta. set (ez := Z.min ea eb).
    rewrite !align_mag by lia.
    assert (EX : val a + val b = (cond_Zopp (Z.testbit a 31) (Z.pos ma * 2 ^ (ea - ez)) +
                                  cond_Zopp (Z.testbit b 31) (Z.pos mb * 2 ^ (eb - ez))) * 2 ^ (ez + 149)).
    { unfold val. rewrite Ma, Mb.
      replace (2 ^ (ea + 149)) with (2 ^ (ea - ez) * 2 ^ (ez + 149)) by (rewrite <- Z.pow_add_r by lia; f_equal; lia).
      replace (2 ^ (eb + 149)) with (2 ^ (eb - ez) * 2 ^ (ez + 149)) by (rewrite <- Z.pow_add_r by lia; f_equal; lia).
      unfold cond_Zopp. destruct (Z.testbit a 31), (Z.testbit b 31); ring. }
    apply normalize_enc; try lia.
Qed.

(** where the encoding lies relative to a power of two *)
Lemma enc_ge X j : 23 <= j -> 2 ^ j <= X -> (j - 22) * 2 ^ 23 <= enc X.
Proof.
  intros Hj HX. assert (P : 0 < 2 ^ j) by (apply pow2_pos; lia).
  assert (L : j <= Z.log2 X) by (apply Z.log2_le_pow2; lia).
  unfold enc. cbv zeta. rewrite Z.max_l by lia.
  assert (2 ^ 23 <= rne X (Z.log2 X - 23)) by (apply rne_low; lia). lia.
Qed.
Lemma rne_upper X k q : 0 <= k -> X <= q * 2 ^ k -> 0 <= X -> rne X k <= q.
Proof.
  intros Hk HX H0. unfold rne. destruct (Z.leb_spec k 0).
  - assert (k = 0) by lia. subst k. change (2 ^ 0) with 1 in HX. cbn [Z.opp]. change (2 ^ 0) with 1. lia.
  - assert (P : 0 < 2 ^ k) by (apply pow2_pos; lia). cbv zeta.
    pose proof (Z.div_mod X (2 ^ k) ltac:(lia)) as D. pose proof (Z.mod_pos_bound X (2 ^ k) P) as B.
    set (r := X mod 2 ^ k) in *. set (d := X / 2 ^ k) in *. set (t := 2 ^ k) in *. clearbody r d t.
    assert (Hd : d <= q) by nia.
    destruct (Z.eq_dec d q) as [->|Hn].
    + assert (r = 0) by nia. subst r. replace (2 * 0 <? t) with true by lia. lia.
    + destruct (_ <? _); [lia|]. destruct (_ <? _); [lia|]. destruct (Z.even d); lia.
Qed.
Lemma rne_lower X k q : 0 <= k -> q * 2 ^ k <= X -> 0 <= X -> q <= rne X k.
Proof.
  intros Hk HX H0. unfold rne. destruct (Z.leb_spec k 0).
  - assert (k = 0) by lia. subst k. change (2 ^ 0) with 1 in HX. cbn [Z.opp]. change (2 ^ 0) with 1. lia.
  - assert (P : 0 < 2 ^ k) by (apply pow2_pos; lia). cbv zeta.
    assert (q <= X / 2 ^ k) by (apply Z.div_le_lower_bound; lia).
    destruct (_ <? _); [lia|]. destruct (_ <? _); [lia|]. destruct (Z.even _); lia.
Qed.
Lemma enc_lt X j : 24 <= j -> 0 < X -> X <= 2 ^ j - 2 ^ (j - 24) -> enc X < (j - 22) * 2 ^ 23.
Proof.
  intros Hj H0 HX. assert (P : 0 < 2 ^ (j - 24)) by (apply pow2_pos; lia).
  assert (E : 2 ^ j = 2 ^ 24 * 2 ^ (j - 24)) by (rewrite <- Z.pow_add_r by lia; f_equal; lia).
  assert (L : Z.log2 X < j) by (apply Z.log2_lt_pow2; lia). pose proof (Z.log2_nonneg X) as L0.
  pose proof (Z.log2_spec X H0) as [_ LS].
  unfold enc. cbv zeta. destruct (Z.eq_dec (Z.log2 X) (j - 1)) as [EL|NL].
  - rewrite Z.max_l by lia. rewrite EL. replace (j - 1 - 23) with (j - 24) by lia.
    assert (rne X (j - 24) <= 2 ^ 24 - 1) by (apply rne_upper; lia). lia.
  - set (k := Z.max (Z.log2 X - 23) 0).
    assert (rne X k <= 2 ^ 24).
    { apply rne_upper; [lia| |lia]. rewrite <- Z.pow_add_r by lia.
      assert (2 ^ Z.succ (Z.log2 X) <= 2 ^ (24 + k)) by (apply Z.pow_le_mono_r; lia). lia. }
    destruct (Z.eq_dec k 0) as [K0|K0].
    + destruct (Z.eq_dec j 24) as [->|]; [|lia].
      assert (rne X k <= 2 ^ 23); [|lia]. apply rne_upper; [lia| |lia]. rewrite K0. change (2 ^ 0) with 1.
      assert (2 ^ Z.succ (Z.log2 X) <= 2 ^ 23) by (apply Z.pow_le_mono_r; lia). lia.
    + lia.
Qed.
Lemma enc_range X : 0 < X -> X < 2 ^ 277 -> 0 <= enc X <= 255 * 2 ^ 23.
Proof.
  intros H0 HX. assert (L : Z.log2 X < 277) by (apply Z.log2_lt_pow2; lia). pose proof (Z.log2_nonneg X).
  pose proof (Z.log2_spec X H0) as [_ LS].
  unfold enc. cbv zeta. set (k := Z.max (Z.log2 X - 23) 0).
  assert (0 <= rne X k) by (apply rne_lower; lia).
  assert (rne X k <= 2 ^ 24).
  { apply rne_upper; [lia| |lia]. rewrite <- Z.pow_add_r by lia.
    assert (2 ^ Z.succ (Z.log2 X) <= 2 ^ (24 + k)) by (apply Z.pow_le_mono_r; lia). lia. }
  lia.
Qed.
