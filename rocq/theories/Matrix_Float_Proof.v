(** Lemmas for C45 in binary32. *)
From Coq Require Import Floats.SpecFloat.
From Verif Require Import Base Float_Model Float_Proof Simd_Model Matrix_Model Matrix_Spec.

Lemma fmul_one s m e : Z.max (Zpos (digits2_pos m) + e - 24) (-149) = e -> e <= 104 ->
  fmul (S754_finite s m e) (of_int 1) = S754_finite s m e.
Proof.
  intros Hc He. change (of_int 1) with (S754_finite false 8388608 (-23)). unfold fmul, SFmul.
  rewrite xorb_false_r. unfold binary_round_aux, shr_fexp.
  change (Zdigits2 (Zpos (m * 8388608))) with (Zpos (digits2_pos (m * 8388608))).
  assert (Dg : Zpos (digits2_pos (m * 8388608)) = Zpos (digits2_pos m) + 23).
  { rewrite !digits_log2. rewrite Pos2Z.inj_mul. change (Z.pos 8388608) with (2 ^ 23). rewrite Z.log2_mul_pow2 by lia. lia. }
  rewrite Dg. unfold fexp, emin. replace (Z.max _ _ - (e + -23)) with 23 by lia.
  rewrite shr_ok by lia. change (0 <? 23) with true. cbv iota.
  assert (Sh : shrn (Zpos (m * 8388608)) 23 = Build_shr_record (Zpos m) false false).
  { unfold shrn. change (23 =? 0) with false. cbv iota. rewrite Pos2Z.inj_mul. change (Z.pos 8388608) with (2 * 2 ^ 22).
    change (23 - 1) with 22. replace (Z.pos m * (2 * 2 ^ 22)) with ((Z.pos m * 2) * 2 ^ 22) by lia. rewrite Z.mod_mul, Z.div_mul by lia.
    replace (Z.pos m * 2 * 2 ^ 22) with (Zpos m * 2 ^ 23) by lia. rewrite Z.div_mul by lia.
    f_equal. rewrite Z.mul_comm, Z.odd_mul. reflexivity. }
  rewrite Sh. cbn [shr_m loc_of_shr_record round_nearest_even].
  change (Zdigits2 (Zpos m)) with (Zpos (digits2_pos m)).
  replace (e + -23 + 23) with e by lia. replace (Z.max _ _ - e) with 0 by lia. cbn [shr shr_record_of_loc shr_m].
  replace (e <=? 128 - 24) with true by lia. reflexivity.
Qed.

Lemma of_bits_canonical w : finite w ->
  (exists s, of_bits w = S754_zero s) \/
  (exists s m e, of_bits w = S754_finite s m e /\ Z.max (Zpos (digits2_pos m) + e - 24) (-149) = e /\ e <= 104).
Proof.
  intros [Hw Hf]. unfold of_bits. cbv zeta.
  pose proof (Z.mod_pos_bound w (2 ^ 23) ltac:(lia)) as HM.
  pose proof (Z.mod_pos_bound (w / 2 ^ 23) (2 ^ 8) ltac:(lia)) as HE.
  set (E := (w / 2 ^ 23) mod 2 ^ 8) in *. set (Mn := w mod 2 ^ 23) in *. clearbody E Mn.
  replace (E =? 255) with false by lia. destruct (Z.eqb_spec E 0) as [->|E0].
  - destruct Mn as [|p|p]; [left; eauto| |lia]. right. exists (Z.testbit w 31), p, (-149). split; [reflexivity|]. split; [|lia].
    rewrite digits_log2. assert (Z.log2 (Zpos p) < 23) by (apply Z.log2_lt_pow2; lia). lia.
  - destruct (Mn + 2 ^ 23) as [|p|p] eqn:EM; [lia| |lia]. right. exists (Z.testbit w 31), p, (E - 150). split; [reflexivity|].
    change (2 ^ 8) with 256 in HE. split; [|lia].
    rewrite digits_log2. assert (Z.log2 (Zpos p) = 23). { apply Z.log2_unique; [lia|]. change (2 ^ (Z.succ 23)) with (2 * 2 ^ 23). lia. } lia.
Qed.

Lemma single_cases x : finite_single x -> (exists s, x = S754_zero s) \/
  (exists s m e, x = S754_finite s m e /\ fmul x (of_int 1) = x).
Proof.
  intros (w & Hw & ->). destruct (of_bits_canonical w Hw) as [H|(s & m & e & E & C & L)]; [now left|right].
  exists s, m, e. split; [exact E|]. rewrite E. now apply fmul_one.
Qed.
Definition number (x : f32) : Prop := match x with S754_zero _ | S754_finite _ _ _ => True | _ => False end.
Lemma single_number x : finite_single x -> number x.
Proof. intros H. destruct (single_cases x H) as [(s & ->)|(s & m & e & -> & _)]; exact I. Qed.
Lemma mul_0_r x : number x -> is_0 (fmul x (of_int 0)) = true.
Proof. destruct x; try contradiction; reflexivity. Qed.
Lemma mul_0_l x : number x -> is_0 (fmul (of_int 0) x) = true.
Proof. destruct x; try contradiction; reflexivity. Qed.
Lemma fmul_comm a b : number a -> number b -> fmul a b = fmul b a.
Proof.
  destruct a as [s|s| |s m e], b as [s'|s'| |s' m' e']; try contradiction; intros _ _; unfold fmul, SFmul; rewrite (xorb_comm s s'); try reflexivity.
  now rewrite Pos.mul_comm, Z.add_comm.
Qed.
Lemma mul_1_r x : finite_single x -> same_single (fmul x (of_int 1)) x.
Proof. intros H. destruct (single_cases x H) as [(s & ->)|(s & m & e & E & P)]; [right; split; reflexivity|left; exact P]. Qed.
Lemma mul_1_l x : finite_single x -> same_single (fmul (of_int 1) x) x.
Proof. intros H. rewrite fmul_comm; [now apply mul_1_r|exact I|now apply single_number]. Qed.
Lemma add_0_r x t z : number x -> same_single t x -> is_0 z = true -> same_single (fadd t z) x.
Proof.
  intros Hx Ht Hz. destruct z; try discriminate. destruct Ht as [->|[H1 H2]].
  - destruct x as [s'| | |]; try contradiction; [right|left]; [split; destruct s, s'; reflexivity|reflexivity].
  - destruct t; try discriminate. right. split; [destruct s, s0; reflexivity|assumption].
Qed.
Lemma add_0_l x t z : number x -> same_single t x -> is_0 z = true -> same_single (fadd z t) x.
Proof.
  intros Hx Ht Hz. destruct z; try discriminate. destruct Ht as [->|[H1 H2]].
  - destruct x as [s'| | |]; try contradiction; [right|left]; [split; destruct s, s'; reflexivity|reflexivity].
  - destruct t; try discriminate. right. split; [destruct s, s0; reflexivity|assumption].
Qed.
Lemma add_00 a b : is_0 a = true -> is_0 b = true -> is_0 (fadd a b) = true.
Proof. destruct a as [[]| | |], b as [[]| | |]; try discriminate; reflexivity. Qed.

Ltac unit_term :=
  lazymatch goal with
  | |- same_single (fadd (fadd (fmul ?a ?p) (fmul ?b ?q)) (fadd (fmul ?c ?r) (fmul ?d ?s))) ?x =>
    first
    [ apply add_0_r; [now apply single_number | first [apply add_0_r; [now apply single_number|first [now apply mul_1_r | now apply mul_1_l]|]
                                                      | apply add_0_l; [now apply single_number|first [now apply mul_1_r | now apply mul_1_l]|]] |apply add_00];
      first [now apply mul_0_r, single_number | now apply mul_0_l, single_number]
    | apply add_0_l; [now apply single_number | first [apply add_0_r; [now apply single_number|first [now apply mul_1_r | now apply mul_1_l]|]
                                                      | apply add_0_l; [now apply single_number|first [now apply mul_1_r | now apply mul_1_l]|]] |apply add_00];
      first [now apply mul_0_r, single_number | now apply mul_0_l, single_number] ]
  end.
Ltac open_finite :=
  repeat match goal with
  | H : finite_matrix _ |- _ => destruct H as (? & ? & ? & ?)
  | H : finite_vec _ |- _ => destruct H as (? & ? & ? & ?)
  end.
Lemma identity_right m : finite_matrix m -> same_matrix (mmul m Identity) m.
Proof.
  intros H. open_finite. repeat split; cbn [mmul Identity TransposeFull shuffle lane r1 r2 r3 r4 X Y Z_ W Dot singles s_add s_mul s_int]; unit_term.
Qed.
Lemma identity_left m : finite_matrix m -> same_matrix (mmul Identity m) m.
Proof.
  intros H. open_finite. repeat split; cbn [mmul Identity TransposeFull shuffle lane r1 r2 r3 r4 X Y Z_ W Dot singles s_add s_mul s_int]; unit_term.
Qed.
