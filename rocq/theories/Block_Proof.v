(** Proofs for C41 and C52. *)
From Verif Require Import Base Reflector_Model Reflector_Spec Reflector_Proof BinDump_Proof Writes
  Float_Model Block_Model Block_Spec.

Lemma cell_bounds w h width row col : 0 <= w < width -> 0 <= h -> in_block row col ->
  0 <= (4 * h + row) * (4 * width) + (4 * w + col) /\
  (4 * h + row) * (4 * width) + (4 * w + col) + 1 <= (4 * h + 4) * (4 * width).
Proof.
  intros Hw Hh (Hr & Hc).
  assert (A : (4 * h + row) * (4 * width) <= (4 * h + 3) * (4 * width)) by (apply Z.mul_le_mono_nonneg_r; lia).
  assert (B : 0 <= (4 * h + row) * (4 * width)) by (apply Z.mul_nonneg_nonneg; lia). lia.
Qed.

Lemma texel_cell base w h width po row col buf : fits w h width po buf -> in_block row col ->
  texel base w h width row col po = cell base w h width po row col.
Proof.
  intros (Hw & Hh & Hp & H32 & _) Hin. unfold texel, cell. f_equal. f_equal.
  replace ((h * 4 + row) * (width * 4) + w * 4 + col) with ((4 * h + row) * (4 * width) + (4 * w + col)) by lia.
  destruct (cell_bounds w h width row col Hw Hh Hin) as [A B].
  set (c := (4 * h + row) * (4 * width) + (4 * w + col)) in *.
  apply wrap_small.
  assert ((c + 1) * po <= (4 * h + 4) * (4 * width) * po) by (apply Z.mul_le_mono_nonneg_r; lia).
  assert (0 <= c * po) by (apply Z.mul_nonneg_nonneg; lia). lia.
Qed.

(** distinct texels occupy distinct cells *)
Lemma cells_apart w h width po row col row' col' base base' i n n' : 0 <= w < width -> 0 <= h -> 0 < po ->
  in_block row col -> in_block row' col' ->
  (base + n <= Z.to_nat po)%nat -> (base' + n' <= Z.to_nat po)%nat ->
  (cell base w h width po row col <= i < cell base w h width po row col + n)%nat ->
  (cell base' w h width po row' col' <= i < cell base' w h width po row' col' + n')%nat ->
  row = row' /\ col = col'.
Proof.
  intros Hw Hh Hp Hin Hin' Hb Hb' Hi Hi'. unfold cell in *.
  pose proof (cell_bounds w h width row col Hw Hh Hin) as [P _].
  pose proof (cell_bounds w h width row' col' Hw Hh Hin') as [P' _].
  assert (E : (4 * h + row) * (4 * width) + (4 * w + col) = (4 * h + row') * (4 * width) + (4 * w + col')).
  { set (c := (4 * h + row) * (4 * width) + (4 * w + col)) in *.
    set (c' := (4 * h + row') * (4 * width) + (4 * w + col')) in *. clearbody c c'.
    assert (A1 : Z.of_nat (Z.to_nat (c * po)) = c * po) by (apply Z2Nat.id; apply Z.mul_nonneg_nonneg; lia).
    assert (A2 : Z.of_nat (Z.to_nat (c' * po)) = c' * po) by (apply Z2Nat.id; apply Z.mul_nonneg_nonneg; lia).
    assert (B1 : c * po < (c' + 1) * po) by lia. assert (B2 : c' * po < (c + 1) * po) by lia.
    apply Z.mul_lt_mono_pos_r in B1, B2; lia. }
  destruct Hin as (Hr & Hc), Hin' as (Hr' & Hc').
  assert (row = row').
  { assert (D : (row - row') * (4 * width) = col' - col) by lia.
    destruct (Z.eq_dec row row'); [assumption|].
    assert (row - row' >= 1 \/ row - row' <= -1) as [Q|Q] by lia; nia. }
  subst. lia.
Qed.

Lemma cell_inside base w h width po row col n buf : fits w h width po buf -> in_block row col ->
  (base + n <= Z.to_nat po)%nat -> inside (cell base w h width po row col) n buf.
Proof.
  intros (Hw & Hh & Hp & _ & HL) Hin Hb. unfold inside, cell.
  destruct (cell_bounds w h width row col Hw Hh Hin) as [A B].
  set (c := (4 * h + row) * (4 * width) + (4 * w + col)) in *.
  assert (D : (c + 1) * po <= (4 * h + 4) * (4 * width) * po) by (apply Z.mul_le_mono_nonneg_r; lia).
  assert (E : Z.of_nat (Z.to_nat (c * po)) = c * po) by (apply Z2Nat.id; apply Z.mul_nonneg_nonneg; lia). lia.
Qed.

(** A store of a part of a cell's content. *)
Definition part_of (base n : nat) (w h width po : Z) (F : Z -> Z -> list Z) (x : write) : Prop :=
  exists row col o, in_block row col /\ fst x = (cell base w h width po row col + o)%nat /\
    (o + length (snd x) <= n)%nat /\ snd x = firstn (length (snd x)) (skipn o (F row col)).

Lemma block_writes base n w h width po F ws buf : fits w h width po buf -> (base + n <= Z.to_nat po)%nat ->
  (forall row col, in_block row col -> length (F row col) = n) ->
  Forall (part_of base n w h width po F) ws ->
  (forall row col j, in_block row col -> (j < n)%nat ->
     exists x, In x ws /\ touches x (cell base w h width po row col + j)) ->
  exists buf', writes ws buf = Some buf' /\ block_written base n w h width po F buf buf'.
Proof.
  intros HF Hb HL HP HC. pose proof HF as (Hw & Hh & Hp & _).
  destruct (writes_ok ws buf) as (buf' & E & L & N).
  { eapply Forall_impl; [|exact HP]. intros x (row & col & o & Hin & Ex & Ho & _).
    pose proof (cell_inside base w h width po row col n buf HF Hin Hb). unfold inside in *. lia. }
  exists buf'. split; [exact E|]. split; [exact L|]. split.
  - intros row col Hin. apply list_ext. intros j. rewrite nth_bytes_at.
    destruct (Nat.ltb_spec j n) as [Hj|Hj].
    + destruct (nth_error (F row col) j) as [v|] eqn:EV.
      2:{ apply nth_error_None in EV. rewrite HL in EV by exact Hin. lia. }
      rewrite N. rewrite (last_write_some ws _ v); [reflexivity|now apply HC|].
      intros x Hx T. rewrite Forall_forall in HP.
      destruct (HP x Hx) as (row' & col' & o & Hin' & Ex & Ho & Ec). unfold touches in T.
      destruct (cells_apart w h width po row col row' col' base base
                  (cell base w h width po row col + j) n n) as [-> ->]; auto; try lia.
      unfold at_write. destruct (Nat.leb_spec (fst x) (cell base w h width po row' col' + j)); [|lia].
      rewrite Ec, Ex. replace (cell base w h width po row' col' + j - (cell base w h width po row' col' + o))%nat with (j - o)%nat by lia.
      rewrite nth_error_firstn_lt by lia. rewrite nth_error_skipn. rewrite <- EV. f_equal. lia.
    + symmetry. apply nth_error_None. rewrite HL by exact Hin. exact Hj.
  - intros i Hi. rewrite N, last_write_none; [reflexivity|]. intros x Hx T. unfold touches in T.
    rewrite Forall_forall in HP. destruct (HP x Hx) as (row & col & o & Hin & Ex & Ho & _).
    apply (Hi row col Hin). lia.
Qed.

Lemma in_block_cases (P : Z -> Z -> Prop) :
  P 0 0 -> P 0 1 -> P 0 2 -> P 0 3 -> P 1 0 -> P 1 1 -> P 1 2 -> P 1 3 ->
  P 2 0 -> P 2 1 -> P 2 2 -> P 2 3 -> P 3 0 -> P 3 1 -> P 3 2 -> P 3 3 ->
  forall row col, in_block row col -> P row col.
Proof.
  intros. destruct H15 as (Hr & Hc).
  assert (row = 0 \/ row = 1 \/ row = 2 \/ row = 3) as Er by lia.
  assert (col = 0 \/ col = 1 \/ col = 2 \/ col = 3) as Ec by lia.
  decompose [or] Er; decompose [or] Ec; subst; assumption.
Qed.

(** Two parts of the texels, one after the other; the second begins where the first ends or the
    other way round. *)
Lemma cell_shift base k w h width po row col :
  cell (base + k) w h width po row col = (cell base w h width po row col + k)%nat.
Proof. unfold cell. lia. Qed.

Lemma bytes_at_app x n m mem : bytes_at x (n + m) mem = bytes_at x n mem ++ bytes_at (x + n) m mem.
Proof.
  apply list_ext. intros i. rewrite nth_bytes_at.
  destruct (Nat.lt_ge_cases i (length (bytes_at x n mem))) as [H|H].
  - rewrite nth_error_app1 by exact H. rewrite nth_bytes_at.
    assert (i < n)%nat. { unfold bytes_at in H. rewrite firstn_length in H. lia. }
    destruct (Nat.ltb_spec i (n + m)), (Nat.ltb_spec i n); try lia. reflexivity.
  - rewrite nth_error_app2 by exact H. rewrite nth_bytes_at.
    unfold bytes_at in *. rewrite firstn_length, skipn_length in *.
    destruct (Nat.ltb_spec i (n + m)).
    + destruct (le_lt_dec n (length mem - x)).
      * replace (Nat.min n (length mem - x)) with n in * by lia.
        destruct (Nat.ltb_spec (i - n) m); [|lia]. f_equal. lia.
      * transitivity (@None Z); [apply nth_error_None; lia|]. symmetry.
        destruct (_ <? m)%nat; [apply nth_error_None; lia|reflexivity].
    + destruct (Nat.ltb_spec (i - Nat.min n (length mem - x)) m); [|reflexivity].
      symmetry. apply nth_error_None. lia.
Qed.

Lemma written_up b n1 n2 w h width po F G buf buf1 buf2 :
  0 <= w < width -> 0 <= h -> 0 < po -> (b + n1 + n2 <= Z.to_nat po)%nat ->
  block_written b n1 w h width po F buf buf1 -> block_written (b + n1) n2 w h width po G buf1 buf2 ->
  block_written b (n1 + n2) w h width po (fun r c => F r c ++ G r c) buf buf2.
Proof.
  intros Hw Hh Hp Hb (L1 & W1 & U1) (L2 & W2 & U2). split; [congruence|]. split.
  - intros row col Hin. rewrite bytes_at_app. f_equal.
    + rewrite <- W1 by exact Hin. apply list_ext. intros i. rewrite !nth_bytes_at.
      destruct (Nat.ltb_spec i n1); [|reflexivity]. apply U2. intros row' col' Hin' Hx.
      destruct (cells_apart w h width po row col row' col' b (b + n1) (cell b w h width po row col + i) n1 n2) as [-> ->]; auto; try lia.
      rewrite cell_shift in Hx. lia.
    + rewrite <- W2 by exact Hin. now rewrite cell_shift.
  - intros i Hi. rewrite U2, U1; auto.
    + intros row col Hin Hx. apply (Hi row col Hin). lia.
    + intros row col Hin Hx. apply (Hi row col Hin). rewrite cell_shift in Hx. lia.
Qed.
Lemma written_down b n1 n2 w h width po F G buf buf1 buf2 :
  0 <= w < width -> 0 <= h -> 0 < po -> (b + n2 + n1 <= Z.to_nat po)%nat ->
  block_written (b + n2) n1 w h width po F buf buf1 -> block_written b n2 w h width po G buf1 buf2 ->
  block_written b (n2 + n1) w h width po (fun r c => G r c ++ F r c) buf buf2.
Proof.
  intros Hw Hh Hp Hb (L1 & W1 & U1) (L2 & W2 & U2). split; [congruence|]. split.
  - intros row col Hin. rewrite bytes_at_app. f_equal; [now apply W2|].
    rewrite <- cell_shift, <- W1 by exact Hin. apply list_ext. intros i. rewrite !nth_bytes_at.
    destruct (Nat.ltb_spec i n1); [|reflexivity]. apply U2. intros row' col' Hin' Hx.
    destruct (cells_apart w h width po row col row' col' (b + n2) b (cell (b + n2) w h width po row col + i) n1 n2) as [-> ->]; auto; try lia.
    rewrite cell_shift in Hx. lia.
  - intros i Hi. rewrite U2, U1; auto.
    + intros row col Hin Hx. apply (Hi row col Hin). rewrite cell_shift in Hx. lia.
    + intros row col Hin Hx. apply (Hi row col Hin). lia.
Qed.

(** ** A store of the whole cell for each texel *)
Definition all16 : list (Z * Z) :=
  [(0, 0); (0, 1); (0, 2); (0, 3); (1, 0); (1, 1); (1, 2); (1, 3);
   (2, 0); (2, 1); (2, 2); (2, 3); (3, 0); (3, 1); (3, 2); (3, 3)].
Lemma all16_in row col : in_block row col -> In (row, col) all16.
Proof.
  revert row col. apply in_block_cases; unfold all16; cbn [In]; tauto.
Qed.
Lemma all16_block p : In p all16 -> in_block (fst p) (snd p).
Proof.
  unfold all16. cbn [In]. intros H. unfold in_block.
  repeat (destruct H as [<- | H]; [cbn [fst snd]; lia|]). destruct H.
Qed.

Lemma grid_writes base n w h width po F buf : fits w h width po buf -> (base + n <= Z.to_nat po)%nat ->
  (forall row col, in_block row col -> length (F row col) = n) ->
  exists buf', writes (map (fun p => (texel base w h width (fst p) (snd p) po, F (fst p) (snd p))) all16) buf = Some buf' /\
    block_written base n w h width po F buf buf'.
Proof.
  intros HF Hb HL. apply block_writes; auto.
  - apply Forall_forall. intros x Hx. apply in_map_iff in Hx as (p & <- & Hp). apply all16_block in Hp.
    exists (fst p), (snd p), 0%nat. cbn [fst snd]. split; [exact Hp|]. rewrite (texel_cell base w h width po _ _ buf HF Hp).
    split; [lia|]. rewrite (HL _ _ Hp). split; [lia|]. rewrite skipn_O, firstn_all2; [reflexivity|]. rewrite (HL _ _ Hp). lia.
  - intros row col j Hin Hj. exists (texel base w h width row col po, F row col). split.
    + apply in_map_iff. exists (row, col). split; [reflexivity|]. now apply all16_in.
    + unfold touches. cbn [fst snd]. rewrite (texel_cell base w h width po row col buf HF Hin), (HL row col Hin). lia.
Qed.

(** ** Fields *)
Lemma byte_sweep (P : Z -> bool) : forallb P (map Z.of_nat (seq 0 256)) = true -> forall d, is_byte d -> P d = true.
Proof.
  intros H d Hd. rewrite forallb_forall in H. apply H. apply in_map_iff. exists (Z.to_nat d).
  unfold is_byte in Hd. split; [lia|]. apply in_seq. lia.
Qed.
Ltac sweep d H := let X := fresh in
  match goal with |- ?l = ?r =>
    let f := eval pattern d in l in let g := eval pattern d in r in
    match f with ?F _ => match g with ?G _ =>
      assert (X : (fun x => F x =? G x) d = true);
        [ refine (byte_sweep (fun x => F x =? G x) _ d H); vm_compute; reflexivity | apply Z.eqb_eq in X; exact X ] end end end.

Lemma i7 d : is_byte d -> Z.land d 7 = d mod 8. Proof. intros H. sweep d H. Qed.
Lemma i56 d : is_byte d -> Z.shiftr (Z.land d 56) 3 = (d / 8) mod 8. Proof. intros H. sweep d H. Qed.
Lemma i192 d : is_byte d -> Z.shiftr (Z.land d 192) 6 = d / 64. Proof. intros H. sweep d H. Qed.
Lemma i1 d : is_byte d -> Z.shiftl (Z.land d 1) 2 = 4 * (d mod 2). Proof. intros H. sweep d H. Qed.
Lemma i14 d : is_byte d -> Z.shiftr (Z.land d 14) 1 = (d / 2) mod 8. Proof. intros H. sweep d H. Qed.
Lemma i112 d : is_byte d -> Z.shiftr (Z.land d 112) 4 = (d / 16) mod 8. Proof. intros H. sweep d H. Qed.
Lemma i128 d : is_byte d -> Z.shiftr (Z.land d 128) 7 = d / 128. Proof. intros H. sweep d H. Qed.
Lemma i3 d : is_byte d -> Z.shiftl (Z.land d 3) 1 = 2 * (d mod 4). Proof. intros H. sweep d H. Qed.
Lemma i28 d : is_byte d -> Z.shiftr (Z.land d 28) 2 = (d / 4) mod 8. Proof. intros H. sweep d H. Qed.
Lemma i224 d : is_byte d -> Z.shiftr (Z.land d 224) 5 = d / 32. Proof. intros H. sweep d H. Qed.
Lemma c15 d : is_byte d -> u8 (Z.land d 15 * 17) = 17 * (d mod 16). Proof. intros H. sweep d H. Qed.
Lemma c240 d : is_byte d -> u8 (Z.shiftr (Z.land d 240) 4 * 17) = 17 * (d / 16). Proof. intros H. sweep d H. Qed.
Lemma j1 d : is_byte d -> d1 d = d mod 4. Proof. intros H. unfold d1. sweep d H. Qed.
Lemma j2 d : is_byte d -> d2 d = (d / 4) mod 4. Proof. intros H. unfold d2. sweep d H. Qed.
Lemma j3 d : is_byte d -> d3 d = (d / 16) mod 4. Proof. intros H. unfold d3. sweep d H. Qed.
Lemma j4 d : is_byte d -> d4 d = d / 64. Proof. intros H. unfold d4. sweep d H. Qed.

Lemma lor_hi4 a b : 0 <= a < 4 -> 0 <= b < 2 -> Z.lor a (4 * b) = a + 4 * b.
Proof. intros Ha Hb. rewrite (Z.mul_comm 4 b). change 4 with (2 ^ 2). apply lor_low_shift; lia. Qed.
Lemma lor_hi2 a b : 0 <= a < 2 -> 0 <= b < 4 -> Z.lor a (2 * b) = a + 2 * b.
Proof. intros Ha Hb. rewrite (Z.mul_comm 2 b). apply (lor_low_shift a b 1); lia. Qed.

Lemma bc4_indices d0 d1 d2 d3 d4 d5 :
  is_byte d0 -> is_byte d1 -> is_byte d2 -> is_byte d3 -> is_byte d4 -> is_byte d5 ->
  [ Z.land d0 7; Z.shiftr (Z.land d0 56) 3; Z.lor (Z.shiftr (Z.land d0 192) 6) (Z.shiftl (Z.land d1 1) 2);
    Z.shiftr (Z.land d1 14) 1; Z.shiftr (Z.land d1 112) 4;
    Z.lor (Z.shiftr (Z.land d1 128) 7) (Z.shiftl (Z.land d2 3) 1); Z.shiftr (Z.land d2 28) 2; Z.shiftr (Z.land d2 224) 5;
    Z.land d3 7; Z.shiftr (Z.land d3 56) 3; Z.lor (Z.shiftr (Z.land d3 192) 6) (Z.shiftl (Z.land d4 1) 2);
    Z.shiftr (Z.land d4 14) 1; Z.shiftr (Z.land d4 112) 4;
    Z.lor (Z.shiftr (Z.land d4 128) 7) (Z.shiftl (Z.land d5 3) 1); Z.shiftr (Z.land d5 28) 2; Z.shiftr (Z.land d5 224) 5 ]
  = map (field 3 [d0; d1; d2; d3; d4; d5]) [0; 1; 2; 3; 4; 5; 6; 7; 8; 9; 10; 11; 12; 13; 14; 15].
Proof.
  intros H0 H1 H2 H3 H4 H5.
  rewrite !i7, !i56, !i192, !i1, !i14, !i112, !i128, !i3, !i28, !i224 by assumption.
  unfold is_byte in *. rewrite !lor_hi4, !lor_hi2 by lia.
  unfold field. cbn [map le_value].
  change (2 ^ 3) with 8. change (2 ^ (3 * 0)) with 1. change (2 ^ (3 * 1)) with 8. change (2 ^ (3 * 2)) with 64.
  change (2 ^ (3 * 3)) with 512. change (2 ^ (3 * 4)) with 4096. change (2 ^ (3 * 5)) with 32768.
  change (2 ^ (3 * 6)) with 262144. change (2 ^ (3 * 7)) with 2097152.
  change (2 ^ (3 * 8)) with (16777216 * 1). change (2 ^ (3 * 9)) with (16777216 * 8). change (2 ^ (3 * 10)) with (16777216 * 64).
  change (2 ^ (3 * 11)) with (16777216 * 512). change (2 ^ (3 * 12)) with (16777216 * 4096). change (2 ^ (3 * 13)) with (16777216 * 32768).
  change (2 ^ (3 * 14)) with (16777216 * 262144). change (2 ^ (3 * 15)) with (16777216 * 2097152).
  rewrite <- !Z.div_div by lia.
  replace ((d0 + 256 * (d1 + 256 * (d2 + 256 * (d3 + 256 * (d4 + 256 * (d5 + 256 * 0)))))) / 16777216)
    with (d3 + 256 * d4 + 65536 * d5) by lia.
  set (hi := d3 + 256 * (d4 + 256 * (d5 + 256 * 0))). 
  assert (hi = d3 + 256 * d4 + 65536 * d5) by (unfold hi; lia). clearbody hi.
  repeat (apply f_equal2; [lia|]). reflexivity.
Qed.

Lemma field_range bits bytes k : 0 <= bits -> 0 <= field bits bytes k < 2 ^ bits.
Proof. intros. unfold field. apply Z.mod_pos_bound. lia. Qed.

Lemma pick_palette a0 a1 i : 0 <= i < 8 -> pick (alpha_palette a0 a1) i = interpolate a0 a1 i.
Proof.
  intros H. assert (i = 0 \/ i = 1 \/ i = 2 \/ i = 3 \/ i = 4 \/ i = 5 \/ i = 6 \/ i = 7) as C by lia.
  unfold pick, alpha_palette, interpolate.
  destruct (a1 <? a0); decompose [or] C; subst; reflexivity.
Qed.

Ltac nthrw I k := let X := fresh in pose proof (f_equal (fun l => nth k l 0) I) as X; cbn [nth] in X; rewrite X; clear X.

Lemma BC4_ok data base w h width po buf : (8 <= length data)%nat -> Forall is_byte data ->
  fits w h width po buf -> (base + 1 <= Z.to_nat po)%nat ->
  exists buf', BC4 data base w h width po buf = Some buf' /\
    block_written base 1 w h width po (fun r c => [alpha_of data r c]) buf buf'.
Proof.
  intros HL HB HF Hb.
  destruct data as [|a0 [|a1 [|e0 [|e1 [|e2 [|e3 [|e4 [|e5 rest]]]]]]]]; cbn [length] in HL; try lia.
  destruct (grid_writes base 1 w h width po (fun r c => [alpha_of (a0 :: a1 :: e0 :: e1 :: e2 :: e3 :: e4 :: e5 :: rest) r c]) buf HF Hb) as (buf' & E & W); [reflexivity|].
  exists buf'. split; [|exact W]. rewrite <- E. unfold BC4, bc4_rows. cbn [app]. f_equal.
  inversion_clear HB as [|? ? _ HB1]. inversion_clear HB1 as [|? ? _ HB2].
  inversion_clear HB2 as [|? ? B0 HB3]. inversion_clear HB3 as [|? ? B1 HB4]. inversion_clear HB4 as [|? ? B2 HB5].
  inversion_clear HB5 as [|? ? B3 HB6]. inversion_clear HB6 as [|? ? B4 HB7]. inversion_clear HB7 as [|? ? B5 _].
  pose proof (bc4_indices e0 e1 e2 e3 e4 e5 B0 B1 B2 B3 B4 B5) as I. cbn [map] in I.
  unfold all16, alpha_of, number. cbn [map fst snd nth skipn firstn].
  change (4 * 0 + 0) with 0. change (4 * 0 + 1) with 1. change (4 * 0 + 2) with 2. change (4 * 0 + 3) with 3.
  change (4 * 1 + 0) with 4. change (4 * 1 + 1) with 5. change (4 * 1 + 2) with 6. change (4 * 1 + 3) with 7.
  change (4 * 2 + 0) with 8. change (4 * 2 + 1) with 9. change (4 * 2 + 2) with 10. change (4 * 2 + 3) with 11.
  change (4 * 3 + 0) with 12. change (4 * 3 + 1) with 13. change (4 * 3 + 2) with 14. change (4 * 3 + 3) with 15.
  change (0 + 1) with 1. change (2 + 1) with 3.
  assert (R : forall k, 0 <= field 3 [e0; e1; e2; e3; e4; e5] k < 8) by (intros; apply (field_range 3); lia).
  rewrite <- !pick_palette by apply R.
  nthrw I 0%nat. nthrw I 1%nat. nthrw I 2%nat. nthrw I 3%nat. nthrw I 4%nat. nthrw I 5%nat. nthrw I 6%nat. nthrw I 7%nat. nthrw I 8%nat. nthrw I 9%nat. nthrw I 10%nat. nthrw I 11%nat. nthrw I 12%nat. nthrw I 13%nat. nthrw I 14%nat. nthrw I 15%nat. reflexivity.
Qed.

(** fields that do not straddle bytes *)
Lemma field_step bits per d ds k : 0 < bits -> bits * per = 8 -> 0 <= k -> is_byte d ->
  field bits (d :: ds) (per + k) = field bits ds k.
Proof.
  intros Hb Hp Hk Hd. unfold field. cbn [le_value]. rewrite Z.mul_add_distr_l, Hp, Z.pow_add_r by lia.
  change (2 ^ 8) with 256. rewrite <- Z.div_div by lia. unfold is_byte in Hd.
  replace ((d + 256 * le_value ds) / 256) with (le_value ds) by lia. reflexivity.
Qed.
Lemma field_head bits per d ds r : 0 < bits -> bits * per = 8 -> 0 <= r < per -> is_byte d ->
  field bits (d :: ds) r = (d / 2 ^ (bits * r)) mod 2 ^ bits.
Proof.
  intros Hb Hp Hr Hd. unfold field. cbn [le_value].
  assert (Hx : bits * r + bits <= 8) by nia. assert (0 <= bits * r) by nia.
  replace 256 with (2 ^ (bits * r) * (2 ^ bits * 2 ^ (8 - bits * r - bits))).
  2:{ rewrite <- !Z.pow_add_r by lia. change 256 with (2 ^ 8). f_equal. lia. }
  rewrite <- Z.mul_assoc, (Z.mul_comm (2 ^ (bits * r))), Z.div_add by lia.
  rewrite <- Z.mul_assoc, (Z.mul_comm (2 ^ bits)), Z.mod_add by lia. reflexivity.
Qed.

Ltac bytes_of H := repeat match type of H with Forall _ (_ :: _) =>
  let B := fresh "B" in apply Forall_cons_iff in H as [B H] end.

Lemma bc2_indices e0 e1 e2 e3 e4 e5 e6 e7 rest : Forall is_byte (e0 :: e1 :: e2 :: e3 :: e4 :: e5 :: e6 :: e7 :: rest) ->
  [ e0 mod 16; e0 / 16; e1 mod 16; e1 / 16; e2 mod 16; e2 / 16; e3 mod 16; e3 / 16;
    e4 mod 16; e4 / 16; e5 mod 16; e5 / 16; e6 mod 16; e6 / 16; e7 mod 16; e7 / 16 ]
  = map (field 4 [e0; e1; e2; e3; e4; e5; e6; e7]) [0; 1; 2; 3; 4; 5; 6; 7; 8; 9; 10; 11; 12; 13; 14; 15].
Proof.
  intros H. bytes_of H.
  assert (L : forall d ds, is_byte d -> field 4 (d :: ds) 0 = d mod 16).
  { intros d ds Hd. rewrite (field_head 4 2) by (try assumption; lia). change (2 ^ (4 * 0)) with 1. now rewrite Z.div_1_r. }
  assert (M : forall d ds, is_byte d -> field 4 (d :: ds) 1 = d / 16).
  { intros d ds Hd. rewrite (field_head 4 2) by (try assumption; lia). change (2 ^ (4 * 1)) with 16. change (2 ^ 4) with 16.
    apply Z.mod_small. unfold is_byte in Hd. lia. }
  assert (T : forall d ds k, is_byte d -> 0 <= k -> field 4 (d :: ds) (2 + k) = field 4 ds k) by (intros; apply (field_step 4 2); lia || assumption).
  cbn [map].
  repeat (apply f_equal2;
    [ repeat match goal with |- context [field 4 ?l (Zpos ?p)] =>
        let k := eval vm_compute in (Zpos p - 2) in
        match k with Z.neg _ => fail 1 | _ => change (field 4 l (Zpos p)) with (field 4 l (2 + k)); rewrite T by (assumption || lia) end end;
      first [now rewrite L by assumption | now rewrite M by assumption] |]).
  reflexivity.
Qed.

Lemma color_indices e0 e1 e2 e3 rest : Forall is_byte (e0 :: e1 :: e2 :: e3 :: rest) ->
  [ d1 e0; d2 e0; d3 e0; d4 e0; d1 e1; d2 e1; d3 e1; d4 e1; d1 e2; d2 e2; d3 e2; d4 e2; d1 e3; d2 e3; d3 e3; d4 e3 ]
  = map (field 2 [e0; e1; e2; e3]) [0; 1; 2; 3; 4; 5; 6; 7; 8; 9; 10; 11; 12; 13; 14; 15].
Proof.
  intros H. bytes_of H. rewrite !j1, !j2, !j3, !j4 by assumption.
  assert (L0 : forall d ds, is_byte d -> field 2 (d :: ds) 0 = d mod 4).
  { intros d ds Hd. rewrite (field_head 2 4) by (try assumption; lia). change (2 ^ (2 * 0)) with 1. now rewrite Z.div_1_r. }
  assert (L1 : forall d ds, is_byte d -> field 2 (d :: ds) 1 = (d / 4) mod 4) by (intros d ds Hd; now rewrite (field_head 2 4) by (try assumption; lia)).
  assert (L2 : forall d ds, is_byte d -> field 2 (d :: ds) 2 = (d / 16) mod 4) by (intros d ds Hd; now rewrite (field_head 2 4) by (try assumption; lia)).
  assert (L3 : forall d ds, is_byte d -> field 2 (d :: ds) 3 = d / 64).
  { intros d ds Hd. rewrite (field_head 2 4) by (try assumption; lia). change (2 ^ (2 * 3)) with 64. change (2 ^ 2) with 4.
    apply Z.mod_small. unfold is_byte in Hd. lia. }
  assert (T : forall d ds k, is_byte d -> 0 <= k -> field 2 (d :: ds) (4 + k) = field 2 ds k) by (intros; apply (field_step 2 4); lia || assumption).
  cbn [map].
  repeat (apply f_equal2;
    [ repeat match goal with |- context [field 2 ?l (Zpos ?p)] =>
        let k := eval vm_compute in (Zpos p - 4) in
        match k with Z.neg _ => fail 1 | _ => change (field 2 l (Zpos p)) with (field 2 l (4 + k)); rewrite T by (assumption || lia) end end;
      first [now rewrite L0 by assumption | now rewrite L1 by assumption | now rewrite L2 by assumption | now rewrite L3 by assumption] |]).
  reflexivity.
Qed.


Ltac numbers :=
  change (4 * 0 + 0) with 0; change (4 * 0 + 1) with 1; change (4 * 0 + 2) with 2; change (4 * 0 + 3) with 3;
  change (4 * 1 + 0) with 4; change (4 * 1 + 1) with 5; change (4 * 1 + 2) with 6; change (4 * 1 + 3) with 7;
  change (4 * 2 + 0) with 8; change (4 * 2 + 1) with 9; change (4 * 2 + 2) with 10; change (4 * 2 + 3) with 11;
  change (4 * 3 + 0) with 12; change (4 * 3 + 1) with 13; change (4 * 3 + 2) with 14; change (4 * 3 + 3) with 15.

Lemma BC2Alpha_ok data base w h width po buf : (8 <= length data)%nat -> Forall is_byte data ->
  fits w h width po buf -> (base + 1 <= Z.to_nat po)%nat ->
  exists buf', BC2Alpha data base w h width po buf = Some buf' /\
    block_written base 1 w h width po (fun r c => [alpha4_of data r c]) buf buf'.
Proof.
  intros HL HB HF Hb.
  destruct data as [|e0 [|e1 [|e2 [|e3 [|e4 [|e5 [|e6 [|e7 rest]]]]]]]]; cbn [length] in HL; try lia.
  destruct (grid_writes base 1 w h width po (fun r c => [alpha4_of (e0 :: e1 :: e2 :: e3 :: e4 :: e5 :: e6 :: e7 :: rest) r c]) buf HF Hb) as (buf' & E & W); [reflexivity|].
  exists buf'. split; [|exact W]. rewrite <- E. unfold BC2Alpha, bc2_row. cbn [app]. f_equal.
  pose proof (bc2_indices _ _ _ _ _ _ _ _ _ HB) as I. cbn [map] in I. bytes_of HB.
  rewrite !c15, !c240 by assumption.
  unfold all16, alpha4_of, number. cbn [map fst snd nth skipn firstn]. numbers.
  nthrw I 0%nat. nthrw I 1%nat. nthrw I 2%nat. nthrw I 3%nat. nthrw I 4%nat. nthrw I 5%nat. nthrw I 6%nat. nthrw I 7%nat.
  nthrw I 8%nat. nthrw I 9%nat. nthrw I 10%nat. nthrw I 11%nat. nthrw I 12%nat. nthrw I 13%nat. nthrw I 14%nat. nthrw I 15%nat.
  reflexivity.
Qed.

Lemma color_rows base w h width po colors e0 e1 e2 e3 rest : Forall is_byte (e0 :: e1 :: e2 :: e3 :: rest) ->
  color_row base w h width po colors 0 e0 ++ color_row base w h width po colors 1 e1 ++
  color_row base w h width po colors 2 e2 ++ color_row base w h width po colors 3 e3 =
  map (fun p => (texel base w h width (fst p) (snd p) po,
                 nth (Z.to_nat (field 2 [e0; e1; e2; e3] (number (fst p) (snd p)))) colors [])) all16.
Proof.
  intros HB. pose proof (color_indices _ _ _ _ _ HB) as I. cbn [map] in I.
  unfold color_row, all16, number. cbn [map fst snd app]. numbers.
  nthrw I 0%nat. nthrw I 1%nat. nthrw I 2%nat. nthrw I 3%nat. nthrw I 4%nat. nthrw I 5%nat. nthrw I 6%nat. nthrw I 7%nat.
  nthrw I 8%nat. nthrw I 9%nat. nthrw I 10%nat. nthrw I 11%nat. nthrw I 12%nat. nthrw I 13%nat. nthrw I 14%nat. nthrw I 15%nat.
  reflexivity.
Qed.

(** ** Colours *)
Definition entry (n i a b : Z) : option Z :=
  match i with
  | 0 => scaled 255 (channel n a)
  | 1 => scaled 255 (channel n b)
  | 2 => scaled 255 (blend 2 1 (channel n a) (channel n b))
  | _ => scaled 255 (blend 1 2 (channel n a) (channel n b))
  end.
Definition entry_good (strict : bool) (n i a b : Z) : bool :=
  match entry n i a b with
  | None => false
  | Some v =>
    let exact := 255 * ((3 - weight i) * a + weight i * b) in
    (0 <=? v) && (v <=? 255) && (3 * n * v <=? exact) && (exact <=? 3 * n * (v + 1)) &&
    (negb (strict || (i <? 2)) || (exact <? 3 * n * (v + 1)))
  end.
Definition mean_good (n a b : Z) : bool :=
  match scaled 127 (fadd (channel n a) (channel n b)) with
  | None => false
  | Some v => (0 <=? v) && (v <=? 254) && (n * v <=? 127 * (a + b)) && (127 * (a + b) <=? n * (v + 1))
  end.
Definition upto (n : Z) : list Z := map Z.of_nat (seq 0 (Z.to_nat (n + 1))).
Definition all_good (strict : bool) (n : Z) : bool :=
  forallb (fun a => forallb (fun b => forallb (fun i => entry_good strict n i a b) [0; 1; 2; 3] && mean_good n a b) (upto n)) (upto n).
Lemma good31 : all_good false 31 = true. Proof. vm_compute. reflexivity. Qed.
Lemma good63 : all_good true 63 = true. Proof. vm_compute. reflexivity. Qed.

Lemma in_upto n a : 0 <= a <= n -> In a (upto n).
Proof. intros H. apply in_map_iff. exists (Z.to_nat a). split; [lia|]. apply in_seq. lia. Qed.
Lemma all_good_at s n a b : all_good s n = true -> 0 <= a <= n -> 0 <= b <= n ->
  (forall i, In i [0; 1; 2; 3] -> entry_good s n i a b = true) /\ mean_good n a b = true.
Proof.
  intros H Ha Hb. unfold all_good in H. rewrite forallb_forall in H. specialize (H a (in_upto n a Ha)). cbv beta in H.
  rewrite forallb_forall in H. specialize (H b (in_upto n b Hb)). cbv beta in H.
  apply andb_true_iff in H as [H1 H2]. rewrite forallb_forall in H1. auto.
Qed.

Definition word (a b : Z) : Z := le_value [a; b].
Lemma RGB565_channels lo hi : is_byte lo -> is_byte hi ->
  RGB565 lo hi = (channel 31 (chan565 (word lo hi) 0), channel 63 (chan565 (word lo hi) 1), channel 31 (chan565 (word lo hi) 2)).
Proof.
  intros Hl Hh. unfold RGB565, chan565, word. cbn [le_value].
  replace (lo + 256 * (hi + 256 * 0)) with (lo + 256 * hi) by lia. unfold is_byte in *.
  set (c := lo + 256 * hi). assert (0 <= c < 65536) by (unfold c; lia). clearbody c.
  assert (A : Z.land c 31 = c mod 32) by (change 31 with (Z.ones 5); rewrite Z.land_ones by lia; reflexivity).
  assert (B : Z.shiftr (Z.land c 2016) 5 = (c / 32) mod 64).
  { change 2016 with (Z.shiftl 63 5). rewrite Z.shiftr_land, Z.shiftr_shiftl_l by lia.
    change (Z.shiftl 63 (5 - 5)) with (Z.ones 6). rewrite Z.land_ones, Z.shiftr_div_pow2 by lia. reflexivity. }
  assert (D : Z.shiftr (Z.land c 63488) 11 = (c / 2048) mod 32).
  { change 63488 with (Z.shiftl 31 11). rewrite Z.shiftr_land, Z.shiftr_shiftl_l by lia.
    change (Z.shiftl 31 (11 - 11)) with (Z.ones 5). rewrite Z.land_ones, Z.shiftr_div_pow2 by lia. reflexivity. }
  now rewrite A, B, D.
Qed.
Lemma chan_range w k : 0 <= chan565 w k <= max565 k.
Proof. destruct k as [|[|k]]; cbn [chan565 max565]; lia. Qed.

Lemma entry_value w1 w2 i k : (k < 3)%nat -> In i [0; 1; 2; 3] ->
  exists v, entry (max565 k) i (chan565 w1 k) (chan565 w2 k) = Some v /\ color_value w1 w2 i k v.
Proof.
  intros Hk Hi.
  assert (G : exists s, all_good s (max565 k) = true /\ (k = 1%nat -> s = true)).
  { destruct k as [|[|[|k]]]; [exists false; split; [exact good31|discriminate] | exists true; split; [exact good63|reflexivity]
      | exists false; split; [exact good31|discriminate] | lia]. }
  destruct G as (s & G & Hs).
  destruct (all_good_at s _ _ _ G (chan_range w1 k) (chan_range w2 k)) as [E _]. specialize (E i Hi).
  unfold entry_good in E. destruct (entry _ _ _ _) as [v|]; [|discriminate]. exists v. split; [reflexivity|].
  cbv zeta in E. unfold color_value. cbv zeta.
  repeat rewrite andb_true_iff in E. rewrite !Z.leb_le, orb_true_iff, Z.ltb_lt, negb_true_iff in E.
  destruct E as ((((A & B) & C) & D) & F). split; [lia|]. split; [lia|].
  intros Hx. destruct F as [F|F]; [|exact F]. exfalso. apply orb_false_iff in F as [F1 F2].
  apply Z.ltb_ge in F2. destruct Hx as [-> | [-> | Hk1]]; try lia. now rewrite (Hs Hk1) in F1.
Qed.
Lemma mean_entry w1 w2 k : (k < 3)%nat ->
  exists v, scaled 127 (fadd (channel (max565 k) (chan565 w1 k)) (channel (max565 k) (chan565 w2 k))) = Some v /\ mean_value w1 w2 k v.
Proof.
  intros Hk.
  assert (G : exists s, all_good s (max565 k) = true).
  { destruct k as [|[|[|k]]]; [exists false; exact good31 | exists true; exact good63 | exists false; exact good31 | lia]. }
  destruct G as (s & G). destruct (all_good_at s _ _ _ G (chan_range w1 k) (chan_range w2 k)) as [_ E].
  unfold mean_good in E. destruct (scaled 127 _) as [v|]; [|discriminate]. exists v. split; [reflexivity|].
  repeat rewrite andb_true_iff in E. rewrite !Z.leb_le in E. unfold mean_value. lia.
Qed.

Definition colors_good (w1 w2 : Z) (colors : list (list Z)) : Prop :=
  forall i, 0 <= i < 4 -> length (nth (Z.to_nat i) colors []) = 3%nat /\
    forall k, (k < 3)%nat -> color_value w1 w2 i k (nth k (nth (Z.to_nat i) colors []) (-1)).

Lemma to_bytes_entries w1 w2 (f : f32 -> f32 -> f32) s (P : nat -> Z -> Prop) c1 c2 :
  c1 = (channel 31 (chan565 w1 0), channel 63 (chan565 w1 1), channel 31 (chan565 w1 2)) ->
  c2 = (channel 31 (chan565 w2 0), channel 63 (chan565 w2 1), channel 31 (chan565 w2 2)) ->
  (forall k, (k < 3)%nat -> exists v, scaled s (f (channel (max565 k) (chan565 w1 k)) (channel (max565 k) (chan565 w2 k))) = Some v /\ P k v) ->
  exists l, to_bytes s (map_color f c1 c2) = Some l /\ length l = 3%nat /\ forall k, (k < 3)%nat -> P k (nth k l (-1)).
Proof.
  intros -> -> H. destruct (H 0%nat) as (a & A & Pa); [lia|]. destruct (H 1%nat) as (b & B & Pb); [lia|].
  destruct (H 2%nat) as (c & C & Pc); [lia|]. cbn [max565] in A, B, C.
  exists [a; b; c]. unfold to_bytes, map_color. rewrite A, B, C. split; [reflexivity|]. split; [reflexivity|].
  intros [|[|[|k]]] Hk; cbn [nth]; auto; lia.
Qed.

Lemma four_colors_good a b c d : is_byte a -> is_byte b -> is_byte c -> is_byte d ->
  exists colors, four_colors (RGB565 a b) (RGB565 c d) = Some colors /\ colors_good (word a b) (word c d) colors.
Proof.
  intros Ha Hb Hc Hd. rewrite !RGB565_channels by assumption.
  set (w1 := word a b). set (w2 := word c d).
  set (c1 := (channel 31 (chan565 w1 0), channel 63 (chan565 w1 1), channel 31 (chan565 w1 2))).
  set (c2 := (channel 31 (chan565 w2 0), channel 63 (chan565 w2 1), channel 31 (chan565 w2 2))).
  destruct (to_bytes_entries w1 w2 (fun x _ => x) 255 (color_value w1 w2 0) c1 c2 eq_refl eq_refl) as (l0 & E0 & N0 & P0).
  { intros k Hk. apply (entry_value w1 w2 0 k Hk). now left. }
  destruct (to_bytes_entries w1 w2 (fun _ y => y) 255 (color_value w1 w2 1) c1 c2 eq_refl eq_refl) as (l1 & E1 & N1 & P1).
  { intros k Hk. apply (entry_value w1 w2 1 k Hk). now right; left. }
  destruct (to_bytes_entries w1 w2 (blend 2 1) 255 (color_value w1 w2 2) c1 c2 eq_refl eq_refl) as (l2 & E2 & N2 & P2).
  { intros k Hk. apply (entry_value w1 w2 2 k Hk). now right; right; left. }
  destruct (to_bytes_entries w1 w2 (blend 1 2) 255 (color_value w1 w2 3) c1 c2 eq_refl eq_refl) as (l3 & E3 & N3 & P3).
  { intros k Hk. apply (entry_value w1 w2 3 k Hk). now right; right; right; left. }
  change (map_color (fun x _ => x) c1 c2) with c1 in E0. change (map_color (fun _ y => y) c1 c2) with c2 in E1.
  exists [l0; l1; l2; l3]. unfold four_colors. rewrite E0, E1, E2, E3. split; [reflexivity|].
  intros i Hi. assert (i = 0 \/ i = 1 \/ i = 2 \/ i = 3) as [-> | [-> | [-> | ->]]] by lia; cbn [nth Z.to_nat Pos.to_nat Pos.iter_op Nat.add]; auto.
Qed.


Lemma BC1_ok data base w h width po buf : (8 <= length data)%nat -> Forall is_byte data ->
  fits w h width po buf -> (base + 3 <= Z.to_nat po)%nat ->
  exists F buf', BC1 data base w h width po buf = Some buf' /\
    block_written base 3 w h width po F buf buf' /\
    forall row col, in_block row col -> color_ok data row col (F row col).
Proof.
  intros HL HB HF Hb.
  destruct data as [|a [|b [|c [|d [|e0 [|e1 [|e2 [|e3 rest]]]]]]]]; cbn [length] in HL; try lia.
  pose proof HB as HB4. do 4 apply Forall_inv_tail in HB4. bytes_of HB.
  destruct (four_colors_good a b c d) as (colors & E4 & G); try assumption.
  set (idx := fun r c => field 2 [e0; e1; e2; e3] (number r c)).
  assert (R : forall r c, 0 <= idx r c < 4) by (intros; apply (field_range 2); lia).
  destruct (grid_writes base 3 w h width po (fun r c => nth (Z.to_nat (idx r c)) colors []) buf HF Hb) as (buf' & E & W).
  { intros. apply G, R. }
  exists (fun r c => nth (Z.to_nat (idx r c)) colors []), buf'. split; [|split; [exact W|]].
  - unfold BC1. rewrite E4, (color_rows base w h width po colors e0 e1 e2 e3 rest HB4). exact E.
  - intros row col _. destruct (G (idx row col) (R row col)) as [L V]. split; [exact L|]. intros k Hk. exact (V k Hk).
Qed.

Lemma three_colors_good a b c d : is_byte a -> is_byte b -> is_byte c -> is_byte d ->
  exists l0 l1 m, three_colors (RGB565 a b) (RGB565 c d) = Some [l0; l1; m; m] /\
    length l0 = 3%nat /\ length l1 = 3%nat /\ length m = 3%nat /\
    forall k, (k < 3)%nat -> color_value (word a b) (word c d) 0 k (nth k l0 (-1)) /\
      color_value (word a b) (word c d) 1 k (nth k l1 (-1)) /\ mean_value (word a b) (word c d) k (nth k m (-1)).
Proof.
  intros Ha Hb Hc Hd. rewrite !RGB565_channels by assumption.
  set (w1 := word a b). set (w2 := word c d).
  set (c1 := (channel 31 (chan565 w1 0), channel 63 (chan565 w1 1), channel 31 (chan565 w1 2))).
  set (c2 := (channel 31 (chan565 w2 0), channel 63 (chan565 w2 1), channel 31 (chan565 w2 2))).
  destruct (to_bytes_entries w1 w2 (fun x _ => x) 255 (color_value w1 w2 0) c1 c2 eq_refl eq_refl) as (l0 & E0 & N0 & P0).
  { intros k Hk. apply (entry_value w1 w2 0 k Hk). now left. }
  destruct (to_bytes_entries w1 w2 (fun _ y => y) 255 (color_value w1 w2 1) c1 c2 eq_refl eq_refl) as (l1 & E1 & N1 & P1).
  { intros k Hk. apply (entry_value w1 w2 1 k Hk). now right; left. }
  destruct (to_bytes_entries w1 w2 fadd 127 (mean_value w1 w2) c1 c2 eq_refl eq_refl) as (m & E2 & N2 & P2).
  { intros k Hk. now apply mean_entry. }
  change (map_color (fun x _ => x) c1 c2) with c1 in E0. change (map_color (fun _ y => y) c1 c2) with c2 in E1.
  exists l0, l1, m. unfold three_colors. rewrite E0, E1, E2. split; [reflexivity|]. auto 10.
Qed.


Definition alpha_rows base w h width po e0 e1 e2 e3 :=
  map (fun p : Z * Z => ((3 + texel base w h width (fst p) (snd p) po)%nat,
    [if field 2 [e0; e1; e2; e3] (number (fst p) (snd p)) =? 3 then 0 else 255])) all16.

Lemma colorA_rows base w h width po colors e0 e1 e2 e3 rest x : Forall is_byte (e0 :: e1 :: e2 :: e3 :: rest) ->
  In x (colorA_row base w h width po colors true 0 e0 ++ colorA_row base w h width po colors true 1 e1 ++
        colorA_row base w h width po colors true 2 e2 ++ colorA_row base w h width po colors true 3 e3) <->
  (exists p, In p all16 /\ (x = (texel base w h width (fst p) (snd p) po,
                 nth (Z.to_nat (field 2 [e0; e1; e2; e3] (number (fst p) (snd p)))) colors []) \/
     x = ((3 + texel base w h width (fst p) (snd p) po)%nat,
          [if field 2 [e0; e1; e2; e3] (number (fst p) (snd p)) =? 3 then 0 else 255]))).
Proof.
  intros HB. pose proof (color_rows base w h width po colors e0 e1 e2 e3 rest HB) as CR.
  assert (AR : alpha_row base w h width po 0 e0 ++ alpha_row base w h width po 1 e1 ++
               alpha_row base w h width po 2 e2 ++ alpha_row base w h width po 3 e3 = alpha_rows base w h width po e0 e1 e2 e3).
  { pose proof (color_indices _ _ _ _ _ HB) as I. cbn [map] in I.
    unfold alpha_row, alpha_rows, all16, number. cbn [map fst snd app]. numbers.
    nthrw I 0%nat. nthrw I 1%nat. nthrw I 2%nat. nthrw I 3%nat. nthrw I 4%nat. nthrw I 5%nat. nthrw I 6%nat. nthrw I 7%nat.
    nthrw I 8%nat. nthrw I 9%nat. nthrw I 10%nat. nthrw I 11%nat. nthrw I 12%nat. nthrw I 13%nat. nthrw I 14%nat. nthrw I 15%nat.
    reflexivity. }
  assert (CR' : forall l l' : list write, l = l' -> In x l <-> In x l') by (intros; subst; tauto).
  apply CR' in CR, AR. clear CR'.
  rewrite !in_app_iff, in_map_iff in CR. unfold alpha_rows in AR. rewrite !in_app_iff, in_map_iff in AR.
  unfold colorA_row. rewrite !in_app_iff.
  transitivity ((exists p, (texel base w h width (fst p) (snd p) po, nth (Z.to_nat (field 2 [e0; e1; e2; e3] (number (fst p) (snd p)))) colors []) = x /\ In p all16) \/
    (exists p, ((3 + texel base w h width (fst p) (snd p) po)%nat, [if field 2 [e0; e1; e2; e3] (number (fst p) (snd p)) =? 3 then 0 else 255]) = x /\ In p all16)).
  - rewrite <- CR, <- AR. tauto.
  - split.
    + intros [(p & E & H) | (p & E & H)]; exists p; auto.
    + intros (p & H & [E | E]); [left | right]; exists p; auto.
Qed.

Lemma BC1A_transparent data w h width buf : (8 <= length data)%nat -> Forall is_byte data ->
  fits w h width 4 buf -> word_at data 0 <= word_at data 2 ->
  exists F buf', BC1A data 0 w h width 4 buf = Some buf' /\
    block_written 0 4 w h width 4 F buf buf' /\
    forall row col, in_block row col -> color3_ok data row col (F row col).
Proof.
  intros HL HB HF HW.
  destruct data as [|a [|b [|c [|d [|e0 [|e1 [|e2 [|e3 rest]]]]]]]]; cbn [length] in HL; try lia.
  pose proof HB as HB4. do 4 apply Forall_inv_tail in HB4. bytes_of HB.
  destruct (three_colors_good a b c d) as (l0 & l1 & m & E3 & N0 & N1 & Nm & G); try assumption.
  set (idx := fun r c => field 2 [e0; e1; e2; e3] (number r c)).
  assert (R : forall r c, 0 <= idx r c < 4) by (intros; apply (field_range 2); lia).
  set (F := fun r c => nth (Z.to_nat (idx r c)) [l0; l1; m; m] [] ++ [if idx r c =? 3 then 0 else 255]).
  assert (LC : forall i, 0 <= i < 4 -> length (nth (Z.to_nat i) [l0; l1; m; m] []) = 3%nat).
  { intros i Hi. assert (i = 0 \/ i = 1 \/ i = 2 \/ i = 3) as [-> | [-> | [-> | ->]]] by lia; assumption. }
  assert (U : negb (c + 256 * d <? a + 256 * b) = true).
  { unfold word_at in HW. cbn [skipn firstn le_value] in HW. apply negb_true_iff, Z.ltb_ge. lia. }
  destruct (block_writes 0 4 w h width 4 F
     (colorA_row 0 w h width 4 [l0; l1; m; m] true 0 e0 ++ colorA_row 0 w h width 4 [l0; l1; m; m] true 1 e1 ++
      colorA_row 0 w h width 4 [l0; l1; m; m] true 2 e2 ++ colorA_row 0 w h width 4 [l0; l1; m; m] true 3 e3) buf HF) as (buf' & E & W).
  - change (Z.to_nat 4) with 4%nat. lia.
  - intros. unfold F. rewrite app_length, LC by apply R. reflexivity.
  - apply Forall_forall. intros x Hx. apply (colorA_rows _ _ _ _ _ _ _ _ _ _ _ x HB4) in Hx as (p & Hp & Hx).
    apply all16_block in Hp. exists (fst p), (snd p).
    rewrite (texel_cell 0 w h width 4 _ _ buf HF Hp) in Hx. fold (idx (fst p) (snd p)) in Hx.
    destruct Hx as [-> | ->]; cbn [fst snd].
    + exists 0%nat. rewrite LC by apply R. split; [exact Hp|]. split; [lia|]. split; [lia|].
      unfold F. rewrite skipn_O, firstn_app, LC, firstn_all2 by (try rewrite LC; try apply R; lia).
      change (firstn (3 - 3)%nat [if idx (fst p) (snd p) =? 3 then 0 else 255]) with (@nil Z). now rewrite app_nil_r.
    + exists 3%nat. cbn [length]. split; [exact Hp|]. split; [lia|]. split; [lia|].
      unfold F. rewrite <- (LC (idx (fst p) (snd p)) (R _ _)) at 1. rewrite skipn_app_exact. reflexivity.
  - intros row col j Hin Hj. pose proof (all16_in row col Hin) as Hp.
    destruct (le_lt_dec 3 j) as [Hj3|Hj3].
    + exists ((3 + texel 0 w h width row col 4)%nat, [if idx row col =? 3 then 0 else 255]). split.
      * apply (colorA_rows _ _ _ _ _ _ _ _ _ _ _ _ HB4). exists (row, col). split; [exact Hp|]. right. reflexivity.
      * unfold touches. cbn [fst snd length]. rewrite (texel_cell 0 w h width 4 _ _ buf HF Hin). lia.
    + exists (texel 0 w h width row col 4, nth (Z.to_nat (idx row col)) [l0; l1; m; m] []). split.
      * apply (colorA_rows _ _ _ _ _ _ _ _ _ _ _ _ HB4). exists (row, col). split; [exact Hp|]. left. reflexivity.
      * unfold touches. cbn [fst snd]. rewrite LC by apply R. rewrite (texel_cell 0 w h width 4 _ _ buf HF Hin). lia.
  - exists F, buf'. split; [|split; [exact W|]].
    + unfold BC1A. rewrite U. rewrite E3. exact E.
    + intros row col _. unfold color3_ok. change (index_of _ row col) with (idx row col).
      change (word_at _ 0) with (word a b). change (word_at _ 2) with (word c d).
      assert (I : idx row col = 0 \/ idx row col = 1 \/ idx row col = 2 \/ idx row col = 3) by (pose proof (R row col); lia).
      unfold F. split; [rewrite app_length, LC by apply R; reflexivity|]. split.
      * intros k Hk. rewrite app_nth1 by (rewrite LC by apply R; exact Hk). destruct (G k Hk) as (G0 & G1 & Gm).
        destruct I as [-> | [-> | [-> | ->]]]; assumption.
      * rewrite app_nth2 by (rewrite LC by apply R; lia). rewrite LC by apply R. reflexivity.
Qed.

Lemma BC1A_opaque data base w h width po buf : (8 <= length data)%nat -> word_at data 2 < word_at data 0 ->
  BC1A data base w h width po buf = BC1 data base w h width po buf.
Proof.
  intros HL HW. destruct data as [|a [|b [|c [|d [|e0 [|e1 [|e2 [|e3 rest]]]]]]]]; cbn [length] in HL; try lia.
  assert (U : negb (c + 256 * d <? a + 256 * b) = false).
  { unfold word_at in HW. cbn [skipn firstn le_value] in HW. apply negb_false_iff, Z.ltb_lt. lia. }
  unfold BC1A, BC1, colorA_row. cbv zeta. rewrite U. cbv iota.
  destruct (four_colors _ _); [|reflexivity]. rewrite !app_nil_r. reflexivity.
Qed.
