From Verif Require Import Base Supercore_Model Stream_Model Stream_Spec Stream_Proof Stream_Nav_Proof Zip_Model Zip_Spec.

Section Archive.
  Context (D : list Z) (fl : bool) (HD : Z.of_nat (length D) < 2 ^ 63).

  Definition here (p : nat) (sp : Z) : nav := mkNav (mkStream D p false false fl) sp 0 false.

  Lemma skipn_len p (a : list Z) : skipn p D = a -> a <> [] -> (p + length a = length D)%nat.
  Proof. intros E H. subst a. rewrite skipn_length. destruct (Nat.lt_ge_cases p (length D)); [lia|].
    exfalso. apply H. apply skipn_all2. assumption. Qed.

  Lemma skipn_app_next p (a rest : list Z) : skipn p D = a ++ rest -> skipn (p + length a) D = rest.
  Proof. intros E. rewrite Nat.add_comm, <- skipn_skipn, E. apply skipn_app_exact. Qed.

  Lemma skipn_bound p (a rest : list Z) : skipn p D = a ++ rest -> a <> [] -> (p + length a <= length D)%nat.
  Proof.
    intros E H. assert (a ++ rest <> []) by (destruct a; [congruence|discriminate]).
    apply skipn_len in E; [|assumption]. rewrite app_length in E. lia.
  Qed.

  Lemma ReadBuffer_here p sp (h rest old : list Z) : skipn p D = h ++ rest -> length old = length h ->
    ReadBuffer (length h) old (here p sp) = (h, here (p + length h) sp).
  Proof.
    intros E L. assert (A : at_bytes (here p sp) (h ++ rest)) by (split; [split; reflexivity|exact E]).
    destruct (ReadBuffer_eq _ _ _ old _ A eq_refl L) as [-> _]. reflexivity.
  Qed.

  Lemma read_header_here n p sp (h rest : list Z) : skipn p D = h ++ rest -> length h = n ->
    read_header n (here p sp) = Ok (h, here (p + n) sp).
  Proof.
    intros E L. unfold read_header. rewrite <- L.
    rewrite (ReadBuffer_here p sp h rest) by (try assumption; apply repeat_length).
    cbn [here st fail]. reflexivity.
  Qed.

  Lemma skip_here p sp (c rest : list Z) : skipn p D = c ++ rest -> (p <= length D)%nat -> len c < 2 ^ 31 ->
    skip_int (len c) (here p sp) = here (p + length c) sp.
  Proof.
    intros E Hp L. unfold skip_int, len in *.
    rewrite sgn_small by (try lia; unfold is_sword; change (32 - 1) with 31; lia).
    assert (B : (p + length c <= length D)%nat).
    { destruct c as [|x c]; [cbn; lia|]. eapply skipn_bound; [exact E|discriminate]. }
    rewrite ReaderSkip_pos.
    - cbn [here st pos]. rewrite Nat2Z.id. reflexivity.
    - split; reflexivity.
    - lia.
    - cbn [here st pos]. lia.
    - right. cbn [here st pos data]. rewrite Nat2Z.id. exact B.
  Qed.

  Lemma Tell_here p sp : (p <= length D)%nat -> Tell (here p sp) = (Z.of_nat p, here p sp).
  Proof.
    intros H. rewrite Tell_eq by (split; reflexivity). cbn [here st pos localPos]. rewrite Z.sub_0_r.
    f_equal. apply wrap_small. lia.
  Qed.

  Lemma Pop_here p q : (q <= length D)%nat -> Pop (here p (Z.of_nat q)) = here q (Z.of_nat q).
  Proof.
    intros H. unfold Pop, here. cbn [savePos st].
    rewrite (raw_seek_ok _ _ q); [reflexivity|reflexivity|apply sgn_nat; lia|lia|right; exact H].
  Qed.

  Lemma field_eq off n (a b c : list Z) : length a = off -> length b = n -> field off n (a ++ b ++ c) = le_value b.
  Proof.
    intros <- <-. unfold field. rewrite skipn_app_exact, firstn_app_exact. reflexivity.
  Qed.

  Lemma u16b_len x : length (u16b x) = 2%nat. Proof. apply le_bytes_length. Qed.
  Lemma u32b_len x : length (u32b x) = 4%nat. Proof. apply le_bytes_length. Qed.
  Lemma u16b_val x : 0 <= x < 2 ^ 16 -> le_value (u16b x) = x.
  Proof. intros. unfold u16b. rewrite le_value_bytes. apply Z.mod_small. exact H. Qed.
  Lemma u32b_val x : 0 <= x < 2 ^ 32 -> le_value (u32b x) = x.
  Proof. intros. unfold u32b. rewrite le_value_bytes. apply Z.mod_small. exact H. Qed.
  Lemma len_nonneg (l : list Z) : 0 <= len l. Proof. unfold len. lia. Qed.

  (** the id of a block *)
  Lemma entry_id p sp m (i1 i2 i3 i4 : Z) rest :
    skipn p D = [i1; i2; i3; i4] ++ rest ->
    exists b, le_value b = le_value [i1; i2; i3; i4] /\
    Push (here p sp) = (Z.of_nat p, here p (Z.of_nat p)) /\
    read_header 4 (here p (Z.of_nat p)) = Ok (b, here (p + 4) (Z.of_nat p)) /\
    Pop (here (p + 4) (Z.of_nat p)) = here p (Z.of_nat p) /\ (m : vmap) = m.
  Proof.
    intros E. exists [i1; i2; i3; i4]. split; [reflexivity|]. split; [|split; [|split; [|reflexivity]]].
    - reflexivity.
    - eapply read_header_here; [exact E|reflexivity].
    - apply Pop_here. pose proof (skipn_bound _ _ _ E ltac:(discriminate)). cbn in *. lia.
  Qed.

  Lemma local_read p sp (v flg me : Z) (tc : list Z) (cs us nl el : Z) rest m :
    length tc = 8%nat -> 0 <= cs < 2 ^ 32 -> 0 <= us < 2 ^ 32 -> 0 <= nl < 2 ^ 16 -> 0 <= el < 2 ^ 16 ->
    skipn p D = local_header v flg me tc cs us nl el ++ rest ->
    ReadEntry m (here p sp) =
      (if cs =? 0 then Ok (m, skip_int (u32 (nl + el + us)) (here (p + 30) (Z.of_nat p)))
       else if Z.odd flg then Throws 1
       else if negb (me mod 2 ^ 16 =? 0) then Throws 2
       else if nl =? 0 then Throws 3
       else
         let (path, r5) := ReadBuffer (Z.to_nat nl) (repeat 0 (Z.to_nat nl)) (here (p + 30) (Z.of_nat p)) in
         let r6 := skip_int el r5 in
         let (q, r7) := Tell r6 in
         Ok (emplace path (q, cs) m, skip_int cs r7)).
  Proof.
    intros Ht Hcs Hus Hnl Hel E. unfold ReadEntry.
    destruct (entry_id p sp m 0x50 0x4b 3 4 (skipn 4 (local_header v flg me tc cs us nl el) ++ rest)) as (b & Eb & P1 & P2 & P3 & _).
    { rewrite E. reflexivity. }
    rewrite P1, P2. cbv zeta. rewrite P3, Eb.
    change (le_value [0x50; 0x4b; 3; 4] =? ID_Local) with true. cbv iota.
    assert (Lh : length (local_header v flg me tc cs us nl el) = 30%nat).
    { unfold local_header. rewrite !app_length, !u16b_len, !u32b_len, Ht. reflexivity. }
    rewrite (read_header_here 30 p _ _ _ E Lh).
    assert (F1 : field 6 2 (local_header v flg me tc cs us nl el) = flg mod 2 ^ 16).
    { unfold local_header. rewrite (app_assoc [_; _; _; _] (u16b v)).
      rewrite field_eq; [|rewrite app_length, u16b_len; reflexivity|apply u16b_len].
      unfold u16b. rewrite le_value_bytes. reflexivity. }
    assert (F2 : field 8 2 (local_header v flg me tc cs us nl el) = me mod 2 ^ 16).
    { unfold local_header. rewrite (app_assoc [_; _; _; _] (u16b v)), (app_assoc _ (u16b flg)).
      rewrite field_eq; [|rewrite !app_length, !u16b_len; reflexivity|apply u16b_len].
      unfold u16b. rewrite le_value_bytes. reflexivity. }
    assert (F3 : field 18 4 (local_header v flg me tc cs us nl el) = cs).
    { unfold local_header. rewrite (app_assoc [_; _; _; _] (u16b v)), (app_assoc _ (u16b flg)), (app_assoc _ (u16b me)), (app_assoc _ tc).
      rewrite field_eq; [|rewrite !app_length, !u16b_len, Ht; reflexivity|apply u32b_len]. apply u32b_val. assumption. }
    assert (F4 : field 22 4 (local_header v flg me tc cs us nl el) = us).
    { unfold local_header. rewrite (app_assoc [_; _; _; _] (u16b v)), (app_assoc _ (u16b flg)), (app_assoc _ (u16b me)), (app_assoc _ tc), (app_assoc _ (u32b cs)).
      rewrite field_eq; [|rewrite !app_length, !u16b_len, u32b_len, Ht; reflexivity|apply u32b_len]. apply u32b_val. assumption. }
    assert (F5 : field 26 2 (local_header v flg me tc cs us nl el) = nl).
    { unfold local_header. rewrite (app_assoc [_; _; _; _] (u16b v)), (app_assoc _ (u16b flg)), (app_assoc _ (u16b me)), (app_assoc _ tc), (app_assoc _ (u32b cs)), (app_assoc _ (u32b us)).
      rewrite field_eq; [|rewrite !app_length, !u16b_len, !u32b_len, Ht; reflexivity|apply u16b_len]. apply u16b_val. assumption. }
    assert (F6 : field 28 2 (local_header v flg me tc cs us nl el) = el).
    { unfold local_header. rewrite (app_assoc [_; _; _; _] (u16b v)), (app_assoc _ (u16b flg)), (app_assoc _ (u16b me)), (app_assoc _ tc), (app_assoc _ (u32b cs)), (app_assoc _ (u32b us)), (app_assoc _ (u16b nl)).
      rewrite <- (app_nil_r (u16b el)).
      rewrite field_eq; [|rewrite !app_length, !u16b_len, !u32b_len, Ht; reflexivity|apply u16b_len]. apply u16b_val. assumption. }
    rewrite F1, F2, F3, F4, F5, F6.
    replace (Z.odd (flg mod 2 ^ 16)) with (Z.odd flg); [reflexivity|].
    rewrite <- !Z.bit0_odd. symmetry. apply Z.mod_pow2_bits_low. lia.
  Qed.

  Definition entry_of (r : record) (p : nat) : option (list Z * (Z * Z)) :=
    match r with
    | Stored _ _ _ _ n e c => Some (n, (Z.of_nat (p + 30 + length n + length e), len c))
    | _ => None
    end.
  Definition add_entry (r : record) (p : nat) (m : vmap) : vmap :=
    match entry_of r p with Some (k, v) => emplace k v m | None => m end.

  Lemma u32b_mod u : u32b (u mod 2 ^ 32) = u32b u.
  Proof.
    assert (forall k x y, x mod 256 ^ Z.of_nat k = y mod 256 ^ Z.of_nat k -> le_bytes k x = le_bytes k y) as K.
    { intros k x y H. rewrite <- (le_bytes_value (le_bytes k x)) by apply le_bytes_ok.
      rewrite <- (le_bytes_value (le_bytes k y)) by apply le_bytes_ok.
      rewrite !le_bytes_length, !le_value_bytes, H. reflexivity. }
    apply K. change (256 ^ Z.of_nat 4) with (2 ^ 32). rewrite Z.mod_mod by lia. reflexivity.
  Qed.

  Lemma entry_ok r p sp rest m : wf r -> skipn p D = encode r ++ rest ->
    exists sp', ReadEntry m (here p sp) = Ok (add_entry r p m, here (p + length (encode r)) sp').
  Proof.
    intros W E. destruct r; cbn [wf encode] in *.
    - (* Stored *)
      destruct W as (Wt & Wf & Wn & We & Wc).
      pose proof (len_nonneg extra). pose proof (len_nonneg content).
      assert (E1 : skipn p D = local_header version flags 0 timecrc (len content) (usize mod 2 ^ 32) (len name) (len extra)
                                ++ name ++ extra ++ content ++ rest).
      { rewrite E. unfold local_header. rewrite <- !app_assoc. rewrite u32b_mod. reflexivity. }
      erewrite local_read; [|exact Wt| | | | |exact E1]; try lia.
      destruct (Z.eqb_spec (len content) 0); [lia|].
      replace (Z.odd flags) with false.
      2:{ symmetry. rewrite Zodd_mod. rewrite Wf. reflexivity. }
      change (0 mod 2 ^ 16) with 0. cbn [Z.eqb negb].
      destruct (Z.eqb_spec (len name) 0); [lia|].
      assert (Lh : length (local_header version flags 0 timecrc (len content) (usize mod 2 ^ 32) (len name) (len extra)) = 30%nat).
      { unfold local_header. rewrite !app_length, !u16b_len, !u32b_len, Wt. reflexivity. }
      pose proof (skipn_app_next _ _ _ E1) as E2. rewrite Lh in E2.
      unfold len at 1 2. rewrite Nat2Z.id.
      rewrite (ReadBuffer_here _ _ name _ _ E2) by apply repeat_length.
      pose proof (skipn_app_next _ _ _ E2) as E3. cbv zeta.
      assert (Nn : name <> []) by (intros ->; cbn in *; lia).
      assert (Nc : content <> []) by (intros ->; cbn in *; lia).
      rewrite (skip_here _ _ extra _ E3); [| |lia].
      2:{ eapply skipn_bound in E2; [lia|exact Nn]. }
      pose proof (skipn_app_next _ _ _ E3) as E4.
      pose proof (skipn_bound _ _ _ E4 Nc) as B4.
      rewrite Tell_here by lia.
      rewrite (skip_here _ _ content rest E4); [|lia|lia].
      eexists. unfold add_entry. cbn [entry_of]. do 2 f_equal.
      f_equal. rewrite !app_length, !u16b_len, !u32b_len, Wt. cbn [length]. lia.
    - (* Empty *)
      destruct W as (Wt & Wn & We). pose proof (len_nonneg name). pose proof (len_nonneg extra).
      assert (E1 : skipn p D = local_header version flags method timecrc 0 0 (len name) (len extra) ++ (name ++ extra) ++ rest).
      { rewrite E. unfold local_header. rewrite <- !app_assoc. reflexivity. }
      erewrite local_read; [|exact Wt| | | | |exact E1]; try lia.
      cbn [Z.eqb].
      assert (Lh : length (local_header version flags method timecrc 0 0 (len name) (len extra)) = 30%nat).
      { unfold local_header. rewrite !app_length, !u16b_len, !u32b_len, Wt. reflexivity. }
      pose proof (skipn_app_next _ _ _ E1) as E2. rewrite Lh in E2.
      replace (u32 (len name + len extra + 0)) with (len (name ++ extra)).
      2:{ unfold u32. rewrite wrap_small by lia. unfold len. rewrite app_length. lia. }
      rewrite (skip_here _ _ _ _ E2).
      + eexists. do 2 f_equal. f_equal. rewrite !app_length, !u16b_len, !u32b_len, Wt. cbn [length]. lia.
      + eapply skipn_bound in E1; [rewrite Lh in E1; exact E1|]. intros C. rewrite C in Lh. discriminate.
      + unfold len in *. rewrite app_length. lia.
    - (* CentralFile *)
      destruct W as (W1 & W2 & Wn & We & Wc).
      pose proof (len_nonneg name). pose proof (len_nonneg extra). pose proof (len_nonneg comment).
      set (h := [0x50; 0x4b; 1; 2] ++ misc1 ++ u16b (len name) ++ u16b (len extra) ++ u16b (len comment) ++ misc2) in *.
      assert (E1 : skipn p D = h ++ (name ++ extra ++ comment) ++ rest).
      { rewrite E. unfold h. rewrite <- !app_assoc. reflexivity. }
      assert (Lh : length h = 46%nat).
      { unfold h. rewrite !app_length, !u16b_len, W1, W2. reflexivity. }
      unfold ReadEntry.
      destruct (entry_id p sp m 0x50 0x4b 1 2 (skipn 4 h ++ (name ++ extra ++ comment) ++ rest)) as (b & Eb & P1 & P2 & P3 & _).
      { rewrite E1. reflexivity. }
      rewrite P1, P2. cbv zeta. rewrite P3, Eb.
      change (le_value [0x50; 0x4b; 1; 2] =? ID_Local) with false.
      change (le_value [0x50; 0x4b; 1; 2] =? ID_File) with true. cbv iota.
      rewrite (read_header_here 46 p _ h _ E1 Lh).
      assert (F1 : field 28 2 h = len name).
      { unfold h. rewrite (app_assoc [_; _; _; _] misc1).
        rewrite field_eq; [apply u16b_val; lia|rewrite app_length, W1; reflexivity|apply u16b_len]. }
      assert (F2 : field 30 2 h = len extra).
      { unfold h. rewrite (app_assoc [_; _; _; _] misc1), (app_assoc _ (u16b (len name))).
        rewrite field_eq; [apply u16b_val; lia|rewrite !app_length, W1, u16b_len; reflexivity|apply u16b_len]. }
      assert (F3 : field 32 2 h = len comment).
      { unfold h. rewrite (app_assoc [_; _; _; _] misc1), (app_assoc _ (u16b (len name))), (app_assoc _ (u16b (len extra))).
        rewrite field_eq; [apply u16b_val; lia|rewrite !app_length, W1, !u16b_len; reflexivity|apply u16b_len]. }
      rewrite F1, F2, F3.
      replace (len name + len extra + len comment) with (len (name ++ extra ++ comment)).
      2:{ unfold len. rewrite !app_length. lia. }
      pose proof (skipn_app_next _ _ _ E1) as E2. rewrite Lh in E2.
      rewrite (skip_here _ _ _ _ E2).
      + eexists. unfold add_entry. cbn [entry_of]. do 2 f_equal. f_equal.
        rewrite !app_length, !u16b_len, W1, W2. cbn [length]. lia.
      + eapply skipn_bound in E1; [rewrite Lh in E1; exact E1|]. intros C. rewrite C in Lh. discriminate.
      + unfold len in *. rewrite !app_length. lia.
    - (* CentralEnd *)
      destruct W as (W1 & Wc). pose proof (len_nonneg comment).
      set (h := [0x50; 0x4b; 5; 6] ++ misc ++ u16b (len comment)) in *.
      assert (E1 : skipn p D = h ++ comment ++ rest).
      { rewrite E. unfold h. rewrite <- !app_assoc. reflexivity. }
      assert (Lh : length h = 22%nat) by (unfold h; rewrite !app_length, u16b_len, W1; reflexivity).
      unfold ReadEntry.
      destruct (entry_id p sp m 0x50 0x4b 5 6 (skipn 4 h ++ comment ++ rest)) as (b & Eb & P1 & P2 & P3 & _).
      { rewrite E1. reflexivity. }
      rewrite P1, P2. cbv zeta. rewrite P3, Eb.
      change (le_value [0x50; 0x4b; 5; 6] =? ID_Local) with false.
      change (le_value [0x50; 0x4b; 5; 6] =? ID_File) with false.
      change (le_value [0x50; 0x4b; 5; 6] =? ID_CentralDir) with true. cbv iota.
      rewrite (read_header_here 22 p _ h _ E1 Lh).
      assert (F1 : field 20 2 h = len comment).
      { unfold h. rewrite (app_assoc [_; _; _; _] misc). rewrite <- (app_nil_r (u16b (len comment))).
        rewrite field_eq; [apply u16b_val; lia|rewrite app_length, W1; reflexivity|apply u16b_len]. }
      rewrite F1. pose proof (skipn_app_next _ _ _ E1) as E2. rewrite Lh in E2.
      rewrite (skip_here _ _ _ _ E2).
      + eexists. unfold add_entry. cbn [entry_of]. do 2 f_equal. f_equal.
        rewrite !app_length, !u16b_len, W1. cbn [length]. lia.
      + eapply skipn_bound in E1; [rewrite Lh in E1; exact E1|]. intros C. rewrite C in Lh. discriminate.
      + lia.
    - (* CentralEnd64 *)
      set (h := [0x50; 0x4b; 6; 6] ++ misc) in *.
      assert (Lh : length h = 56%nat) by (unfold h; rewrite app_length, W; reflexivity).
      unfold ReadEntry.
      destruct (entry_id p sp m 0x50 0x4b 6 6 (misc ++ rest)) as (b & Eb & P1 & P2 & P3 & _).
      { rewrite E. reflexivity. }
      rewrite P1, P2. cbv zeta. rewrite P3, Eb.
      change (le_value [0x50; 0x4b; 6; 6] =? ID_Local) with false.
      change (le_value [0x50; 0x4b; 6; 6] =? ID_File) with false.
      change (le_value [0x50; 0x4b; 6; 6] =? ID_CentralDir) with false.
      change (le_value [0x50; 0x4b; 6; 6] =? ID_CentralDir64) with true. cbv iota.
      rewrite (read_header_here 56 p _ h _ E Lh). rewrite Lh. eexists. reflexivity.
    - (* Locator64 *)
      set (h := [0x50; 0x4b; 6; 7] ++ misc) in *.
      assert (Lh : length h = 20%nat) by (unfold h; rewrite app_length, W; reflexivity).
      unfold ReadEntry.
      destruct (entry_id p sp m 0x50 0x4b 6 7 (misc ++ rest)) as (b & Eb & P1 & P2 & P3 & _).
      { rewrite E. reflexivity. }
      rewrite P1, P2. cbv zeta. rewrite P3, Eb.
      change (le_value [0x50; 0x4b; 6; 7] =? ID_Local) with false.
      change (le_value [0x50; 0x4b; 6; 7] =? ID_File) with false.
      change (le_value [0x50; 0x4b; 6; 7] =? ID_CentralDir) with false.
      change (le_value [0x50; 0x4b; 6; 7] =? ID_CentralDir64) with false.
      change (le_value [0x50; 0x4b; 6; 7] =? ID_Locator64) with true. cbv iota.
      rewrite (read_header_here 20 p _ h _ E Lh). rewrite Lh. eexists. reflexivity.
    - (* Signature *)
      pose proof (len_nonneg content).
      set (h := [0x50; 0x4b; 5; 5] ++ u16b (len content)) in *.
      assert (E1 : skipn p D = h ++ content ++ rest).
      { rewrite E. unfold h. rewrite <- !app_assoc. reflexivity. }
      assert (Lh : length h = 6%nat) by (unfold h; rewrite !app_length, u16b_len; reflexivity).
      unfold ReadEntry.
      destruct (entry_id p sp m 0x50 0x4b 5 5 (skipn 4 h ++ content ++ rest)) as (b & Eb & P1 & P2 & P3 & _).
      { rewrite E1. reflexivity. }
      rewrite P1, P2. cbv zeta. rewrite P3, Eb.
      change (le_value [0x50; 0x4b; 5; 5] =? ID_Local) with false.
      change (le_value [0x50; 0x4b; 5; 5] =? ID_File) with false.
      change (le_value [0x50; 0x4b; 5; 5] =? ID_CentralDir) with false.
      change (le_value [0x50; 0x4b; 5; 5] =? ID_CentralDir64) with false.
      change (le_value [0x50; 0x4b; 5; 5] =? ID_Locator64) with false.
      change (le_value [0x50; 0x4b; 5; 5] =? ID_Signature) with true. cbv iota.
      rewrite (read_header_here 6 p _ h _ E1 Lh).
      assert (F1 : field 4 2 h = len content).
      { unfold h. rewrite <- (app_nil_r (u16b (len content))).
        rewrite field_eq; [apply u16b_val; lia|reflexivity|apply u16b_len]. }
      rewrite F1. pose proof (skipn_app_next _ _ _ E1) as E2. rewrite Lh in E2.
      rewrite (skip_here _ _ _ _ E2).
      + eexists. unfold add_entry. cbn [entry_of]. do 2 f_equal. f_equal.
        rewrite !app_length, !u16b_len. cbn [length]. lia.
      + eapply skipn_bound in E1; [rewrite Lh in E1; exact E1|]. intros C. rewrite C in Lh. discriminate.
      + lia.
    - (* ExtraData *)
      pose proof (len_nonneg content).
      set (h := [0x50; 0x4b; 6; 8] ++ u32b (len content)) in *.
      assert (E1 : skipn p D = h ++ content ++ rest).
      { rewrite E. unfold h. rewrite <- !app_assoc. reflexivity. }
      assert (Lh : length h = 8%nat) by (unfold h; rewrite !app_length, u32b_len; reflexivity).
      unfold ReadEntry.
      destruct (entry_id p sp m 0x50 0x4b 6 8 (skipn 4 h ++ content ++ rest)) as (b & Eb & P1 & P2 & P3 & _).
      { rewrite E1. reflexivity. }
      rewrite P1, P2. cbv zeta. rewrite P3, Eb.
      change (le_value [0x50; 0x4b; 6; 8] =? ID_Local) with false.
      change (le_value [0x50; 0x4b; 6; 8] =? ID_File) with false.
      change (le_value [0x50; 0x4b; 6; 8] =? ID_CentralDir) with false.
      change (le_value [0x50; 0x4b; 6; 8] =? ID_CentralDir64) with false.
      change (le_value [0x50; 0x4b; 6; 8] =? ID_Locator64) with false.
      change (le_value [0x50; 0x4b; 6; 8] =? ID_Signature) with false.
      change (le_value [0x50; 0x4b; 6; 8] =? ID_ExtraData) with true. cbv iota.
      rewrite (read_header_here 8 p _ h _ E1 Lh).
      assert (F1 : field 4 4 h = len content).
      { unfold h. rewrite <- (app_nil_r (u32b (len content))).
        rewrite field_eq; [apply u32b_val; lia|reflexivity|apply u32b_len]. }
      rewrite F1. pose proof (skipn_app_next _ _ _ E1) as E2. rewrite Lh in E2.
      rewrite (skip_here _ _ _ _ E2).
      + eexists. unfold add_entry. cbn [entry_of]. do 2 f_equal. f_equal.
        rewrite !app_length, !u32b_len. cbn [length]. lia.
      + eapply skipn_bound in E1; [rewrite Lh in E1; exact E1|]. intros C. rewrite C in Lh. discriminate.
      + lia.
  Qed.

  (** ** the map *)
  Lemma find_emplace k k' v m : find_key k (emplace k' v m) =
    match find_key k m with
    | Some w => Some w
    | None => if list_eq_dec Z.eq_dec k k' then Some v else None
    end.
  Proof.
    unfold emplace. destruct (find_key k' m) eqn:E.
    - destruct (find_key k m) eqn:E2; [reflexivity|]. destruct (list_eq_dec Z.eq_dec k k') as [->|]; [congruence|reflexivity].
    - clear E. induction m as [|[k0 v0] m IH]; cbn [app find_key].
      + destruct (list_eq_dec Z.eq_dec k k'); reflexivity.
      + destruct (list_eq_dec Z.eq_dec k k0); [reflexivity|exact IH].
  Qed.

  Definition describes (done : list record) (m : vmap) : Prop := forall name,
    match stored_as name done with
    | Some c => c <> [] /\ exists q, find_key name m = Some (Z.of_nat q, len c) /\ (exists rest, skipn q D = c ++ rest)
    | None => find_key name m = None
    end.

  Lemma stored_as_app name a b : stored_as name (a ++ b) =
    match stored_as name a with Some c => Some c | None => stored_as name b end.
  Proof.
    induction a as [|r a IH]; [reflexivity|]. destruct r; cbn [app stored_as]; try exact IH.
    destruct (list_eq_dec Z.eq_dec name name0); [reflexivity|exact IH].
  Qed.

  Lemma describes_step done r p rest m : describes done m -> wf r -> skipn p D = encode r ++ rest ->
    describes (done ++ [r]) (add_entry r p m).
  Proof.
    intros Hd W E name. rewrite stored_as_app. specialize (Hd name).
    unfold add_entry. destruct r; cbn [entry_of stored_as];
      try (destruct (stored_as name done); exact Hd).
    rewrite find_emplace. destruct (stored_as name done) as [c|].
    - destruct Hd as (Hc & q & -> & Hq). split; [exact Hc|]. exists q. auto.
    - rewrite Hd. destruct (list_eq_dec Z.eq_dec name name0) as [->|N]; [|reflexivity].
      destruct W as (Wt & _ & _ & _ & Wc). split; [intros ->; cbn in Wc; lia|].
      eexists. split; [reflexivity|]. exists rest.
      cbn [encode] in E.
      assert (K : forall a b : list Z, a = b -> skipn (length a) (skipn p D) = skipn (length b) (skipn p D)) by (intros; congruence).
      replace (p + 30 + length name0 + length extra)%nat with
        (length ([0x50; 0x4b; 3; 4]%Z ++ u16b version ++ u16b flags ++ u16b 0 ++ timecrc ++ u32b (len content) ++ u32b usize
      ++ u16b (len name0) ++ u16b (len extra) ++ name0 ++ extra) + p)%nat.
      2:{ rewrite !app_length, !u16b_len, !u32b_len, Wt. cbn [length]. lia. }
      rewrite <- skipn_skipn, E. rewrite !app_assoc. rewrite <- (app_assoc _ content rest). apply skipn_app_exact.
  Qed.

  Lemma loop_ok rs : forall fuel done m p sp, (length rs < fuel)%nat -> Forall wf rs ->
    skipn p D = archive rs -> (p <= length D)%nat -> describes done m ->
    exists m' sp', read_loop fuel (Z.of_nat (length D)) m (here p sp) = Ok (m', here (length D) sp') /\
      describes (done ++ rs) m'.
  Proof.
    induction rs as [|r rs IH]; intros fuel done m p sp Hf W E Hp Hd.
    - destruct fuel as [|f]; [cbn in Hf; lia|]. cbn [read_loop]. rewrite Tell_here by assumption.
      cbn [archive flat_map] in E.
      assert (p = length D).
      { apply (f_equal (@length Z)) in E. rewrite skipn_length in E. cbn in E. lia. }
      subst p. rewrite Z.ltb_irrefl. exists m, sp. rewrite app_nil_r. auto.
    - destruct fuel as [|f]; [cbn in Hf; lia|]. cbn [read_loop]. rewrite Tell_here by assumption.
      inversion W as [|? ? Wr Wrs]; subst. cbn [archive flat_map] in E.
      assert (Ne : encode r <> []) by (destruct r; discriminate).
      pose proof (skipn_bound _ _ _ E Ne) as B.
      destruct (Z.ltb_spec (Z.of_nat p) (Z.of_nat (length D))).
      2:{ destruct (encode r); [congruence|cbn in B; lia]. }
      destruct (entry_ok r p sp _ m Wr E) as [sp' ->].
      destruct (IH f (done ++ [r]) (add_entry r p m) (p + length (encode r))%nat sp') as (m' & sp'' & R & Hd').
      + cbn in Hf. lia.
      + assumption.
      + apply skipn_app_next. exact E.
      + exact B.
      + eapply describes_step; eassumption.
      + exists m', sp''. rewrite <- app_assoc in Hd'. auto.
  Qed.

  Lemma GetSize_here sp : GetSize (here 0 sp) = (Z.of_nat (length D), here 0 sp).
  Proof.
    rewrite GetSize_eq.
    - cbn [here st data localPos]. rewrite Z.sub_0_r. f_equal. apply wrap_small. lia.
    - split; reflexivity.
    - split; cbn; [lia|right; lia].
    - exact HD.
  Qed.

  Lemma vfs_ok rs fuel sp : D = archive rs -> Forall wf rs -> (length rs < fuel)%nat ->
    exists m sp', ZIPVFS fuel (here 0 sp) = Ok (m, here (length D) sp') /\ describes rs m.
  Proof.
    intros E W Hf. unfold ZIPVFS. rewrite GetSize_here.
    destruct (loop_ok rs fuel [] [] 0 sp Hf W) as (m & sp' & R & Hd).
    - exact E.
    - lia.
    - intros name. cbn. reflexivity.
    - exists m, sp'. auto.
  Qed.

  Lemma Get_ok rs m p sp name : describes rs m -> (p <= length D)%nat ->
    match stored_as name rs with
    | Some c => exists q, (q <= length D)%nat /\ Get name (m, here p sp) = Ok (c, here q sp)
    | None => Get name (m, here p sp) = Throws 5
    end.
  Proof.
    intros Hd Hp. specialize (Hd name). unfold Get. destruct (stored_as name rs) as [c|].
    - destruct Hd as (Hc & q & -> & rest & Hq).
      pose proof (skipn_bound _ _ _ Hq Hc) as B.
      unfold len. rewrite Nat2Z.id. cbv zeta.
      assert (S : Seek (Z.of_nat q) Beg (here p sp) = here q sp).
      { rewrite (Seek_eq _ _ q); [reflexivity|split; reflexivity| |lia|right; cbn; lia].
        cbn [here localPos]. rewrite Z.add_0_r. apply wrap_small. lia. }
      rewrite S. rewrite (ReadBuffer_here q sp c rest _ Hq) by apply repeat_length.
      exists (q + length c)%nat. split; [exact B|].
      destruct c; [congruence|reflexivity].
    - rewrite Hd. reflexivity.
  Qed.

  Lemma loop_prefix rs : forall fuel m p sp, Forall wf rs -> (length rs < fuel)%nat ->
    (exists rest, skipn p D = archive rs ++ rest /\ rest <> []) -> (p <= length D)%nat ->
    exists m' sp' , let q := (p + length (archive rs))%nat in
      read_loop fuel (Z.of_nat (length D)) m (here p sp) =
      match ReadEntry m' (here q sp') with
      | Ok (m'', r') => read_loop (fuel - length rs - 1) (Z.of_nat (length D)) m'' r'
      | Throws t => Throws t | Undefined => Undefined | OutOfFuel => OutOfFuel
      end.
  Proof.
    induction rs as [|r rs IH]; intros fuel m p sp W Hf (rest & E & Hn) Hp.
    - exists m, sp. cbn [archive flat_map length]. rewrite Nat.add_0_r. cbv zeta.
      destruct fuel as [|f]; [cbn in Hf; lia|]. cbn [read_loop]. rewrite Tell_here by assumption.
      cbn [archive flat_map app] in E. pose proof (skipn_len _ _ E Hn).
      destruct (Z.ltb_spec (Z.of_nat p) (Z.of_nat (length D))).
      + replace (S f - 0 - 1)%nat with f by lia. reflexivity.
      + destruct rest; [congruence|cbn in *; lia].
    - inversion W as [|? ? Wr Wrs]; subst. cbn [archive flat_map] in E. rewrite <- app_assoc in E.
      assert (Ne : encode r <> []) by (destruct r; discriminate).
      pose proof (skipn_bound _ _ _ E Ne) as B.
      destruct fuel as [|f]; [cbn in Hf; lia|]. cbn [read_loop]. rewrite Tell_here by assumption.
      destruct (Z.ltb_spec (Z.of_nat p) (Z.of_nat (length D))).
      2:{ destruct (encode r); [congruence|cbn in B; lia]. }
      destruct (entry_ok r p sp _ m Wr E) as [sp' ->].
      destruct (IH f (add_entry r p m) (p + length (encode r))%nat sp') as (m' & sp'' & R).
      + assumption.
      + cbn in Hf. lia.
      + exists rest. split; [apply skipn_app_next; exact E|exact Hn].
      + exact B.
      + exists m', sp''. cbv zeta in *. rewrite R. cbn [archive flat_map length].
        rewrite app_length, Nat.add_assoc. replace (S f - S (length rs) - 1)%nat with (f - length rs - 1)%nat by lia.
        reflexivity.
  Qed.
End Archive.
