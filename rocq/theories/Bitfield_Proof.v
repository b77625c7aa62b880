From Verif Require Import Base Endian_Model Endian_Spec Endian_Proof Bitfield_Model Bitfield_Spec.

Lemma total_fold l : totalSize l = fold_right Z.add 0 l.
Proof. induction l as [|h t IH]; cbn [totalSize fold_right]; [|rewrite IH]; reflexivity. Qed.

Lemma fold_split l i : fold_right Z.add 0 l = start l i + fold_right Z.add 0 (skipn i l).
Proof.
  unfold start. rewrite <- (firstn_skipn i l) at 1. rewrite fold_right_app.
  generalize (firstn i l) as a. generalize (fold_right Z.add 0 (skipn i l)) as r.
  intros r a. induction a as [|x a IH]; cbn [fold_right]; lia.
Qed.

Lemma BF_Get__spec : forall l i size0, (i < length l)%nat ->
  BF_Get_ l i size0 = Some (size0 - fold_right Z.add 0 (skipn i l), size l i).
Proof.
  induction l as [|h t IH]; intros i size0 Hi; [cbn in Hi; lia|].
  destruct t as [|h' t'].
  - cbn in Hi. assert (i = O) by lia. subst. reflexivity.
  - destruct i as [|i].
    + cbn [BF_Get_ skipn]. rewrite total_fold. reflexivity.
    + change (BF_Get_ (h :: h' :: t') (S i) size0) with (BF_Get_ (h' :: t') i size0).
      rewrite IH by (cbn [length] in *; lia). reflexivity.
Qed.

Lemma BF_Get_spec l i : (2 <= length l)%nat -> (i < length l)%nat ->
  BF_Get l i = Some (start l i, size l i).
Proof.
  intros Hl Hi. destruct l as [|h [|h' t]]; cbn [length] in Hl; try lia.
  destruct i as [|i].
  - reflexivity.
  - unfold BF_Get. rewrite BF_Get__spec by (cbn [length] in *; lia).
    f_equal. f_equal.
    rewrite total_fold, (fold_split (h :: h' :: t) (S i)).
    change (skipn (S i) (h :: h' :: t)) with (skipn i (h' :: t)). lia.
Qed.

Lemma layout_bounds w l i : layout_ok w l -> (i < length l)%nat ->
  0 <= start l i /\ 1 <= size l i /\ start l i + size l i <= w.
Proof.
  intros (_ & _ & Hp & Ht) Hi.
  assert (Hnn : forall a, Forall (fun s => 1 <= s) a -> 0 <= fold_right Z.add 0 a).
  { induction 1 as [|x a Hx Ha IHa]; cbn [fold_right]; lia. }
  rewrite (fold_split l i) in Ht.
  assert (H1 : 0 <= start l i).
  { apply Hnn. rewrite <- (firstn_skipn i l) in Hp. apply Forall_app in Hp. apply Hp. }
  unfold size. destruct (skipn i l) as [|x r] eqn:E.
  - apply (f_equal (@length Z)) in E. rewrite skipn_length in E. cbn in E. lia.
  - assert (Hx : nth i l 0 = x).
    { rewrite <- (firstn_skipn i l), app_nth2; rewrite firstn_length_le by lia; [|lia].
      rewrite Nat.sub_diag, E. reflexivity. }
    rewrite <- (firstn_skipn i l) in Hp. apply Forall_app in Hp. destruct Hp as [_ Hp].
    rewrite E in Hp. inversion Hp as [|? ? Hx1 Hr]; subst.
    cbn [fold_right] in Ht. pose proof (Hnn r Hr). lia.
Qed.

Lemma layout_w w l : layout_ok w l -> 8 <= w <= 64.
Proof. intros ([->|[->|[->| ->]]] & _); lia. Qed.

(** Bits of a mask. *)
Lemma mask_bits w p s j : 0 <= w -> 0 <= p -> 0 <= s <= w -> 0 <= j ->
  Z.testbit (wrap w (Z.shiftl (Z.shiftr (2 ^ w - 1) (w - s)) p)) j
  = (j <? w) && (p <=? j) && (j <? p + s).
Proof.
  intros Hw Hp Hs Hj. rewrite wrap_testbit by lia.
  rewrite Z.shiftl_spec by lia.
  replace (2 ^ w - 1) with (Z.ones w) by (rewrite Z.ones_equiv; lia).
  destruct (Z.leb_spec p j).
  - rewrite Z.shiftr_spec by lia.
    rewrite Z.testbit_ones by lia.
    destruct (Z.ltb_spec j w), (Z.ltb_spec j (p + s)); cbn [andb]; try reflexivity; lia.
  - rewrite Z.testbit_neg_r by lia. cbn [andb]. rewrite andb_false_r. reflexivity.
Qed.

Definition mask_of (w p s : Z) : Z := wrap w (Z.shiftl (Z.shiftr (2 ^ w - 1) (w - s)) p).

Lemma GetMask_ok w p s : 8 <= w <= 64 -> 0 <= p -> 1 <= s -> p + s <= w ->
  GetMask w (p, s) = Some (mask_of w p s).
Proof.
  intros. unfold GetMask, mask_of, shift_ok, promoted.
  replace ((0 <=? w - s) && (w - s <? Z.max w 32) && ((0 <=? p) && (p <? Z.max w 32))) with true by lia.
  reflexivity.
Qed.

Lemma GetMirrorMask_ok w p s : 8 <= w <= 64 -> 0 <= p -> 1 <= s -> p + s <= w ->
  GetMirrorMask w (p, s) = Some (mask_of w (w - p - s) s).
Proof.
  intros. unfold GetMirrorMask, mask_of, shift_ok, promoted.
  replace ((0 <=? w - s) && (w - s <? Z.max w 32) &&
           ((0 <=? w - p - s) && (w - p - s <? Z.max w 32))) with true by lia.
  reflexivity.
Qed.

Lemma mask_of_bits w p s j : 0 <= p -> 0 <= s -> p + s <= w -> 0 <= j ->
  Z.testbit (mask_of w p s) j = (p <=? j) && (j <? p + s).
Proof.
  intros. unfold mask_of. rewrite mask_bits by lia.
  destruct (Z.ltb_spec j w), (Z.leb_spec p j), (Z.ltb_spec j (p + s)); try reflexivity; lia.
Qed.

(** Moving a field of v: bits [src,src+s) to [dst,dst+s). *)
Lemma moved_bits w v src dst s j : 0 <= src -> 0 <= dst -> 0 <= s -> src + s <= w -> 0 <= j ->
  Z.testbit (Z.shiftl (Z.shiftr (Z.land v (mask_of w src s)) src) dst) j
  = (dst <=? j) && (j <? dst + s) && Z.testbit v (j - dst + src).
Proof.
  intros. rewrite Z.shiftl_spec by lia.
  destruct (Z.leb_spec dst j).
  - rewrite Z.shiftr_spec, Z.land_spec, mask_of_bits by lia.
    replace (src <=? j - dst + src) with true by lia.
    replace (j - dst + src <? src + s) with (j <? dst + s) by lia.
    cbn [andb]. apply andb_comm.
  - rewrite Z.testbit_neg_r by lia. reflexivity.
Qed.

Lemma field_bits l i v j : 0 <= start l i -> 0 <= size l i -> 0 <= j ->
  Z.testbit (field l i v) j = (j <? size l i) && Z.testbit v (j + start l i).
Proof.
  intros. unfold field. destruct (Z.ltb_spec j (size l i)).
  - rewrite Z.mod_pow2_bits_low, Z.div_pow2_bits by lia. reflexivity.
  - rewrite Z.mod_pow2_bits_high by lia. reflexivity.
Qed.

Lemma Get_spec w l i v : layout_ok w l -> (i < length l)%nat -> 
  BFT_Get w l i v = Some (field l i v).
Proof.
  intros Hl Hi. pose proof (layout_bounds w l i Hl Hi) as (H0 & H1 & H2).
  pose proof (layout_w w l Hl) as Hw.
  unfold BFT_Get. rewrite BF_Get_spec by (destruct Hl as (_ & ? & _); lia).
  rewrite GetMask_ok by lia. cbn [fst]. f_equal.
  apply Z.bits_inj'. intros j Hj. rewrite field_bits by lia.
  rewrite Z.shiftr_spec, Z.land_spec, mask_of_bits by lia.
  replace (start l i <=? j + start l i) with true by lia.
  replace (j + start l i <? start l i + size l i) with (j <? size l i) by lia.
  cbn [andb]. apply andb_comm.
Qed.

Lemma Set_bits w l i v x : layout_ok w l -> (i < length l)%nat -> 0 <= v < 2 ^ w ->
  exists v', BFT_Set w l i v x = Some v' /\ 0 <= v' < 2 ^ w /\
    forall j, 0 <= j -> Z.testbit v' j =
      if (start l i <=? j) && (j <? start l i + size l i)
      then Z.testbit x (j - start l i) else Z.testbit v j.
Proof.
  intros Hl Hi Hv. pose proof (layout_bounds w l i Hl Hi) as (H0 & H1 & H2).
  pose proof (layout_w w l Hl) as Hw.
  unfold BFT_Set. rewrite BF_Get_spec by (destruct Hl as (_ & ? & _); lia).
  rewrite GetMask_ok by lia. cbn [fst]. eexists; split; [reflexivity|].
  split; [apply wrap_range; lia|].
  intros j Hj. rewrite wrap_testbit, Z.lor_spec, wrap_testbit, !Z.land_spec by lia.
  rewrite Z.lnot_spec, Z.shiftl_spec, mask_of_bits by lia.
  destruct (Z.ltb_spec j w).
  - destruct ((start l i <=? j) && (j <? start l i + size l i)); cbn [andb orb negb].
    + rewrite andb_true_r, andb_false_r. reflexivity.
    + rewrite andb_true_r, andb_false_r, orb_false_r. reflexivity.
  - cbn [andb]. replace ((start l i <=? j) && (j <? start l i + size l i)) with false by lia.
    symmetry. apply (testbit_above w); lia.
Qed.

Lemma Set_Get w l i v x : layout_ok w l -> (i < length l)%nat -> 0 <= v < 2 ^ w ->
  exists v', BFT_Set w l i v x = Some v' /\ 0 <= v' < 2 ^ w /\
             BFT_Get w l i v' = Some (x mod 2 ^ size l i).
Proof.
  intros Hl Hi Hv. destruct (Set_bits w l i v x Hl Hi Hv) as (v' & E & Hr & Hb).
  pose proof (layout_bounds w l i Hl Hi) as (H0 & H1 & H2).
  exists v'. split; [exact E|]. split; [exact Hr|].
  rewrite (Get_spec w) by assumption. f_equal.
  apply Z.bits_inj'. intros j Hj. rewrite field_bits by lia.
  destruct (Z.ltb_spec j (size l i)).
  - rewrite Hb, Z.mod_pow2_bits_low by lia.
    replace ((start l i <=? j + start l i) && (j + start l i <? start l i + size l i)) with true by lia.
    cbn [andb]. f_equal. lia.
  - rewrite Z.mod_pow2_bits_high by lia. reflexivity.
Qed.

Lemma Set_frame w l i v x : layout_ok w l -> (i < length l)%nat -> 0 <= v < 2 ^ w ->
  exists v', BFT_Set w l i v x = Some v' /\
    forall b, 0 <= b -> ~ in_member l i b -> Z.testbit v' b = Z.testbit v b.
Proof.
  intros Hl Hi Hv. destruct (Set_bits w l i v x Hl Hi Hv) as (v' & E & Hr & Hb).
  exists v'. split; [exact E|]. intros b Hb0 Hn. rewrite Hb by lia.
  destruct ((start l i <=? b) && (b <? start l i + size l i)) eqn:Ec; [|reflexivity].
  exfalso. apply Hn. split; [exact Hi|]. lia.
Qed.

(** Members do not overlap. *)
Lemma start_step l i : (i < length l)%nat -> start l (S i) = start l i + size l i.
Proof.
  unfold start, size. revert i. induction l as [|h t IH]; intros i Hi; [cbn in Hi; lia|].
  destruct i as [|i].
  - cbn [firstn fold_right nth]. lia.
  - cbn [firstn fold_right nth]. cbn [firstn] in IH. rewrite <- Z.add_assoc. f_equal.
    apply IH. cbn [length] in Hi. lia.
Qed.

Lemma start_mono l i j : Forall (fun s => 1 <= s) l -> (i < j <= length l)%nat ->
  start l i + size l i <= start l j.
Proof.
  intros Hp [Hij Hj]. induction j as [|j IH]; [lia|].
  rewrite start_step by lia.
  assert (1 <= size l j).
  { unfold size. rewrite Forall_forall in Hp. apply Hp, nth_In. lia. }
  destruct (Nat.eq_dec i j) as [->|]; [lia|].
  specialize (IH ltac:(lia) ltac:(lia)). lia.
Qed.

Lemma members_disjoint w l i j b : layout_ok w l -> in_member l i b -> in_member l j b -> i = j.
Proof.
  intros (_ & _ & Hp & _) (Hi & Hbi) (Hj & Hbj).
  destruct (Nat.lt_trichotomy i j) as [H|[H|H]]; [|assumption|].
  - pose proof (start_mono l i j Hp ltac:(lia)). lia.
  - pose proof (start_mono l j i Hp ltac:(lia)). lia.
Qed.

Lemma Set_other w l i k v x : layout_ok w l -> (i < length l)%nat -> (k < length l)%nat -> i <> k ->
  0 <= v < 2 ^ w ->
  exists v', BFT_Set w l i v x = Some v' /\ BFT_Get w l k v' = BFT_Get w l k v.
Proof.
  intros Hl Hi Hk Hne Hv. destruct (Set_frame w l i v x Hl Hi Hv) as (v' & E & Hb).
  exists v'. split; [exact E|]. rewrite !(Get_spec w) by assumption. f_equal.
  pose proof (layout_bounds w l k Hl Hk) as (H0 & H1 & H2).
  apply Z.bits_inj'. intros j Hj. rewrite !field_bits by lia.
  destruct (Z.ltb_spec j (size l k)); [|reflexivity]. cbn [andb].
  apply Hb; [lia|]. intros Hin. apply Hne. apply (members_disjoint w l i k (j + start l k)); try assumption.
  split; [exact Hk|]. lia.
Qed.

(** * SwapBitField *)
Definition mem_ok (w : Z) (m : member) : Prop := 0 <= fst m /\ 1 <= snd m /\ fst m + snd m <= w.
Definition in_out (w : Z) (m : member) (j : Z) : bool :=
  (w - fst m - snd m <=? j) && (j <? w - fst m).
Definition in_in (m : member) (j : Z) : bool := (fst m <=? j) && (j <? fst m + snd m).

Lemma swap_out_bits w ms v : 8 <= w <= 64 -> Forall (mem_ok w) ms -> forall acc, 0 <= acc < 2 ^ w ->
  exists r, swap_out_loop w ms v acc = Some r /\ 0 <= r < 2 ^ w /\
    forall j, 0 <= j -> Z.testbit r j =
      Z.testbit acc j || existsb (fun m => in_out w m j && Z.testbit v (j - (w - fst m - snd m) + fst m)) ms.
Proof.
  intros Hw Hms. induction Hms as [|[p s] ms (Hp & Hs & Hps) Hms IH]; intros acc Hacc.
  - exists acc. split; [reflexivity|]. split; [assumption|]. intros; cbn [existsb]. rewrite orb_false_r. reflexivity.
  - cbn [fst snd] in *. cbn [swap_out_loop]. rewrite GetMask_ok by lia.
    destruct (IH _ (wrap_range w (Z.lor acc (Z.shiftl (Z.shiftr (Z.land v (mask_of w p s)) p) (w - p - s))) ltac:(lia)))
      as (r & E & Hr & Hb).
    exists r. split; [exact E|]. split; [exact Hr|].
    intros j Hj. rewrite Hb by lia. cbn [existsb].
    rewrite wrap_testbit, Z.lor_spec, moved_bits by lia.
    unfold in_out; cbn [fst snd]. replace (w - p - s + s) with (w - p) by lia.
    rewrite orb_assoc. f_equal.
    destruct (Z.ltb_spec j w); [reflexivity|]. cbn [andb].
    rewrite (testbit_above w acc j) by lia. cbn [orb].
    replace (j <? w - p) with false by lia. rewrite andb_false_r. reflexivity.
Qed.

Lemma swap_in_bits w ms v : 8 <= w <= 64 -> Forall (mem_ok w) ms -> forall acc, 0 <= acc < 2 ^ w ->
  exists r, swap_in_loop w ms v acc = Some r /\ 0 <= r < 2 ^ w /\
    forall j, 0 <= j -> Z.testbit r j =
      Z.testbit acc j || existsb (fun m => in_in m j && Z.testbit v (j - fst m + (w - fst m - snd m))) ms.
Proof.
  intros Hw Hms. induction Hms as [|[p s] ms (Hp & Hs & Hps) Hms IH]; intros acc Hacc.
  - exists acc. split; [reflexivity|]. split; [assumption|]. intros; cbn [existsb]. rewrite orb_false_r. reflexivity.
  - cbn [fst snd] in *. cbn [swap_in_loop]. rewrite GetMirrorMask_ok by lia.
    destruct (IH _ (wrap_range w (Z.lor acc (Z.shiftl (Z.shiftr (Z.land v (mask_of w (w - p - s) s)) (w - p - s)) p)) ltac:(lia)))
      as (r & E & Hr & Hb).
    exists r. split; [exact E|]. split; [exact Hr|].
    intros j Hj. rewrite Hb by lia. cbn [existsb].
    rewrite wrap_testbit, Z.lor_spec, moved_bits by lia.
    unfold in_in; cbn [fst snd].
    rewrite orb_assoc. f_equal.
    destruct (Z.ltb_spec j w); [reflexivity|]. cbn [andb].
    rewrite (testbit_above w acc j) by lia. cbn [orb].
    replace (j <? p + s) with false by lia. rewrite andb_false_r. reflexivity.
Qed.

Lemma get_all_spec l : (2 <= length l)%nat -> forall n i, (i + n <= length l)%nat ->
  get_all (BF_Get l) n i = Some (map (fun k => (start l k, size l k)) (seq i n)).
Proof.
  intros Hl. induction n as [|n IH]; intros i Hi; cbn [get_all seq map]; [reflexivity|].
  rewrite BF_Get_spec by lia. rewrite IH by lia. reflexivity.
Qed.

Lemma swap_if_wide_ok w x : (w = 8 \/ w = 16 \/ w = 32 \/ w = 64) -> 0 <= x < 2 ^ w ->
  exists y, swap_if_wide w x = Some y /\ 0 <= y < 2 ^ w /\ swap_if_wide w y = Some x.
Proof.
  intros Hw Hx. unfold swap_if_wide.
  destruct Hw as [->|[->|[->| ->]]].
  - exists x. cbn. repeat split; try lia; reflexivity.
  - destruct (FByteswapper_involution 2 x ltac:(unfold swap_size; lia) ltac:(lia)) as (y & E1 & Hy & _ & E2).
    exists y. change (16 / 8) with 2. cbn [Z.ltb Z.compare Pos.compare Pos.compare_cont]. repeat split; try assumption; lia.
  - destruct (FByteswapper_involution 4 x ltac:(unfold swap_size; lia) ltac:(lia)) as (y & E1 & Hy & _ & E2).
    exists y. change (32 / 8) with 4. cbn [Z.ltb Z.compare Pos.compare Pos.compare_cont]. repeat split; try assumption; lia.
  - destruct (FByteswapper_involution 8 x ltac:(unfold swap_size; lia) ltac:(lia)) as (y & E1 & Hy & _ & E2).
    exists y. change (64 / 8) with 8. cbn [Z.ltb Z.compare Pos.compare Pos.compare_cont]. repeat split; try assumption; lia.
Qed.

Lemma existsb_seq (f : nat -> bool) n :
  existsb f (seq 0 n) = true <-> exists i, (i < n)%nat /\ f i = true.
Proof.
  rewrite existsb_exists. split; intros (i & H1 & H2); exists i; (split; [|exact H2]).
  - apply in_seq in H1. lia.
  - apply in_seq. lia.
Qed.

Lemma existsb_map {A B} (g : A -> B) (f : B -> bool) l : existsb f (map g l) = existsb (fun x => f (g x)) l.
Proof. induction l as [|a l IH]; cbn [existsb map]; [|rewrite IH]; reflexivity. Qed.

Definition members (l : list Z) : list member := map (fun k => (start l k, size l k)) (seq 0 (length l)).

Lemma members_ok w l : layout_ok w l -> Forall (mem_ok w) (members l).
Proof.
  intros Hl. apply Forall_forall. intros m Hm. unfold members in Hm. apply in_map_iff in Hm.
  destruct Hm as (k & <- & Hk). apply in_seq in Hk.
  pose proof (layout_bounds w l k Hl ltac:(lia)). unfold mem_ok; cbn [fst snd]. lia.
Qed.

(** Bits after converting out and back in: exactly the member bits of v. *)
Lemma out_in_bits w l v : layout_ok w l -> 0 <= v < 2 ^ w ->
  exists o r, BFT_SwapEndian w l true v = Some o /\ 0 <= o < 2 ^ w /\
    BFT_SwapEndian w l false o = Some r /\ 0 <= r < 2 ^ w /\
    forall b, 0 <= b -> (Z.testbit r b = true <-> Z.testbit v b = true /\ exists i, in_member l i b).
Proof.
  intros Hl Hv. pose proof (layout_w w l Hl) as Hw.
  assert (Hlen : (2 <= length l)%nat) by (destruct Hl as (_ & ? & _); assumption).
  pose proof (members_ok w l Hl) as Hms.
  unfold BFT_SwapEndian. rewrite (get_all_spec l Hlen) by lia. fold (members l).
  unfold SwapBitField.
  destruct (swap_out_bits w (members l) v Hw Hms 0 ltac:(pose proof (pow2_pos w ltac:(lia)); lia)) as (x & Ex & Hx & Bx).
  rewrite Ex.
  destruct (swap_if_wide_ok w x ltac:(apply Hl) Hx) as (o & Eo & Ho & Ei).
  destruct (swap_in_bits w (members l) x Hw Hms 0 ltac:(pose proof (pow2_pos w ltac:(lia)); lia)) as (r & Er & Hr & Br).
  exists o, r. split; [exact Eo|]. split; [exact Ho|]. rewrite Ei. split; [exact Er|]. split; [exact Hr|].
  intros b Hb. rewrite Br by lia. rewrite Z.bits_0. cbn [orb].
  unfold members. rewrite existsb_map, existsb_seq. cbn [fst snd]. split.
  - intros (i & Hi & H). apply andb_prop in H. destruct H as [Hin Hx'].
    unfold in_in in Hin; cbn [fst snd] in Hin.
    pose proof (layout_bounds w l i Hl Hi) as (B0 & B1 & B2).
    rewrite Bx in Hx' by lia. rewrite Z.bits_0 in Hx'. cbn [orb] in Hx'.
    unfold members in Hx'. rewrite existsb_map in Hx'. apply existsb_seq in Hx'.
    destruct Hx' as (k & Hk & H'). cbn [fst snd] in H'. apply andb_prop in H'. destruct H' as [Hout Hvb].
    unfold in_out in Hout; cbn [fst snd] in Hout.
    pose proof (layout_bounds w l k Hl Hk) as (C0 & C1 & C2).
    assert (k = i).
    { (* the mirrored position w-1-… identifies the member *)
      set (q := b - start l i + (w - start l i - size l i)) in *.
      apply (members_disjoint w l k i (w - 1 - q)); try assumption.
      - split; [exact Hk|]. lia.
      - split; [exact Hi|]. unfold q. lia. }
    subst k. split.
    + match type of Hvb with Z.testbit v ?e = true => replace e with b in Hvb by lia end. exact Hvb.
    + exists i. split; [exact Hi|]. lia.
  - intros (Hvb & i & Hi & Hin). exists i. split; [exact Hi|].
    pose proof (layout_bounds w l i Hl Hi) as (B0 & B1 & B2).
    unfold in_in; cbn [fst snd].
    replace ((start l i <=? b) && (b <? start l i + size l i)) with true by lia. cbn [andb].
    rewrite Bx by lia. rewrite Z.bits_0. cbn [orb].
    unfold members. rewrite existsb_map. apply existsb_seq. exists i. split; [exact Hi|]. cbn [fst snd].
    unfold in_out; cbn [fst snd].
    replace ((w - start l i - size l i <=? b - start l i + (w - start l i - size l i)) &&
             (b - start l i + (w - start l i - size l i) <? w - start l i)) with true by lia.
    cbn [andb].
    match goal with |- Z.testbit v ?e = true => replace e with b by lia end. exact Hvb.
Qed.

Lemma out_in_members w l v : layout_ok w l -> 0 <= v < 2 ^ w ->
  exists o r, BFT_SwapEndian w l true v = Some o /\ BFT_SwapEndian w l false o = Some r /\
    (forall i, (i < length l)%nat -> BFT_Get w l i r = BFT_Get w l i v) /\
    (forall b, 0 <= b -> ~ (exists i, in_member l i b) -> Z.testbit r b = false).
Proof.
  intros Hl Hv. destruct (out_in_bits w l v Hl Hv) as (o & r & E1 & _ & E2 & Hr & Hb).
  exists o, r. split; [exact E1|]. split; [exact E2|]. split.
  - intros i Hi. rewrite !(Get_spec w) by assumption. f_equal.
    pose proof (layout_bounds w l i Hl Hi) as (B0 & B1 & B2).
    apply Z.bits_inj'. intros j Hj. rewrite !field_bits by lia.
    destruct (Z.ltb_spec j (size l i)); [|reflexivity]. cbn [andb].
    specialize (Hb (j + start l i) ltac:(lia)).
    destruct (Z.testbit v (j + start l i)) eqn:Ev.
    + apply Hb. split; [reflexivity|]. exists i. split; [exact Hi|]. lia.
    + destruct (Z.testbit r (j + start l i)) eqn:Er; [|reflexivity].
      destruct (proj1 Hb eq_refl) as [H' _]. discriminate.
  - intros b Hb0 Hn. destruct (Z.testbit r b) eqn:Er; [|reflexivity].
    exfalso. apply Hn. apply (Hb b Hb0). exact Er.
Qed.

(** A full layout covers every bit. *)
Lemma full_covers w l b : layout_ok w l -> fold_right Z.add 0 l = w -> 0 <= b < w ->
  exists i, in_member l i b.
Proof.
  intros Hl Hf Hb.
  assert (G : forall n, (n <= length l)%nat -> b < start l n -> exists i, in_member l i b).
  { induction n as [|n IH]; intros Hn Hlt.
    - unfold start in Hlt. cbn in Hlt. lia.
    - destruct (Z.lt_ge_cases b (start l n)) as [H|H]; [apply IH; lia|].
      rewrite start_step in Hlt by lia. exists n. split; [lia|]. lia. }
  apply (G (length l)); [lia|]. unfold start. rewrite firstn_all. lia.
Qed.

Lemma out_in_full w l v : layout_ok w l -> fold_right Z.add 0 l = w -> 0 <= v < 2 ^ w ->
  exists o, BFT_SwapEndian w l true v = Some o /\ 0 <= o < 2 ^ w /\ BFT_SwapEndian w l false o = Some v.
Proof.
  intros Hl Hf Hv. destruct (out_in_bits w l v Hl Hv) as (o & r & E1 & Ho & E2 & Hr & Hb).
  exists o. split; [exact E1|]. split; [exact Ho|]. rewrite E2. f_equal.
  pose proof (layout_w w l Hl) as Hw.
  apply Z.bits_inj'. intros b Hb0. specialize (Hb b Hb0).
  destruct (Z.lt_ge_cases b w) as [H|H].
  - destruct (full_covers w l b Hl Hf ltac:(lia)) as [i Hi].
    destruct (Z.testbit v b) eqn:Ev.
    + apply Hb. split; [reflexivity|]. exists i; exact Hi.
    + destruct (Z.testbit r b) eqn:Er; [|reflexivity]. destruct (proj1 Hb eq_refl); discriminate.
  - rewrite (testbit_above w r), (testbit_above w v) by lia. reflexivity.
Qed.

(** Converting in and then out, for a full layout. *)
Lemma in_out_full w l v : layout_ok w l -> fold_right Z.add 0 l = w -> 0 <= v < 2 ^ w ->
  exists o, BFT_SwapEndian w l false v = Some o /\ 0 <= o < 2 ^ w /\ BFT_SwapEndian w l true o = Some v.
Proof.
  intros Hl Hf Hv. pose proof (layout_w w l Hl) as Hw.
  assert (Hlen : (2 <= length l)%nat) by (destruct Hl as (_ & ? & _); assumption).
  pose proof (members_ok w l Hl) as Hms.
  unfold BFT_SwapEndian. rewrite (get_all_spec l Hlen) by lia. fold (members l).
  unfold SwapBitField.
  destruct (swap_if_wide_ok w v ltac:(apply Hl) Hv) as (x & Ex & Hx & Ei).
  rewrite Ex.
  destruct (swap_in_bits w (members l) x Hw Hms 0 ltac:(pose proof (pow2_pos w ltac:(lia)); lia)) as (r & Er & Hr & Br).
  destruct (swap_out_bits w (members l) r Hw Hms 0 ltac:(pose proof (pow2_pos w ltac:(lia)); lia)) as (y & Ey & Hy & By).
  exists r. split; [exact Er|]. split; [exact Hr|]. rewrite Ey.
  replace y with x; [exact Ei|]. symmetry.
  apply Z.bits_inj'. intros b Hb. rewrite By by lia. rewrite Z.bits_0. cbn [orb].
  unfold members. rewrite existsb_map. cbn [fst snd].
  destruct (Z.lt_ge_cases b w) as [Hbw|Hbw].
  2:{ rewrite (testbit_above w x) by lia.
      apply not_true_is_false. intros H. apply existsb_seq in H. destruct H as (i & Hi & H).
      pose proof (layout_bounds w l i Hl Hi). unfold in_out in H; cbn [fst snd] in H. lia. }
  destruct (full_covers w l (w - 1 - b) Hl Hf ltac:(lia)) as [i [Hi Hin]].
  pose proof (layout_bounds w l i Hl Hi) as (B0 & B1 & B2).
  assert (Hkey : Z.testbit r (b - (w - start l i - size l i) + start l i) = Z.testbit x b).
  { rewrite Br by lia. rewrite Z.bits_0. cbn [orb]. unfold members. rewrite existsb_map. cbn [fst snd].
    apply eq_true_iff_eq. rewrite existsb_seq. split.
    - intros (k & Hk & H). apply andb_prop in H. destruct H as [Hk2 Hxb].
      unfold in_in in Hk2; cbn [fst snd] in Hk2.
      assert (k = i).
      { apply (members_disjoint w l k i (b - (w - start l i - size l i) + start l i)); try assumption;
        (split; [assumption|lia]). }
      subst k. match type of Hxb with Z.testbit x ?e = true => replace e with b in Hxb by lia end. exact Hxb.
    - intros Hxb. exists i. split; [exact Hi|]. unfold in_in; cbn [fst snd].
      match goal with |- (?c && Z.testbit x ?e) = true => replace c with true by lia; replace e with b by lia end.
      exact Hxb. }
  apply eq_true_iff_eq. rewrite existsb_seq. split.
  - intros (k & Hk & H). apply andb_prop in H. destruct H as [Hk2 Hxb].
    unfold in_out in Hk2; cbn [fst snd] in Hk2.
    assert (k = i).
    { apply (members_disjoint w l k i (w - 1 - b)); try assumption; (split; [assumption|lia]). }
    subst k. rewrite <- Hkey. exact Hxb.
  - intros Hxb. exists i. split; [exact Hi|]. unfold in_out; cbn [fst snd].
    replace ((w - start l i - size l i <=? b) && (b <? w - start l i)) with true by lia.
    cbn [andb]. rewrite Hkey. exact Hxb.
Qed.
