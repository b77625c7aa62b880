(** Load on the enumerations of the file of Save, and the whole round trip. *)
From Coq Require Import String Ascii Sorting.Sorted.
From Verif Require Import Base Dds_Model RefDb_Model RefDb_Proof RefDb_Slots_Proof RefDb_Layout_Proof RefDb_Facts_Proof RefDb_Arrays_Proof
  RefDb_Load_Proof RefDb_Spec RefDb_Size_Proof RefDb_Loop_Proof RefDb_View_Proof.
Local Open Scope Z_scope.

Fixpoint heads (p : Z) (l : list enm) : list (Z * Z * Z) :=
  match l with [] => [] | e :: r => (ehash e, zlen (enames e), p + 8) :: heads (p + 8 + 8 * zlen (enames e)) r end.
Fixpoint outcome (p : Z) (l : list enm) : list loaded_enum :=
  match l with [] => [] | e :: r => (ehash e, enames e, p + 8, ename e) :: outcome (p + 8 + 8 * zlen (enames e)) r end.

Lemma take_spec base s M l : forall it, (forall r t, nth_error l r = Some t -> exists p, rd 8 s M (it + 8 * Z.of_nat r) = Some p /\ at_ptr base s M p = Some t) ->
  take_names base s M (length l) it = Some l.
Proof.
  induction l as [|t l IH]; intros it H; [reflexivity|]. cbn [length take_names].
  destruct (H O t eq_refl) as (p & E1 & E2). replace (it + 8 * Z.of_nat 0) with it in E1 by lia. rewrite E1, E2.
  rewrite IH; [reflexivity|]. intros r x E. destruct (H (S r) x E) as (p' & E3 & E4). exists p'. split; [|exact E4].
  replace (it + 8 + 8 * Z.of_nat r) with (it + 8 * Z.of_nat (S r)) by lia. exact E3.
Qed.
Lemma name_spec base s M l : forall it p, (forall r t, nth_error (strings l) r = Some t -> exists p, rd 8 s M (it + 8 * Z.of_nat r) = Some p /\ at_ptr base s M p = Some t) ->
  name_enums base s M (heads p l) it = Some (outcome p l).
Proof.
  induction l as [|e l IH]; intros it p H; [reflexivity|]. cbn [heads name_enums outcome]. unfold strings in H. cbn [flat_map] in H. fold (strings l) in H.
  unfold zlen. rewrite Nat2Z.id. rewrite take_spec.
  - assert (X : nth_error ((enames e ++ [ename e]) ++ strings l) (length (enames e)) = Some (ename e)).
    { rewrite nth_error_app1 by (rewrite app_length; cbn; lia). rewrite nth_error_app2 by lia. rewrite Nat.sub_diag. reflexivity. }
    destruct (H _ _ X) as (q & E1 & E2). rewrite E1, E2. rewrite IH; [reflexivity|].
    intros r t E. destruct (H (length (enames e) + 1 + r)%nat t) as (q' & E3 & E4).
    { rewrite nth_error_app2 by (rewrite app_length; cbn; lia). rewrite app_length. cbn [length]. now replace (length (enames e) + 1 + r - (length (enames e) + 1))%nat with r by lia. }
    exists q'. split; [|exact E4]. now replace (it + 8 * Z.of_nat (length (enames e)) + 8 + 8 * Z.of_nat r) with (it + 8 * Z.of_nat (length (enames e) + 1 + r)) by lia.
  - intros r t E. apply H. assert (r < length (enames e))%nat by (apply nth_error_Some; congruence).
    rewrite nth_error_app1 by (rewrite app_length; cbn; lia). now rewrite nth_error_app1.
Qed.

Lemma quads_nth (l : list Z) : Forall (fun v => 0 <= v < 2 ^ 64) l -> forall m a, holds m a (flat_map (fun v => le_bytes 8 (u64 v)) l) ->
  forall r v, nth_error l r = Some v -> quad m (a + 8 * Z.of_nat r) v /\ 0 <= v < 2 ^ 64.
Proof.
  induction 1 as [|x l Hx _ IH]; intros m a H [|r] v E; try discriminate; cbn [flat_map] in H; apply holds_app in H as [H1 H2]; cbn in E.
  - injection E as ->. replace (a + 8 * Z.of_nat 0) with a by lia. unfold u64 in H1. rewrite wrap_small in H1 by lia. split; assumption.
  - rewrite le_len in H2. destruct (IH _ _ H2 r v E) as [Q V]. split; [|exact V]. now replace (a + 8 * Z.of_nat (S r)) with (a + Z.of_nat 8 + 8 * Z.of_nat r) by lia.
Qed.
Lemma zlen_flat8 l : zlen (flat_map (fun v => le_bytes 8 (u64 v)) l) = 8 * zlen l.
Proof. induction l as [|v l IH]; [reflexivity|]. cbn [flat_map]. unfold zlen at 1. rewrite zlen_app. fold (zlen (flat_map (fun v => le_bytes 8 (u64 v)) l)). rewrite IH. unfold zlen. rewrite le_length. cbn [length]. lia. Qed.
Lemma all_spec {A B} (f : A -> option B) l r : length l = length r -> (forall i x y, nth_error l i = Some x -> nth_error r i = Some y -> f x = Some y) -> all (map f l) = Some r.
Proof.
  revert r. induction l as [|x l IH]; intros [|y r] E H; try discriminate; [reflexivity|]. cbn [map all].
  rewrite (H O x y eq_refl eq_refl). rewrite (IH r); [reflexivity|cbn in E; lia|]. intros i a b Ha Hb0. apply (H (S i)); assumption.
Qed.

Section Db.
Variables (d : db) (base : Z).
Hypothesis ok : db_ok d.
Notation s := (pos (all_ops d)).
Notation F := (fin (all_ops d)).
Hypothesis Hb : 0 < base.
Hypothesis Hbs : base + s < 2 ^ 64.
Notation n := (length (classes d)).
Notation ne := (length (enums d)).

Lemma hpos_range j : (j <= ne)%nat -> pos (preE d) <= hpos d j <= table d.
Proof. intros Hj. rewrite <- hpos_0. pose proof (hpos_mono d 0 j ltac:(lia)). pose proof (hpos_mono d j ne ltac:(lia)). unfold table. lia. Qed.
Lemma enum_ok_at j e : nth_error (enums d) j = Some e -> enum_ok e.
Proof. intros E. destruct ok as (_ & H0 & _). rewrite Forall_forall in H0. apply H0. eapply nth_error_In; eauto. Qed.
Lemma enum_size e j : nth_error (enums d) j = Some e -> hpos d (S j) = hpos d j + 8 + 8 * zlen (enames e).
Proof. intros E. destruct (enum_ok_at _ _ E) as (_ & L & _). now destruct (enum_fact d j e E L) as (_ & _ & _ & R). Qed.

Lemma load_enums_spec m : (forall x, pos (preE d) <= x < table d -> m x = F x) ->
  forall k j, (j + k = ne)%nat -> load_enums s m k (hpos d j) = Some (heads (hpos d j) (skipn j (enums d)), table d).
Proof.
  intros Hm. pose proof (small d ok) as Sm. pose proof (b_order d) as O. pose proof (table_end d) as TE. pose proof (total_nonneg d) as TN. pose proof (pos_nonneg (preE d)) as PE.
  assert (P31 : 2 ^ 32 = 2 * 2 ^ 31) by reflexivity.
  induction k as [|k IH]; intros j Hj.
  - replace j with ne by lia. rewrite skipn_all. reflexivity.
  - destruct (nth_error (enums d) j) as [e|] eqn:E; [|apply nth_error_None in E; lia].
    destruct (enum_ok_at _ _ E) as (Hh & L & _). destruct (enum_fact d j e E L) as (W0 & W1 & _ & R).
    pose proof (hpos_range (S j) ltac:(lia)). pose proof (hpos_range j ltac:(lia)). pose proof (zlen_nonneg (enames e)) as Z0.
    cbn [load_enums]. unfold u32 in W0, W1. rewrite wrap_small in W0 by lia. rewrite wrap_small in W1 by lia.
    rewrite (rd_word s m (hpos d j) (ehash e)); [|eapply word_ext; [|exact W0]; intros x Hx; apply Hm; lia|lia|lia|lia].
    rewrite (rd_word s m (hpos d j + 4) (zlen (enames e))); [|eapply word_ext; [|exact W1]; intros x Hx; apply Hm; lia|lia|lia|lia].
    rewrite <- R, (IH (S j) ltac:(lia)). cbn [fst snd].
    assert (K : skipn j (enums d) = e :: skipn (S j) (enums d)).
    { clear -E. revert j E. induction (enums d) as [|x l IHl]; intros [|j] E; try discriminate; cbn in *; [congruence|]. apply IHl. exact E. }
    rewrite K. cbn [heads]. rewrite <- R. reflexivity.
Qed.
Lemma outcome_nth l : forall p i x, nth_error (outcome p l) i = Some x -> exists e, nth_error l i = Some e /\
  x = (ehash e, enames e, p + 8 * Z.of_nat i + 8 * sum (map (fun e => zlen (enames e)) (firstn i l)) + 8, ename e).
Proof.
  induction l as [|e l IH]; intros p [|i] x E; try discriminate; cbn [outcome nth_error] in E.
  - injection E as <-. exists e. split; [reflexivity|]. cbn. f_equal. f_equal. lia.
  - destruct (IH _ _ _ E) as (e' & E1 & ->). exists e'. split; [exact E1|]. cbn [firstn map]. unfold sum. cbn [fold_right]. do 2 f_equal. lia.
Qed.
Lemma outcome_length l : forall p, length (outcome p l) = length l.
Proof. induction l as [|e l IH]; intros p; cbn; [reflexivity|]. now rewrite IH. Qed.
Lemma hpos_sum : forall i, (i <= ne)%nat -> hpos d i = hpos d 0 + 8 * Z.of_nat i + 8 * sum (map (fun e => zlen (enames e)) (firstn i (enums d))).
Proof.
  induction i as [|i IH]; intros Hi; [cbn; lia|]. destruct (nth_error (enums d) i) as [e|] eqn:E; [|apply nth_error_None in E; lia].
  rewrite (enum_size e i E), IH by lia. rewrite (firstn_next _ _ _ E), map_app, sum_app. cbn [map]. unfold sum. cbn [fold_right]. lia.
Qed.

Lemma field_header a b c e f rest i v : nth_error [ID; VERSION; a; b; c; e; f; 0] i = Some v -> field (header a b c e f ++ rest) i = u32 v.
Proof.
  assert (U : forall v, le_value (u32b v) = u32 v) by (intros; apply le_back; unfold u32, wrap; apply Z.mod_pos_bound; reflexivity).
  intros H. rewrite <- U. unfold field. f_equal. unfold header. cbn [flat_map].
  do 8 (destruct i as [|i]; [cbn in H; injection H as <-; reflexivity|]). destruct i; discriminate.
Qed.

Lemma round_trip : exists file r, Save d = Some file /\ Load base file = Some r /\ contents base r = Some (without_alias_hashes d).
Proof.
  pose proof (small d ok) as Sm. pose proof (pos_nonneg (all_ops d)) as Sp.
  assert (P31 : 2 ^ 32 = 2 * 2 ^ 31) by reflexivity. assert (P64 : 2 ^ 64 = 2 ^ 32 * 2 ^ 32) by reflexivity.
  rewrite (save_file d Sm).
  pose proof (b_ends d) as (B1 & B2 & B3 & B4 & B5 & B6 & B7). pose proof (b_order d) as O. pose proof (table_end d) as TE. pose proof (total_nonneg d) as TN.
  pose proof (hpos_0 d) as H0. pose proof (hpos_range ne ltac:(lia)) as HR. fold (table d) in HR.
  pose proof (hpos_sum ne ltac:(lia)) as HS. fold (table d) in HS.
  assert (S0 : 0 <= sum (map (fun e => zlen (enames e)) (firstn ne (enums d)))).
  { clear. induction (firstn ne (enums d)) as [|e l IH]; [cbn; lia|]. cbn [map]. unfold sum in *. cbn [fold_right]. pose proof (zlen_nonneg (enames e)). lia. }
  unfold zlen in B1.
  assert (PC : pos (class_ops d) = pos (preE d)).
  { rewrite class_ops_eq. reflexivity. }
  set (hd := header (zlen (classes d)) (zlen (enums d)) (total_strings d) (pos (class_ops d)) s).
  set (file := hd ++ peek F 0 (Z.to_nat s)).
  assert (FH : forall i v, nth_error [ID; VERSION; zlen (classes d); zlen (enums d); total_strings d; pos (class_ops d); s; 0] i = Some v -> 0 <= v < 2 ^ 32 -> field file i = v).
  { intros i v E V. unfold file, hd. rewrite (field_header _ _ _ _ _ _ _ _ E). unfold u32. apply wrap_small. exact V. }
  assert (F0 : field file 0 = ID) by (apply FH; [reflexivity|vm_compute; split; [discriminate|reflexivity]]).
  assert (F1 : field file 1 = VERSION) by (apply FH; [reflexivity|vm_compute; split; [discriminate|reflexivity]]).
  assert (F2 : field file 2 = zlen (classes d)) by (apply FH; [reflexivity|unfold zlen; lia]).
  assert (F3 : field file 3 = zlen (enums d)) by (apply FH; [reflexivity|unfold zlen; lia]).
  assert (F4 : field file 4 = total_strings d) by (apply FH; [reflexivity|lia]).
  assert (F5 : field file 5 = hpos d 0) by (rewrite H0, <- PC; apply FH; [reflexivity|rewrite PC; pose proof (pos_nonneg (preE d)); lia]).
  assert (F6 : field file 6 = s) by (apply FH; [reflexivity|lia]).
  exists file. cut (exists r, Load base file = Some r /\ contents base r = Some (without_alias_hashes d)); [intros (r & X & Y); exists r; auto|].
  unfold Load.
  assert (L32 : (length file <? 32)%nat = false).
  { apply Nat.ltb_ge. unfold file. rewrite app_length. assert (length hd = 32%nat) by reflexivity. lia. }
  rewrite L32, F0, F1, F2, F3, F4, F5, F6. rewrite Z.eqb_refl. change (VERSION <? VERSION) with false. cbn [negb]. cbv zeta.
  set (m0 := to_mem (firstn (Z.to_nat s) (skipn 32 file))).
  assert (M0 : forall x, 0 <= x < s -> m0 x = F x).
  { intros x Hx. unfold m0, file. change 32%nat with (length hd). rewrite skipn_app, skipn_all, Nat.sub_diag. cbn [app skipn].
    rewrite firstn_all2 by (rewrite peek_length; lia). unfold to_mem. destruct (Z.ltb_spec x 0); [lia|]. rewrite peek_nth by lia. f_equal. lia. }
  unfold zlen at 1 3. rewrite !Nat2Z.id.
  destruct (all_classes d base ok n 0 m0) as (m1 & E1 & O1 & D1); [lia| |].
  { intros x Hx. apply M0. unfold rest in Hx. pose proof (b_mono d 0 n ltac:(lia)). lia. }
  change (56 * Z.of_nat 0) with 0 in E1. rewrite E1.
  assert (M1 : forall x, 0 <= x < s -> (forall j, (j < n)%nat -> ~ touched d j x) -> m1 x = F x) by (intros x Hx Ht; rewrite O1 by (intros j Hj; apply Ht; lia); now apply M0).
  assert (M1S : forall x, pos (preS d) <= x < s -> m1 x = F x).
  { intros x Hx. apply M1; [pose proof (pos_nonneg (preS d)); lia|]. apply not_touched. lia. }
  unfold zlen at 1. rewrite Nat2Z.id. rewrite (load_enums_spec m1 ltac:(intros x Hx; apply M1S; lia) ne 0 ltac:(lia)). cbn [fst snd skipn].
  assert (TB : forall r, 0 <= r < total_strings d -> exists t a, nth_error (strings (enums d)) (Z.to_nat r) = Some t /\
     word F (table d + 4 * total_strings d + 4 * r) a /\ text_at d (pos (preX d)) s a t).
  { intros r Hr. destruct (nth_error (strings (enums d)) (Z.to_nat r)) as [t|] eqn:E.
    - destruct (strings_fact d _ _ E) as (a & W & T). rewrite Z2Nat.id in W by lia. eauto.
    - apply nth_error_None in E. pose proof (strings_length (enums d)) as SL. change (etotal (enums d)) with (total_strings d) in SL. unfold zlen in SL. unfold text in *. lia. }
  destruct (expand_spec (ptr base) s (table d) (total_strings d) (fun r => fw d (table d + 4 * total_strings d + 4 * r)) (Z.to_nat (total_strings d)) 0 m1)
    as (m2 & E2 & O2 & Q2); try lia.
  { intros r Hr. destruct (TB r ltac:(lia)) as (t & a & _ & W & T1 & T2 & _). pose proof (zlen_nonneg t). pose proof (pos_nonneg (preX d)).
    rewrite (fw_word d _ a W) by lia. split; [|lia]. eapply word_ext; [|exact W]. intros x Hx. apply M1S. lia. }
  rewrite E2.
  assert (NM : forall r t, nth_error (strings (enums d)) r = Some t -> exists p, rd 8 s m2 (table d + 8 * Z.of_nat r) = Some p /\ at_ptr base s m2 p = Some t).
  { intros r t E. assert (Lr : (r < length (strings (enums d)))%nat) by (apply nth_error_Some; congruence).
    pose proof (strings_length (enums d)) as SL. change (etotal (enums d)) with (total_strings d) in SL. unfold zlen in SL. unfold text in *.
    destruct (TB (Z.of_nat r) ltac:(lia)) as (t' & a & E' & W & T1 & T2 & T3). rewrite Nat2Z.id in E'. assert (t' = t) by (unfold text in *; congruence). subst t'.
    pose proof (zlen_nonneg t). pose proof (pos_nonneg (preX d)).
    pose proof (Q2 (Z.of_nat r) ltac:(lia)) as Q. rewrite (fw_word d _ a W) in Q by lia.
    assert (PB : 0 <= ptr base a < 2 ^ 64) by (unfold ptr, u64, wrap; apply Z.mod_pos_bound; reflexivity).
    exists (ptr base a). split; [apply rd_quad; try assumption; pose proof (pos_nonneg (preE d)); lia|].
    apply at_ptr_spec; try assumption; try lia.
    - assert (St : Forall string_ok (strings (enums d))).
      { destruct ok as (_ & He & _). clear -He. induction He as [|e l (_ & _ & _ & Hn & Hm) _ IH]; [constructor|]. unfold strings. cbn [flat_map].
        apply Forall_app. split; [apply Forall_app; split; [exact Hn|now constructor]|exact IH]. }
      rewrite Forall_forall in St. apply St. eapply nth_error_In; eauto.
    - eapply holds_ext; [|exact T3]. intros x Hx. unfold zlen in Hx. rewrite app_length in Hx. cbn in Hx. rewrite O2 by (unfold zlen in *; lia). apply M1S. unfold zlen in *; lia. }
  rewrite (name_spec base s m2 (enums d) (table d) (hpos d 0) NM).
  eexists. split; [reflexivity|].
  assert (M2 : forall x, 0 <= x < s -> (x < table d \/ pos (preX d) <= x) -> m2 x = m1 x) by (intros x Hx Ht; apply O2; lia).
  unfold contents.
  assert (CS : all (map (fun i => class_at base s m2 (56 * Z.of_nat i)) (seq 0 n)) = Some (map no_hashes (classes d))).
  { apply all_spec; [now rewrite seq_length, map_length|]. intros i x y Ex Ey.
    assert (Li : (i < n)%nat) by (rewrite <- (seq_length n 0); apply nth_error_Some; congruence).
    assert (x = i). { pose proof (nth_error_nth (seq 0 n) i 0%nat Ex) as Ex2. rewrite seq_nth in Ex2 by exact Li. lia. } subst x.
    destruct (nth_error (classes d) i) as [cl|] eqn:Ei; [|apply nth_error_None in Ei; lia].
    assert (y = no_hashes cl). { rewrite nth_error_map, Ei in Ey. cbn in Ey. congruence. } subst y.
    apply class_view; try assumption.
    - intros x Hx. pose proof (pos_nonneg (preT d)). pose proof (pos_nonneg (preS d)). rewrite M2 by lia. apply M1; [lia|]. apply not_touched. lia.
    - apply (done_ext d base ok i cl m1 m2 Ei); [|apply D1; [lia|exact Ei]]. intros x Hx. apply touched_in in Hx; [|exact Li].
      pose proof (b_mono d 0 i ltac:(lia)). unfold rest in Hx. pose proof (pos_nonneg (preN d)). apply M2; lia.
    - intros x Hx. rewrite M2 by lia. apply M1; [lia|]. apply (not_touched_head d i); assumption. }
  rewrite CS.
  assert (ES : all (map (enum_of s m2) (outcome (hpos d 0) (enums d))) = Some (enums d)).
  { apply all_spec; [apply outcome_length|]. intros i x y Ex Ey. destruct (outcome_nth _ _ _ _ Ex) as (e & Ee & ->).
    assert (e = y) by congruence. subst y. assert (Li : (i < ne)%nat) by (apply nth_error_Some; congruence).
    rewrite <- hpos_sum by lia. destruct (enum_ok_at _ _ Ee) as (_ & L & V & _). destruct (enum_fact d i e Ee L) as (_ & _ & HV & R).
    pose proof (hpos_range (S i) ltac:(lia)). pose proof (hpos_range i ltac:(lia)). pose proof (zlen_nonneg (enames e)). pose proof (pos_nonneg (preE d)).
    unfold enum_of. rewrite (each_spec (evalues e)); [destruct e; reflexivity|congruence|].
    intros r v Er. assert (r < length (evalues e))%nat by (apply nth_error_Some; congruence). unfold zlen in *. rewrite <- L in *.
    assert (HV2 : holds m2 (hpos d i + 8) (flat_map (fun v => le_bytes 8 (u64 v)) (evalues e))).
    { eapply holds_ext; [|exact HV]. intros x Hx. rewrite zlen_flat8 in Hx. unfold zlen in Hx. rewrite M2 by lia. apply M1S. lia. }
    destruct (quads_nth _ V _ _ HV2 r v Er) as [Q Vv]. apply number_quad; try assumption; lia. }
  rewrite ES. reflexivity.
Qed.
End Db.
