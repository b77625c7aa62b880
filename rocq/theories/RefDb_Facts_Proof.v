(** What the file of Save holds for one class, and for the enumerations. *)
From Coq Require Import String Ascii Sorting.Sorted.
From Verif Require Import Base Dds_Model RefDb_Model RefDb_Proof RefDb_Slots_Proof RefDb_Layout_Proof.
Local Open Scope Z_scope.

Definition word (m : mem) (a v : Z) : Prop := holds m a (le_bytes 4 v).

Lemma pos_wr X bs : pos (X ++ [Wr bs]) = pos X + zlen bs. Proof. apply pos_snoc. Qed.
Lemma pos_sk X n : 0 <= n -> pos (X ++ [Sk n]) = pos X + n. Proof. intros. rewrite pos_snoc. cbn [obytes]. now rewrite zlen_zeros. Qed.
Lemma pos_add X k : pos (X ++ [AddP k]) = pos X. Proof. rewrite pos_snoc. cbn. lia. Qed.
Lemma pos_fix X k : pos (X ++ [FixD k]) = pos X. Proof. rewrite pos_snoc. cbn. lia. Qed.
Lemma pos_when X b k : pos (X ++ when b [AddP k]) = pos X.
Proof. destruct b; cbn [when]; [apply pos_add|now rewrite app_nil_r]. Qed.
Lemma pos_pad X : exists g, 0 <= g < 8 /\ pos (X ++ [Pad8]) = pos X + g.
Proof.
  rewrite pos_snoc. cbn [obytes]. pose proof (Z.mod_pos_bound (- pos X) 8 ltac:(lia)). exists ((- pos X) mod 8).
  rewrite zlen_zeros by lia. split; [lia|reflexivity].
Qed.
Lemma pos_mono X Y : pos X <= pos (X ++ Y). Proof. apply pos_le. Qed.
Lemma np_when k b k' : np k (when b [AddP k']) = b2z b * is_k k k'.
Proof. destruct b; cbn; unfold is_k, b2z; destruct (kind_eqb k k'); reflexivity. Qed.
Lemma nd_when k b k' : nd k (when b [AddP k']) = 0.
Proof. destruct b; reflexivity. Qed.
Lemma u32b_len v : zlen (u32b v) = 4. Proof. apply le_len. Qed.
Lemma not_snoc (X : list op) o : (forall k, o <> AddP k) -> forall k A0, X ++ [o] <> A0 ++ [AddP k].
Proof. intros H k A0 E. apply app_inj_tail in E as [_ E]. now apply (H k). Qed.

(** one gap per element *)
Lemma pos_slots {X} (f : X -> bool) k (l : list X) P :
  pos (P ++ flat_map (fun x => when (f x) [AddP k] ++ [Sk 4]) l) = pos P + 4 * zlen l.
Proof.
  revert P. induction l as [|x l IH]; intros P; cbn [flat_map].
  - rewrite app_nil_r. cbn. lia.
  - rewrite app_assoc, IH, app_assoc, pos_sk, pos_when by lia. unfold zlen. cbn [length]. lia.
Qed.
Lemma pos_slots1 {X} k (l : list X) P : pos (P ++ flat_map (fun _ => [AddP k; Sk 4]) l) = pos P + 4 * zlen l.
Proof. apply (pos_slots (fun _ => true) k l P). Qed.
Lemma pos_parts l : forall P, pos (P ++ flat_map part_ops l) = pos P + 8 * zlen l.
Proof.
  induction l as [|x l IH]; intros P; cbn [flat_map].
  - rewrite app_nil_r. cbn. lia.
  - rewrite app_assoc, IH. unfold part_ops. rewrite app_assoc. change [Sk 4; Wr (u32b (Z.of_nat (length x)))] with ([Sk 4] ++ [Wr (u32b (Z.of_nat (length x)))]).
    rewrite app_assoc, pos_wr, pos_sk, pos_when, u32b_len by lia. unfold zlen. cbn [length]. lia.
Qed.
Lemma pos_recs l : forall P, pos (P ++ flat_map rec_ops l) = pos P + 56 * zlen l.
Proof.
  induction l as [|c l IH]; intros P; cbn [flat_map].
  - rewrite app_nil_r. cbn. lia.
  - rewrite app_assoc, IH. assert (pos (P ++ rec_ops c) = pos P + 56) as ->; [|unfold zlen; cbn [length]; lia].
    unfold rec_ops.
    change [Wr (u32b (chash c)); Wr (u32b (nTypes c)); Wr (flat_map (le_bytes 4) PAD_CHECK); AddP KItems; Sk 4] with
      ([Wr (u32b (chash c))] ++ [Wr (u32b (nTypes c))] ++ [Wr (flat_map (le_bytes 4) PAD_CHECK)] ++ [AddP KItems] ++ [Sk 4]).
    rewrite !app_assoc. rewrite !pos_sk by lia. rewrite !pos_when. rewrite !pos_sk by lia. rewrite pos_when. rewrite pos_sk by lia. rewrite pos_when, pos_sk by lia. rewrite pos_when, pos_sk by lia. rewrite pos_when, pos_sk by lia.
    rewrite pos_add, !pos_wr, !u32b_len. cbn. lia.
Qed.
Lemma pos_wrs {X} (f : X -> list Z) n (l : list X) : (forall x, In x l -> zlen (f x) = n) ->
  forall P, pos (P ++ map (fun x => Wr (f x)) l) = pos P + n * zlen l.
Proof.
  intros Hn. induction l as [|x l IH]; intros P.
  - cbn. rewrite app_nil_r. lia.
  - cbn [map]. change (Wr (f x) :: map (fun x => Wr (f x)) l) with ([Wr (f x)] ++ map (fun x => Wr (f x)) l).
    rewrite app_assoc, IH, pos_wr, Hn; [unfold zlen; cbn [length]; lia|now left|intros; apply Hn; now right].
Qed.

(** descriptions, part by part *)
Definition parts (l : list (text * text)) : list text := flat_map (fun d => [fst d; snd d]) l.
Lemma parts_flat (f : text -> list op) l : flat_map (fun d : text * text => f (fst d) ++ f (snd d)) l = flat_map f (parts l).
Proof. induction l as [|x l IH]; cbn; [reflexivity|]. rewrite IH, <- app_assoc. reflexivity. Qed.
Lemma parts_length l : zlen (parts l) = 2 * zlen l.
Proof. induction l as [|x l IH]; [reflexivity|]. unfold zlen in *. cbn [parts flat_map app length] in *. unfold parts in IH. lia. Qed.
Lemma parts_full l : sum (map (fun d : text * text => full (fst d) + full (snd d)) l) = sum (map full (parts l)).
Proof. induction l as [|x l IH]; [reflexivity|]. unfold parts in *. cbn [flat_map app map sum fold_right] in *. unfold sum in *. cbn [fold_right] in *. lia. Qed.

Section Facts.
Variable d : db.
Notation ops := (all_ops d).
Notation F := (fin (all_ops d)).

(** what the file says, given a split of the calls *)
Lemma field_fact A b k B dest : ops = A ++ when b [AddP k] ++ Sk 4 :: B ->
  (forall k' A0, A <> A0 ++ [AddP k']) -> k <> KHashes ->
  (b = true -> exists C D', ops = C ++ FixD k :: D' /\ np k A = nd k C /\ pos C = dest) ->
  (b = false -> dest = 0) -> word F (pos A) dest.
Proof.
  intros E Hl Hk H1 H0. unfold word. destruct b.
  - destruct (H1 eq_refl) as (C & D' & EC & En & <-). cbn [when app] in E. eapply fin_slot; eauto using all_slots.
  - rewrite (H0 eq_refl). cbn [when app] in E. change (le_bytes 4 0) with (zeros 4). eapply fin_gap; eauto using all_slots.
Qed.
Lemma write_fact A bs B : ops = A ++ Wr bs :: B -> holds F (pos A) bs.
Proof. apply fin_write, all_slots. Qed.

Definition preT := R d.
Definition preH := preT ++ T d.
Definition preN := preH ++ H d.
Definition preA := preN ++ N d.
Definition preD := preA ++ A d.
Definition preS := preD ++ D d.
Definition preP := preS ++ S_ d.
Definition preE := preP ++ [Pad8].
Definition preX := preE ++ E1 d.
Lemma ops_X : ops = preX ++ E2 d. Proof. apply ops_eq. Qed.

(** boundaries of the areas of the classes *)
Definition bN (i : nat) : Z := pos (preN ++ flat_map names_ops (firstn i (classes d))).
Definition bA (i : nat) : Z := pos (preA ++ flat_map aliases_ops (firstn i (classes d))).
Definition bD (i : nat) : Z := pos (preD ++ flat_map descs_ops (firstn i (classes d))).
Notation n := (length (classes d)).
Lemma firstn_next {X} (l : list X) i x : nth_error l i = Some x -> firstn (S i) l = firstn i l ++ [x].
Proof. revert l. induction i as [|i IH]; intros [|y l] E; try discriminate; cbn in *; [congruence|]. f_equal. auto. Qed.
Lemma split_nth {X} (l : list X) i x : nth_error l i = Some x -> l = firstn i l ++ x :: skipn (S i) l.
Proof. revert l. induction i as [|i IH]; intros [|y l] E; try discriminate; cbn in *; [congruence|]. f_equal. auto. Qed.
Lemma b_ends : pos preT = 56 * zlen (classes d) /\ bN 0 = pos preN /\ bN n = pos preA /\ bA 0 = pos preA /\ bA n = pos preD /\ bD 0 = pos preD /\ bD n = pos preS.
Proof.
  unfold bN, bA, bD. rewrite !firstn_all. cbn [firstn flat_map]. rewrite !app_nil_r. repeat split; try reflexivity.
  unfold preT, R. rewrite <- (app_nil_l (flat_map rec_ops (classes d))). rewrite pos_recs. reflexivity.
Qed.
Lemma b_order : pos preT <= pos preH /\ pos preH <= pos preN /\ pos preN <= pos preA /\ pos preA <= pos preD /\ pos preD <= pos preS /\ pos preS <= pos preP /\ pos preP <= pos preE /\ pos preE <= pos preX /\ pos preX <= pos ops.
Proof. rewrite ops_X. unfold preX, preE, preP, preS, preD, preA, preN, preH. repeat split; apply pos_mono. Qed.
Lemma firstn_incr {X} (l : list X) i j : (i <= j)%nat -> exists r, firstn j l = firstn i l ++ r.
Proof.
  revert l j. induction i as [|i IH]; intros l j Hij; [eexists; reflexivity|].
  destruct j as [|j]; [lia|]. destruct l as [|x l]; [exists []; reflexivity|]. destruct (IH l j ltac:(lia)) as (r & E). exists r. cbn. now rewrite E.
Qed.
Lemma b_mono i j : (i <= j)%nat -> bN i <= bN j /\ bA i <= bA j /\ bD i <= bD j.
Proof.
  intros Hij. destruct (firstn_incr (classes d) i j Hij) as (r & E). unfold bN, bA, bD. rewrite E, !flat_map_app, !app_assoc.
  repeat split; apply pos_mono.
Qed.

(** a class and its place in each phase *)
Section OneClass.
Variables (i : nat) (cl : cls).
Hypothesis Hi : nth_error (classes d) i = Some cl.
Notation l1 := (firstn i (classes d)).
Notation l2 := (skipn (S i) (classes d)).
Lemma cls_split : classes d = l1 ++ cl :: l2. Proof. now apply split_nth. Qed.
Lemma flat_split (f : cls -> list op) : flat_map f (classes d) = flat_map f l1 ++ f cl ++ flat_map f l2.
Proof. rewrite cls_split at 1. rewrite flat_map_app. reflexivity. Qed.
Lemma zlen_l1 : zlen l1 = Z.of_nat i.
Proof. unfold zlen. rewrite firstn_length_le; [reflexivity|]. assert (i < n)%nat by (apply nth_error_Some; congruence). lia. Qed.

Lemma at_R : exists B, ops = flat_map rec_ops l1 ++ rec_ops cl ++ B.
Proof. rewrite ops_eq. unfold R. rewrite (flat_split rec_ops). eexists. rewrite <- !app_assoc. reflexivity. Qed.
Lemma at_T : exists B, ops = (preT ++ flat_map types_ops l1) ++ types_ops cl ++ B.
Proof. rewrite ops_eq. unfold preT, T. rewrite (flat_split types_ops). eexists. rewrite <- !app_assoc. reflexivity. Qed.
Lemma at_N : exists B, ops = (preN ++ flat_map names_ops l1) ++ names_ops cl ++ B.
Proof. rewrite ops_eq. unfold preN, preH, preT, N. rewrite (flat_split names_ops). eexists. rewrite <- !app_assoc. reflexivity. Qed.
Lemma at_A : exists B, ops = (preA ++ flat_map aliases_ops l1) ++ aliases_ops cl ++ B.
Proof. rewrite ops_eq. unfold preA, preN, preH, preT, A. rewrite (flat_split aliases_ops). eexists. rewrite <- !app_assoc. reflexivity. Qed.
Lemma at_D : exists B, ops = (preD ++ flat_map descs_ops l1) ++ descs_ops cl ++ B.
Proof. rewrite ops_eq. unfold preD, preA, preN, preH, preT, D. rewrite (flat_split descs_ops). eexists. rewrite <- !app_assoc. reflexivity. Qed.
Lemma at_S : exists B, ops = (preS ++ flat_map strings_ops l1) ++ strings_ops cl ++ B.
Proof. rewrite ops_eq. unfold preS, preD, preA, preN, preH, preT, S_. rewrite (flat_split strings_ops). eexists. rewrite <- !app_assoc. reflexivity. Qed.
Lemma S_end : pos ((preS ++ flat_map strings_ops l1) ++ strings_ops cl) <= pos preE.
Proof.
  unfold preE, preP, S_. rewrite (flat_split strings_ops). rewrite !app_assoc. rewrite <- (app_assoc _ (flat_map strings_ops l2)). apply pos_mono.
Qed.

Lemma bN_next : bN (S i) = pos ((preN ++ flat_map names_ops l1) ++ names_ops cl).
Proof. unfold bN. rewrite (firstn_next _ _ _ Hi), flat_map_app. cbn [flat_map]. rewrite app_nil_r, app_assoc. reflexivity. Qed.
Lemma bA_next : bA (S i) = pos ((preA ++ flat_map aliases_ops l1) ++ aliases_ops cl).
Proof. unfold bA. rewrite (firstn_next _ _ _ Hi), flat_map_app. cbn [flat_map]. rewrite app_nil_r, app_assoc. reflexivity. Qed.
Lemma bD_next : bD (S i) = pos ((preD ++ flat_map descs_ops l1) ++ descs_ops cl).
Proof. unfold bD. rewrite (firstn_next _ _ _ Hi), flat_map_app. cbn [flat_map]. rewrite app_nil_r, app_assoc. reflexivity. Qed.

Definition tpos : Z := pos (preT ++ flat_map types_ops l1).
Definition npos : Z := pos ((preN ++ flat_map names_ops l1) ++ [Pad8]).
Definition apos : Z := pos ((preA ++ flat_map aliases_ops l1) ++ [Pad8]).
Definition dpos : Z := pos (preD ++ flat_map descs_ops l1).
Definition nametexts (l : list text) : list op := flat_map (fun n => [FixD KStrings; Wr (n ++ [0])]) l.
Definition aliastexts (l : list (option text)) : list op := flat_map (fun a => match a with None => [] | Some t => [FixD KAliases; Wr (t ++ [0])] end) l.
Definition opt {X} (f : list X -> list op) (o : option (list X)) : list op := match o with Some l => f l | None => [] end.
Definition sN := preS ++ flat_map strings_ops l1.
Definition sA := sN ++ opt nametexts (names cl).
Definition sD := sA ++ opt aliastexts (aliases cl).
Definition sC := sD ++ opt (fun l => flat_map part_text (parts l)) (descs cl).
Definition cpos : Z := pos sC.
Definition ifs {X} (o : option X) (v : Z) : Z := if some o then v else 0.

Lemma S_split : exists B, ops = sC ++ match cname cl with None => [] | Some t => [FixD KClassNames; Wr (t ++ [0])] end ++ B /\
  pos (sC ++ match cname cl with None => [] | Some t => [FixD KClassNames; Wr (t ++ [0])] end) <= pos preE.
Proof.
  destruct at_S as (B & E). exists B. pose proof S_end as SE. unfold strings_ops in E, SE at 2. unfold sC, sD, sA, sN, opt, nametexts, aliastexts.
  destruct (descs cl) as [l|]; [rewrite parts_flat in E, SE|]; rewrite <- !app_assoc in *; split; assumption.
Qed.

Lemma record_facts : forall q, q = 56 * Z.of_nat i ->
  word F q (u32 (chash cl)) /\ word F (q + 4) (u32 (nTypes cl)) /\ word F (q + 32) tpos /\
  word F (q + 36) (ifs (names cl) npos) /\ word F (q + 40) (ifs (cname cl) cpos) /\ word F (q + 44) (ifs (aliases cl) apos) /\
  word F (q + 48) 0 /\ word F (q + 52) (ifs (descs cl) dpos).
Proof.
  intros q Hq. destruct at_R as (B & E). unfold rec_ops in E.
  set (Q := flat_map rec_ops l1) in *.
  assert (PQ : pos Q = q). { unfold Q. rewrite <- (app_nil_l (flat_map rec_ops l1)). rewrite pos_recs, zlen_l1. change (pos []) with 0. lia. }
  set (h := Wr (u32b (chash cl))) in *. set (nt := Wr (u32b (nTypes cl))) in *. set (pd := Wr (flat_map (le_bytes 4) PAD_CHECK)) in *.
  set (A3 := (((Q ++ [h]) ++ [nt]) ++ [pd])).
  assert (P1 : pos (Q ++ [h]) = q + 4) by (unfold h; rewrite pos_wr, u32b_len; lia).
  assert (P2 : pos ((Q ++ [h]) ++ [nt]) = q + 8) by (unfold nt; rewrite pos_wr, u32b_len; lia).
  assert (P3 : pos A3 = q + 32) by (unfold A3, pd; rewrite pos_wr, P2; change (zlen (flat_map (le_bytes 4) PAD_CHECK)) with 24; lia).
  set (A4 := (A3 ++ when true [AddP KItems]) ++ [Sk 4]).
  assert (P4 : pos A4 = q + 36) by (unfold A4; rewrite pos_sk, pos_when by lia; lia).
  set (A5 := (A4 ++ when (some (names cl)) [AddP KStrings]) ++ [Sk 4]).
  assert (P5 : pos A5 = q + 40) by (unfold A5; rewrite pos_sk, pos_when by lia; lia).
  set (A6 := (A5 ++ when (some (cname cl)) [AddP KClassNames]) ++ [Sk 4]).
  assert (P6 : pos A6 = q + 44) by (unfold A6; rewrite pos_sk, pos_when by lia; lia).
  set (A7 := (A6 ++ when (some (aliases cl)) [AddP KAliases]) ++ [Sk 4]).
  assert (P7 : pos A7 = q + 48) by (unfold A7; rewrite pos_sk, pos_when by lia; lia).
  set (A8 := (A7 ++ when (some (ahashes cl)) [AddP KHashes]) ++ [Sk 4]).
  assert (P8 : pos A8 = q + 52) by (unfold A8; rewrite pos_sk, pos_when by lia; lia).
  assert (NQ : forall k, np k A3 = np k Q) by (intros k; unfold A3, h, nt, pd; rewrite !np_app; cbn [np]; lia).
  assert (EE : ops = Q ++ [h; nt; pd; AddP KItems; Sk 4] ++ when (some (names cl)) [AddP KStrings] ++ [Sk 4] ++
     when (some (cname cl)) [AddP KClassNames] ++ [Sk 4] ++ when (some (aliases cl)) [AddP KAliases] ++ [Sk 4] ++
     when (some (ahashes cl)) [AddP KHashes] ++ [Sk 4] ++ when (some (descs cl)) [AddP KDescs] ++ [Sk 4] ++ B).
  { rewrite E. rewrite <- !app_assoc. reflexivity. }
  clear E. repeat split.
  - rewrite <- PQ. apply (write_fact Q (u32b (chash cl)) _ EE).
  - rewrite <- P1. eapply (write_fact (Q ++ [h]) (u32b (nTypes cl))). rewrite EE, <- app_assoc. reflexivity.
  - rewrite <- P3. eapply (field_fact A3 true KItems).
    + rewrite EE. unfold A3. rewrite <- !app_assoc. reflexivity.
    + unfold A3. apply not_snoc. discriminate.
    + discriminate.
    + intros _. destruct at_T as (B' & ET). eexists (preT ++ flat_map types_ops l1), _. split; [rewrite ET; unfold types_ops at 2; reflexivity|].
      split; [|reflexivity]. rewrite NQ. unfold Q, preT, R. counts. lia.
    + discriminate.
  - rewrite <- P4. eapply (field_fact A4 (some (names cl)) KStrings).
    + rewrite EE. unfold A4, A3. rewrite <- !app_assoc. reflexivity.
    + unfold A4. apply not_snoc. discriminate.
    + discriminate.
    + intros Hs. destruct at_N as (B' & ET). unfold names_ops at 2 in ET. unfold ifs. rewrite Hs. destruct (names cl) as [l|] eqn:En; [|discriminate].
      eexists ((preN ++ flat_map names_ops l1) ++ [Pad8]), _. split; [rewrite ET; rewrite <- !app_assoc; reflexivity|].
      split; [|reflexivity]. unfold A4. rewrite !np_app, NQ, np_when. unfold Q, preN, preH, preT, R, T, H. counts. cbn [np nd]. unfold is_k. cbn [kind_eqb b2z]. lia.
    + unfold ifs. intros ->. reflexivity.
  - rewrite <- P5. eapply (field_fact A5 (some (cname cl)) KClassNames).
    + rewrite EE. unfold A5, A4, A3. rewrite <- !app_assoc. reflexivity.
    + unfold A5. apply not_snoc. discriminate.
    + discriminate.
    + intros Hs. destruct S_split as (B' & ET & _). unfold ifs. rewrite Hs. destruct (cname cl) as [l|] eqn:En; [|discriminate].
      eexists sC, _. split; [rewrite ET; reflexivity|]. split; [|reflexivity].
      unfold A5, A4. rewrite !np_app, NQ, !np_when. unfold Q, sC, sD, sA, sN, preS, preD, preA, preN, preH, preT, R, T, H, N, A, D. counts.
      assert (nd KClassNames (opt nametexts (names cl)) = 0) as ->. { destruct (names cl); [|reflexivity]. cbn [opt]. unfold nametexts. rewrite nd_name_texts. unfold is_k. cbn. lia. }
      assert (nd KClassNames (opt aliastexts (aliases cl)) = 0) as ->. { destruct (aliases cl); [|reflexivity]. cbn [opt]. unfold aliastexts. rewrite nd_alias_texts. unfold is_k. cbn. lia. }
      assert (nd KClassNames (opt (fun l => flat_map part_text (parts l)) (descs cl)) = 0) as ->. { destruct (descs cl); [|reflexivity]. cbn [opt]. rewrite <- parts_flat, nd_desc_texts. unfold is_k. cbn. lia. }
      cbn [np nd]. unfold is_k. cbn [kind_eqb b2z]. lia.
    + unfold ifs. intros ->. reflexivity.
  - rewrite <- P6. eapply (field_fact A6 (some (aliases cl)) KAliases).
    + rewrite EE. unfold A6, A5, A4, A3. rewrite <- !app_assoc. reflexivity.
    + unfold A6. apply not_snoc. discriminate.
    + discriminate.
    + intros Hs. destruct at_A as (B' & ET). unfold aliases_ops at 2 in ET. unfold ifs. rewrite Hs. destruct (aliases cl) as [l|] eqn:En; [|discriminate].
      eexists ((preA ++ flat_map aliases_ops l1) ++ [Pad8]), _. split; [rewrite ET; rewrite <- !app_assoc; reflexivity|].
      split; [|reflexivity]. unfold A6, A5, A4. rewrite !np_app, NQ, !np_when. unfold Q, preA, preN, preH, preT, R, T, H, N. counts. cbn [np nd]. unfold is_k. cbn [kind_eqb b2z]. lia.
    + unfold ifs. intros ->. reflexivity.
  - rewrite <- P7. change (le_bytes 4 0) with (zeros 4). unfold word. change (le_bytes 4 0) with (zeros 4). destruct (some (ahashes cl)) eqn:Ha.
    + eapply fin_hash_gap; [apply all_slots|]. rewrite EE. unfold A7, A6, A5, A4, A3. cbn [when]. rewrite <- !app_assoc. reflexivity.
    + eapply fin_gap; [apply all_slots| |].
      * rewrite EE. unfold A7, A6, A5, A4, A3. cbn [when]. rewrite <- !app_assoc. reflexivity.
      * unfold A7. apply not_snoc. discriminate.
  - rewrite <- P8. eapply (field_fact A8 (some (descs cl)) KDescs).
    + rewrite EE. unfold A8, A7, A6, A5, A4, A3. rewrite <- !app_assoc. reflexivity.
    + unfold A8. apply not_snoc. discriminate.
    + discriminate.
    + intros Hs. destruct at_D as (B' & ET). unfold descs_ops at 2 in ET. unfold ifs. rewrite Hs. destruct (descs cl) as [l|] eqn:En; [|discriminate].
      eexists (preD ++ flat_map descs_ops l1), _. split; [rewrite ET; rewrite <- !app_assoc; reflexivity|].
      split; [|reflexivity]. unfold A8, A7, A6, A5, A4. rewrite !np_app, NQ, !np_when. unfold Q, preD, preA, preN, preH, preT, R, T, H, N, A. counts. cbn [np nd]. unfold is_k. cbn [kind_eqb b2z]. lia.
    + unfold ifs. intros ->. reflexivity.
Qed.
End OneClass.
End Facts.
