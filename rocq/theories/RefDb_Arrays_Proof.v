(** The arrays and texts of a class in the file of Save, and the enumerations. *)
From Coq Require Import String Ascii Sorting.Sorted.
From Verif Require Import Base Dds_Model RefDb_Model RefDb_Proof RefDb_Slots_Proof RefDb_Layout_Proof RefDb_Facts_Proof.
Local Open Scope Z_scope.

Section Arrays.
Variable d : db.
Notation ops := (all_ops d).
Notation F := (fin (all_ops d)).

Lemma writes_fact {X} (f : X -> list Z) l : forall P B, ops = P ++ map (fun x => Wr (f x)) l ++ B -> holds F (pos P) (flat_map f l).
Proof.
  induction l as [|x l IH]; intros P B E.
  - intros k Hk. cbn in Hk. lia.
  - cbn [flat_map]. apply holds_app. cbn [map app] in E. split.
    + eapply write_fact. exact E.
    + rewrite <- pos_wr. apply (IH _ B). rewrite E, <- app_assoc. reflexivity.
Qed.

(** a text behind the destination mark *)
Definition text_at (lo hi a : Z) (t : text) : Prop := lo <= a /\ a + zlen t + 1 <= hi /\ holds F a (t ++ [0]).
Lemma text_fact lo hi C k t B : ops = C ++ FixD k :: Wr (t ++ [0]) :: B -> lo <= pos C -> pos (C ++ [FixD k; Wr (t ++ [0])]) <= hi -> text_at lo hi (pos C) t.
Proof.
  intros E L1 L2. assert (Ew : ops = (C ++ [FixD k]) ++ Wr (t ++ [0]) :: B) by (rewrite E, <- app_assoc; reflexivity).
  split; [exact L1|]. split.
  - change [FixD k; Wr (t ++ [0])] with ([FixD k] ++ [Wr (t ++ [0])]) in L2. rewrite app_assoc, pos_wr, pos_fix in L2.
    unfold zlen in *. rewrite zlen_app in L2. cbn [length] in L2. lia.
  - rewrite <- (pos_fix C k). eapply write_fact. exact Ew.
Qed.

Section OneClass.
Variables (i : nat) (cl : cls).
Hypothesis Hi : nth_error (classes d) i = Some cl.
Notation l1 := (firstn i (classes d)).

Lemma types_fact : Forall (fun t => length t = 16%nat) (types cl) ->
  pos (preT d) <= tpos d i /\ tpos d i + 16 * nTypes cl <= pos (preH d) /\ holds F (tpos d i) (concat (types cl)).
Proof.
  intros H16. destruct (at_T d i cl Hi) as (B & E). unfold types_ops at 2 in E. unfold tpos.
  assert (EW : ops = ((preT d ++ flat_map types_ops l1) ++ [FixD KItems]) ++ map (fun x => Wr x) (types cl) ++ B) by (rewrite E, <- !app_assoc; reflexivity).
  split; [apply pos_mono|]. split.
  - assert (EH : preH d = (((preT d ++ flat_map types_ops l1) ++ [FixD KItems]) ++ map (fun x => Wr x) (types cl)) ++ flat_map types_ops (skipn (S i) (classes d))).
    { unfold preH, T. rewrite (flat_split d i cl Hi types_ops). unfold types_ops at 2. rewrite <- !app_assoc. reflexivity. }
    rewrite EH. pose proof (pos_mono (((preT d ++ flat_map types_ops l1) ++ [FixD KItems]) ++ map (fun x => Wr x) (types cl)) (flat_map types_ops (skipn (S i) (classes d)))) as L.
    rewrite (pos_wrs (fun x => x) 16) in L.
    + rewrite pos_fix in L. unfold nTypes. unfold zlen in L. lia.
    + intros x Hx. rewrite Forall_forall in H16. unfold zlen. rewrite (H16 x Hx). reflexivity.
  - rewrite <- (pos_fix _ KItems). pose proof (writes_fact (fun x => x) (types cl) _ _ EW) as HW. rewrite (flat_map_concat_map (fun x : list Z => x) (types cl)), map_id in HW. exact HW.
Qed.

Lemma S_first : pos (preS d) <= pos (sN d i). Proof. unfold sN. apply pos_mono. Qed.
Lemma sN_sA : pos (sN d i) <= pos (sA d i cl). Proof. apply pos_mono. Qed.
Lemma sA_sD : pos (sA d i cl) <= pos (sD d i cl). Proof. apply pos_mono. Qed.
Lemma sD_sC : pos (sD d i cl) <= pos (sC d i cl). Proof. apply pos_mono. Qed.
Lemma sC_end : pos (sC d i cl) <= pos (preE d).
Proof. destruct (S_split d i cl Hi) as (B & _ & L). pose proof (pos_mono (sC d i cl) match cname cl with None => [] | Some t => [FixD KClassNames; Wr (t ++ [0])] end). lia. Qed.

Lemma cname_fact t : cname cl = Some t -> text_at (pos (preS d)) (pos (preE d)) (cpos d i cl) t.
Proof.
  intros Ec. destruct (S_split d i cl Hi) as (B & E & L). rewrite Ec in E, L. eapply text_fact; [exact E| |exact L].
  pose proof S_first. pose proof sN_sA. pose proof sA_sD. pose proof sD_sC. lia.
Qed.

Lemma nth_split {X} (l : list X) r x : nth_error l r = Some x -> exists a b, l = a ++ x :: b /\ zlen a = Z.of_nat r.
Proof. intros H. apply nth_error_split in H as (a & b & -> & <-). exists a, b. auto. Qed.

Definition noadd (X : list op) : Prop := forall k A0, X <> A0 ++ [AddP k].
Lemma noadd_snoc X o : (forall k, o <> AddP k) -> noadd (X ++ [o]).
Proof. intros Ho k A0. now apply not_snoc. Qed.
Lemma noadd_slots {X} (f : X -> bool) k (l : list X) : forall P, noadd P -> noadd (P ++ flat_map (fun x => when (f x) [AddP k] ++ [Sk 4]) l).
Proof.
  induction l as [|x l IH]; intros P HP; cbn [flat_map]; [now rewrite app_nil_r|].
  rewrite !app_assoc. apply IH. apply noadd_snoc. discriminate.
Qed.
Lemma noadd_slots1 {X} k (l : list X) P : noadd P -> noadd (P ++ flat_map (fun _ => [AddP k; Sk 4]) l).
Proof. apply (noadd_slots (fun _ => true)). Qed.
Lemma noadd_parts l : forall P, noadd P -> noadd (P ++ flat_map part_ops l).
Proof.
  induction l as [|x l IH]; intros P HP; cbn [flat_map]; [now rewrite app_nil_r|].
  rewrite app_assoc. apply IH. unfold part_ops. rewrite app_assoc.
  change [Sk 4; Wr (u32b (Z.of_nat (length x)))] with ([Sk 4] ++ [Wr (u32b (Z.of_nat (length x)))]). rewrite app_assoc. apply noadd_snoc. discriminate.
Qed.

Lemma names_fact l : names cl = Some l -> length l = length (types cl) ->
  bN d i <= npos d i /\ npos d i + 8 * nTypes cl <= bN d (S i) /\
  (forall r t, nth_error l r = Some t -> exists a, word F (npos d i + 4 * nTypes cl + 4 * Z.of_nat r) a /\ text_at (pos (preS d)) (pos (preE d)) a t).
Proof.
  intros El Hl. destruct (at_N d i cl Hi) as (B & E). unfold names_ops at 2 in E. rewrite El in E.
  assert (Hn : nTypes cl = zlen l) by (unfold nTypes, zlen; now rewrite Hl).
  set (P := preN d ++ flat_map names_ops l1) in *.
  set (Q := (((P ++ [Pad8]) ++ [FixD KStrings]) ++ [Sk (4 * nTypes cl)])).
  assert (EN : pos Q = npos d i + 4 * nTypes cl).
  { unfold Q. rewrite pos_sk, pos_fix by (unfold nTypes; lia). reflexivity. }
  split; [unfold bN, npos; apply pos_mono|]. split.
  - rewrite (bN_next d i cl Hi). unfold names_ops at 2. rewrite El. fold P.
    replace (P ++ [Pad8; FixD KStrings; Sk (4 * nTypes cl)] ++ flat_map (fun _ => [AddP KStrings; Sk 4]) l)
      with (Q ++ flat_map (fun _ => [AddP KStrings; Sk 4]) l) by (unfold Q; rewrite <- !app_assoc; reflexivity).
    rewrite pos_slots1, EN. unfold text in *. lia.
  - intros r t Hr. destruct (nth_split l r t Hr) as (a & b & Eab & Za).
    set (X := Q ++ flat_map (fun _ => [AddP KStrings; Sk 4]) a).
    assert (PX : pos X = npos d i + 4 * nTypes cl + 4 * Z.of_nat r) by (unfold X; rewrite pos_slots1, EN; unfold text in *; lia).
    set (C := sN d i ++ nametexts a).
    destruct (at_S d i cl Hi) as (B' & ES). pose proof (S_end d i cl Hi) as SE.
    unfold strings_ops at 2 in ES. unfold strings_ops at 2 in SE.
    rewrite El, Eab, flat_map_app in ES, SE. cbn [flat_map] in ES, SE. fold (sN d i) in ES, SE.
    assert (EC : exists B', ops = C ++ FixD KStrings :: Wr (t ++ [0]) :: B').
    { unfold C, nametexts. eexists. rewrite ES, <- !app_assoc. reflexivity. }
    destruct EC as (B2 & EC).
    assert (LC : pos (C ++ [FixD KStrings; Wr (t ++ [0])]) <= pos (preE d)).
    { eapply Z.le_trans; [|exact SE]. unfold C, nametexts. rewrite <- !app_assoc. 
      match goal with |- pos ?x <= pos (?p ++ ?y1 ++ ?y2 ++ ?y3) => replace (p ++ y1 ++ y2 ++ y3) with (x ++ y3) by (rewrite <- !app_assoc; reflexivity) end. apply pos_mono. }
    exists (pos C). split.
    + rewrite <- PX. eapply (field_fact d X true KStrings).
      * rewrite E, Eab, flat_map_app. unfold X, Q. rewrite <- !app_assoc. reflexivity.
      * apply noadd_slots1. apply noadd_snoc. discriminate.
      * discriminate.
      * intros _. exists C, (Wr (t ++ [0]) :: B2). split; [exact EC|]. split; [|reflexivity].
        unfold X, Q, P, C, sN, nametexts. rewrite !np_app, !nd_app, nd_name_texts.
        rewrite (np_flat KStrings (fun _ : text => [AddP KStrings; Sk 4]) a). cbn [np kind_eqb]. rewrite sum_one.
        unfold preN, preS, preD, preA, preN, preH, preT, R, T, H, N, A, D. counts. unfold is_k. cbn [kind_eqb b2z np nd]. unfold text in *. lia.
      * discriminate.
    + eapply text_fact; [exact EC| |exact LC]. unfold C. pose proof S_first. pose proof (pos_mono (sN d i) (nametexts a)). lia.
Qed.

Lemma aliases_fact l : aliases cl = Some l -> length l = length (types cl) ->
  bA d i <= apos d i /\ apos d i + 8 * nTypes cl <= bA d (S i) /\
  (forall r o, nth_error l r = Some o -> exists a, word F (apos d i + 4 * nTypes cl + 4 * Z.of_nat r) a /\
     match o with None => a = 0 | Some t => text_at (pos (preS d)) (pos (preE d)) a t end).
Proof.
  intros El Hl. destruct (at_A d i cl Hi) as (B & E). unfold aliases_ops at 2 in E. rewrite El in E.
  assert (Hn : nTypes cl = zlen l) by (unfold nTypes, zlen; now rewrite Hl).
  set (P := preA d ++ flat_map aliases_ops l1) in *.
  set (Q := (((P ++ [Pad8]) ++ [FixD KAliases]) ++ [Sk (4 * nTypes cl)])).
  assert (EN : pos Q = apos d i + 4 * nTypes cl).
  { unfold Q. rewrite pos_sk, pos_fix by (unfold nTypes; lia). reflexivity. }
  split; [unfold bA, apos; apply pos_mono|]. split.
  - rewrite (bA_next d i cl Hi). unfold aliases_ops at 2. rewrite El. fold P.
    replace (P ++ [Pad8; FixD KAliases; Sk (4 * nTypes cl)] ++ flat_map (fun a : option text => when (some a) [AddP KAliases] ++ [Sk 4]) l)
      with (Q ++ flat_map (fun a : option text => when (some a) [AddP KAliases] ++ [Sk 4]) l) by (unfold Q; rewrite <- !app_assoc; reflexivity).
    rewrite pos_slots, EN. unfold text in *. lia.
  - intros r o Hr. destruct (nth_split l r o Hr) as (a & b & Eab & Za).
    set (X := Q ++ flat_map (fun a : option text => when (some a) [AddP KAliases] ++ [Sk 4]) a).
    assert (PX : pos X = apos d i + 4 * nTypes cl + 4 * Z.of_nat r) by (unfold X; rewrite pos_slots, EN; unfold text in *; lia).
    assert (EX : exists B1, ops = X ++ when (some o) [AddP KAliases] ++ Sk 4 :: B1).
    { eexists. rewrite E, Eab, flat_map_app. unfold X, Q. rewrite <- !app_assoc. cbn [flat_map]. rewrite <- !app_assoc. reflexivity. }
    destruct EX as (B1 & EX).
    assert (NX : noadd X) by (apply noadd_slots; apply noadd_snoc; discriminate).
    destruct o as [t|].
    2:{ exists 0. split; [|reflexivity]. rewrite <- PX. eapply (field_fact d X false KAliases); [exact EX|exact NX|discriminate|discriminate|reflexivity]. }
    set (C := sA d i cl ++ aliastexts a).
    destruct (S_split d i cl Hi) as (B' & ES & _). pose proof sC_end as SE. unfold sC, sD in ES, SE.
    rewrite El in ES, SE. cbn [opt] in ES, SE. unfold aliastexts at 1 in ES. unfold aliastexts at 1 in SE.
    rewrite Eab, flat_map_app in ES, SE. cbn [flat_map] in ES, SE.
    assert (EC : exists B', ops = C ++ FixD KAliases :: Wr (t ++ [0]) :: B').
    { unfold C, aliastexts. eexists. rewrite ES, <- !app_assoc. reflexivity. }
    destruct EC as (B2 & EC).
    assert (LC : pos (C ++ [FixD KAliases; Wr (t ++ [0])]) <= pos (preE d)).
    { eapply Z.le_trans; [|exact SE]. unfold C, aliastexts.
      match goal with |- pos ?x <= pos ?y => assert (exists z, y = x ++ z) as (z & ->) end.
      { eexists. rewrite <- !app_assoc. reflexivity. }
      apply pos_mono. }
    exists (pos C). split.
    + rewrite <- PX. eapply (field_fact d X true KAliases); [exact EX|exact NX|discriminate| |discriminate].
      intros _. exists C, (Wr (t ++ [0]) :: B2). split; [exact EC|]. split; [|reflexivity].
      unfold X, Q, P, C, sA, sN, aliastexts. rewrite !np_app, !nd_app, nd_alias_texts.
      assert (nd KAliases (opt nametexts (names cl)) = 0) as ->. { destruct (names cl); [|reflexivity]. cbn [opt]. unfold nametexts. rewrite nd_name_texts. unfold is_k. cbn. lia. }
      rewrite (np_flat KAliases (fun a : option text => when (some a) [AddP KAliases] ++ [Sk 4]) a).
      rewrite (sum_ext (fun x : option text => np KAliases (when (some x) [AddP KAliases] ++ [Sk 4])) (fun a => b2z (some a))) by (intros []; reflexivity).
      unfold preA, preS, preD, preA, preN, preH, preT, R, T, H, N, A, D. counts. unfold is_k. cbn [kind_eqb b2z np nd]. unfold text in *. lia.
    + eapply text_fact; [exact EC| |exact LC]. unfold C. pose proof S_first. pose proof sN_sA. pose proof (pos_mono (sA d i cl) (aliastexts a)). lia.
Qed.

Lemma descs_fact l : descs cl = Some l -> length l = length (types cl) ->
  bD d i <= dpos d i /\ dpos d i + 32 * nTypes cl <= bD d (S i) /\
  (forall r t, nth_error (parts l) r = Some t -> exists a,
     word F (dpos d i + 16 * nTypes cl + 8 * Z.of_nat r) a /\ word F (dpos d i + 16 * nTypes cl + 8 * Z.of_nat r + 4) (u32 (zlen t)) /\
     (if (0 <? length t)%nat then pos (preS d) <= a /\ a + zlen t <= pos (preE d) /\ holds F a t else a = 0)).
Proof.
  intros El Hl. destruct (at_D d i cl Hi) as (B & E). unfold descs_ops at 2 in E. rewrite El, parts_flat in E.
  assert (Hn : 2 * nTypes cl = zlen (parts l)) by (rewrite parts_length; unfold nTypes, zlen; now rewrite Hl).
  set (P := preD d ++ flat_map descs_ops l1) in *.
  set (Q := ((P ++ [FixD KDescs]) ++ [Sk (8 * nTypes cl * 2)])).
  assert (EN : pos Q = dpos d i + 16 * nTypes cl).
  { unfold Q. rewrite pos_sk, pos_fix by (unfold nTypes; lia). unfold dpos. fold P. lia. }
  split; [unfold bD, dpos; lia|]. split.
  - rewrite (bD_next d i cl Hi). unfold descs_ops at 2. rewrite El, parts_flat. fold P.
    replace (P ++ [FixD KDescs; Sk (8 * nTypes cl * 2)] ++ flat_map part_ops (parts l))
      with (Q ++ flat_map part_ops (parts l)) by (unfold Q; rewrite <- !app_assoc; reflexivity).
    rewrite pos_parts, EN. unfold text in *. lia.
  - intros r t Hr. destruct (nth_split (parts l) r t Hr) as (a & b & Eab & Za).
    set (X := Q ++ flat_map part_ops a).
    assert (PX : pos X = dpos d i + 16 * nTypes cl + 8 * Z.of_nat r) by (unfold X; rewrite pos_parts, EN; unfold text in *; lia).
    assert (EX : exists B1, ops = X ++ when (0 <? length t)%nat [AddP KDescs] ++ Sk 4 :: Wr (u32b (zlen t)) :: B1).
    { eexists. rewrite E, Eab, flat_map_app. unfold X, Q. rewrite <- !app_assoc. cbn [flat_map]. unfold part_ops at 2. rewrite <- !app_assoc. reflexivity. }
    destruct EX as (B1 & EX).
    assert (NX : noadd X) by (apply noadd_parts; apply noadd_snoc; discriminate).
    assert (SZ : word F (dpos d i + 16 * nTypes cl + 8 * Z.of_nat r + 4) (u32 (zlen t))).
    { rewrite <- PX. replace (pos X + 4) with (pos ((X ++ when (0 <? length t)%nat [AddP KDescs]) ++ [Sk 4])) by (rewrite pos_sk, pos_when by lia; reflexivity).
      eapply (write_fact d _ (u32b (zlen t))). rewrite EX, <- !app_assoc. reflexivity. }
    destruct (0 <? length t)%nat eqn:Et.
    2:{ exists 0. split; [|split; [exact SZ|reflexivity]]. rewrite <- PX. eapply (field_fact d X false KDescs); [exact EX|exact NX|discriminate|discriminate|reflexivity]. }
    set (C := sD d i cl ++ flat_map part_text a).
    destruct (S_split d i cl Hi) as (B' & ES & _). pose proof sC_end as SE. unfold sC in ES, SE.
    rewrite El in ES, SE. cbn [opt] in ES, SE.
    rewrite Eab, flat_map_app in ES, SE. cbn [flat_map] in ES, SE. unfold part_text at 2 in ES. unfold part_text at 2 in SE. rewrite Et in ES, SE. cbn [when] in ES, SE.
    assert (EC : exists B', ops = C ++ FixD KDescs :: Wr t :: B').
    { unfold C. eexists. rewrite ES, <- !app_assoc. reflexivity. }
    destruct EC as (B2 & EC).
    assert (LC : pos (C ++ [FixD KDescs; Wr t]) <= pos (preE d)).
    { eapply Z.le_trans; [|exact SE]. unfold C.
      match goal with |- pos ?x <= pos ?y => assert (exists z, y = x ++ z) as (z & ->) end.
      { eexists. rewrite <- !app_assoc. reflexivity. }
      apply pos_mono. }
    assert (EW : ops = (C ++ [FixD KDescs]) ++ Wr t :: B2) by (rewrite EC, <- app_assoc; reflexivity).
    exists (pos C). split; [|split; [exact SZ|]].
    + rewrite <- PX. eapply (field_fact d X true KDescs); [exact EX|exact NX|discriminate| |discriminate].
      intros _. exists C, (Wr t :: B2). split; [exact EC|]. split; [|reflexivity].
      unfold X, Q, P, C, sD, sA, sN. rewrite !np_app, !nd_app.
      assert (nd KDescs (opt nametexts (names cl)) = 0) as ->. { destruct (names cl); [|reflexivity]. cbn [opt]. unfold nametexts. rewrite nd_name_texts. unfold is_k. cbn. lia. }
      assert (nd KDescs (opt aliastexts (aliases cl)) = 0) as ->. { destruct (aliases cl); [|reflexivity]. cbn [opt]. unfold aliastexts. rewrite nd_alias_texts. unfold is_k. cbn. lia. }
      rewrite (np_flat KDescs part_ops a), (nd_flat KDescs part_text a).
      rewrite (sum_ext (fun x => np KDescs (part_ops x)) full) by (intros x; rewrite np_part; unfold is_k; cbn; lia).
      rewrite (sum_ext (fun x => nd KDescs (part_text x)) full) by (intros x; rewrite nd_part_text; unfold is_k; cbn; lia).
      unfold preD, preS, preD, preA, preN, preH, preT, R, T, H, N, A, D. counts. cbn [np nd]. lia.
    + change [FixD KDescs; Wr t] with ([FixD KDescs] ++ [Wr t]) in LC. rewrite app_assoc, pos_wr, pos_fix in LC.
      split; [|split; [exact LC|]].
      * unfold C. pose proof S_first. pose proof sN_sA. pose proof sA_sD. pose proof (pos_mono (sD d i cl) (flat_map part_text a)). lia.
      * rewrite <- (pos_fix C KDescs). eapply write_fact. exact EW.
Qed.
End OneClass.

(* ---------- enumerations ---------- *)
Definition hpos (j : nat) : Z := pos (preE d ++ flat_map enum_head (firstn j (enums d))).
Definition table : Z := hpos (length (enums d)).
Definition strings (l : list enm) : list text := flat_map (fun e => enames e ++ [ename e]) l.
Lemma strings_length l : zlen (strings l) = etotal l.
Proof.
  induction l as [|e l IH]; [reflexivity|]. unfold strings, etotal, zlen in *. cbn [flat_map map sum fold_right]. rewrite !zlen_app. cbn [length].
  unfold sum in *. cbn [fold_right] in *. lia.
Qed.
Definition etexts (l : list text) : list op := flat_map (fun n => [FixD KStrings; Wr n; Sk 1]) l.
Lemma E2_flat : E2 d = etexts (strings (enums d)).
Proof.
  unfold E2, etexts. induction (enums d) as [|e l IH]; [reflexivity|]. cbn [flat_map]. rewrite IH. unfold strings. cbn [flat_map]. rewrite !flat_map_app.
  unfold enum_text. cbn [flat_map]. rewrite <- !app_assoc. reflexivity.
Qed.
Lemma enum_pos e P : length (evalues e) = length (enames e) -> pos (P ++ enum_head e) = pos P + 8 + 8 * zlen (enames e).
Proof.
  intros Hl. unfold enum_head. change [Wr (u32b (ehash e)); Wr (u32b (Z.of_nat (length (enames e))))] with ([Wr (u32b (ehash e))] ++ [Wr (u32b (Z.of_nat (length (enames e))))]).
  rewrite !app_assoc. rewrite (pos_wrs (fun v => le_bytes 8 (u64 v)) 8) by (intros; apply le_len). rewrite !pos_wr, !u32b_len. unfold zlen. rewrite Hl. lia.
Qed.
Lemma enum_fact j e : nth_error (enums d) j = Some e -> length (evalues e) = length (enames e) ->
  word F (hpos j) (u32 (ehash e)) /\ word F (hpos j + 4) (u32 (zlen (enames e))) /\
  holds F (hpos j + 8) (flat_map (fun v => le_bytes 8 (u64 v)) (evalues e)) /\ hpos (S j) = hpos j + 8 + 8 * zlen (enames e).
Proof.
  intros Hj Hl.
  assert (E : exists B, ops = (preE d ++ flat_map enum_head (firstn j (enums d))) ++ enum_head e ++ B).
  { assert (X : flat_map enum_head (enums d) = flat_map enum_head (firstn j (enums d)) ++ enum_head e ++ flat_map enum_head (skipn (S j) (enums d))).
    { rewrite (split_nth _ _ _ Hj) at 1. rewrite flat_map_app. reflexivity. }
    rewrite (ops_X d). unfold preX, E1. rewrite X.
    eexists. rewrite <- !app_assoc. reflexivity. }
  destruct E as (B & E). unfold enum_head at 2 in E. unfold hpos.
  set (P := preE d ++ flat_map enum_head (firstn j (enums d))) in *.
  set (h := Wr (u32b (ehash e))) in *. set (nn := Wr (u32b (Z.of_nat (length (enames e))))) in *.
  assert (P1 : pos (P ++ [h]) = pos P + 4) by (unfold h; rewrite pos_wr, u32b_len; lia).
  assert (P2 : pos ((P ++ [h]) ++ [nn]) = pos P + 8) by (unfold nn; rewrite pos_wr, u32b_len; lia).
  split; [|split; [|split]].
  - eapply (write_fact d P (u32b (ehash e))). rewrite E. rewrite <- !app_assoc. reflexivity.
  - rewrite <- P1. eapply (write_fact d (P ++ [h]) (u32b (zlen (enames e)))). rewrite E. rewrite <- !app_assoc. reflexivity.
  - rewrite <- P2. eapply (writes_fact (fun v => le_bytes 8 (u64 v))). rewrite E. rewrite <- !app_assoc. reflexivity.
  - rewrite (firstn_next _ _ _ Hj), flat_map_app. cbn [flat_map]. rewrite app_nil_r, app_assoc. fold P. apply enum_pos. exact Hl.
Qed.
Lemma hpos_0 : hpos 0 = pos (preE d).
Proof. unfold hpos. cbn [firstn flat_map]. now rewrite app_nil_r. Qed.
Lemma hpos_mono i j : (i <= j)%nat -> hpos i <= hpos j.
Proof. intros Hij. destruct (firstn_incr (enums d) i j Hij) as (r & E). unfold hpos. rewrite E, flat_map_app, app_assoc. apply pos_mono. Qed.
Lemma table_end : pos (preX d) = table + 8 * total_strings d.
Proof.
  pose proof (total_nonneg d). unfold preX, E1, table, hpos. rewrite firstn_all. rewrite !app_assoc, pos_slots1, pos_sk by lia. unfold zlen. rewrite seq_length. lia.
Qed.
Lemma strings_fact s t : nth_error (strings (enums d)) s = Some t ->
  exists a, word F (table + 4 * total_strings d + 4 * Z.of_nat s) a /\ text_at (pos (preX d)) (pos ops) a t.
Proof.
  intros Hs. destruct (nth_split _ _ _ Hs) as (a & b & Eab & Za).
  pose proof (ops_X d) as EX. rewrite E2_flat, Eab in EX. unfold etexts in EX. rewrite flat_map_app in EX. cbn [flat_map] in EX.
  set (C := preX d ++ flat_map (fun n => [FixD KStrings; Wr n; Sk 1]) a).
  assert (EC : exists B, ops = C ++ FixD KStrings :: Wr t :: Sk 1 :: B).
  { eexists. rewrite EX. unfold C. rewrite <- !app_assoc. reflexivity. }
  destruct EC as (B & EC).
  pose proof (total_nonneg d) as Ht.
  assert (Hlt : (s < Z.to_nat (total_strings d))%nat).
  { assert (s < length (strings (enums d)))%nat by (apply nth_error_Some; congruence). pose proof (strings_length (enums d)) as L.
    change (etotal (enums d)) with (total_strings d) in L. unfold zlen in L. lia. }
  set (X := (preE d ++ flat_map enum_head (enums d) ++ [Sk (4 * total_strings d)]) ++ flat_map (fun _ : nat => [AddP KStrings; Sk 4]) (seq 0 s)).
  assert (PX : pos X = table + 4 * total_strings d + 4 * Z.of_nat s).
  { unfold X, table, hpos. rewrite firstn_all, pos_slots1, app_assoc, pos_sk by lia. unfold zlen. rewrite seq_length. lia. }
  assert (EXs : exists B1, ops = X ++ when true [AddP KStrings] ++ Sk 4 :: B1).
  { rewrite (ops_X d). unfold preX, E1, X. replace (Z.to_nat (total_strings d)) with (s + S (Z.to_nat (total_strings d) - S s))%nat by lia.
    rewrite seq_app, flat_map_app. cbn [seq flat_map]. eexists. rewrite <- !app_assoc. reflexivity. }
  destruct EXs as (B1 & EXs).
  exists (pos C). split.
  - rewrite <- PX. eapply (field_fact d X true KStrings); [exact EXs| |discriminate| |discriminate].
    + apply noadd_slots1. rewrite app_assoc. apply noadd_snoc. discriminate.
    + intros _. exists C, (Wr t :: Sk 1 :: B). split; [exact EC|]. split; [|reflexivity].
      unfold X, C, preX, preE, preP, preS, preD, preA, preN, preH, preT. rewrite !np_app, !nd_app. rewrite nd_etext_names, nd_E1.
      rewrite (np_flat KStrings (fun _ : nat => [AddP KStrings; Sk 4])). rewrite (sum_ext (fun x : nat => np KStrings [AddP KStrings; Sk 4]) (fun _ => 1)) by reflexivity. rewrite sum_one.
      unfold R, T, H, N, A, D, S_. rewrite np_head. counts. unfold is_k. cbn [kind_eqb b2z np nd]. unfold zlen in *. rewrite seq_length. unfold text in *. lia.
  - assert (EW : ops = (C ++ [FixD KStrings]) ++ Wr t :: Sk 1 :: B) by (rewrite EC, <- app_assoc; reflexivity).
    assert (EG : ops = ((C ++ [FixD KStrings]) ++ [Wr t]) ++ Sk 1 :: B) by (rewrite EC, <- !app_assoc; reflexivity).
    split; [|split].
    + unfold C. apply pos_mono.
    + assert (E3 : ops = (((C ++ [FixD KStrings]) ++ [Wr t]) ++ [Sk 1]) ++ B) by (rewrite EC, <- !app_assoc; reflexivity).
      rewrite E3. pose proof (pos_mono (((C ++ [FixD KStrings]) ++ [Wr t]) ++ [Sk 1]) B) as L. rewrite pos_sk, pos_wr, pos_fix in L by lia. lia.
    + apply holds_app. split.
      * rewrite <- (pos_fix C KStrings). eapply write_fact. exact EW.
      * rewrite <- (pos_fix C KStrings), <- pos_wr. eapply (fin_gap _ (all_slots d) _ 1); [exact EG|]. apply noadd_snoc. discriminate.
Qed.
End Arrays.
