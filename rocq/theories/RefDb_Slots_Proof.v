(** The file Save leaves: every piece written, every gap, and every pointer filled in. *)
From Coq Require Import String Ascii Sorting.Sorted.
From Verif Require Import Base Dds_Model RefDb_Model RefDb_Proof.
Local Open Scope Z_scope.

Lemma split_order {T} (A : list T) : forall x B A' y B', A ++ x :: B = A' ++ y :: B' ->
  (A = A' /\ x = y) \/ (exists C, A' = A ++ x :: C) \/ (exists C, A = A' ++ y :: C).
Proof.
  induction A as [|a A IH]; intros x B [|a' A'] y B' E; cbn in E.
  - injection E as -> ->. auto.
  - injection E as -> ->. right. left. exists A'. reflexivity.
  - injection E as -> <-. right. right. exists A. reflexivity.
  - injection E as -> E. destruct (IH _ _ _ _ _ E) as [(-> & ->)|[(C & ->)|(C & ->)]]; [auto|right; left|right; right]; now exists C.
Qed.

Lemma pos_snoc A o : pos (A ++ [o]) = pos A + zlen (obytes (pos A) o).
Proof. rewrite pos_app. cbn [content]. rewrite app_nil_r. reflexivity. Qed.

Section Fin.
Variable ops : list op.
Hypothesis Hs : slots_ok ops.

(** where the slots are *)
Lemma slot_inv k p : In p (ptrs k 0 ops) -> exists A B, ops = A ++ AddP k :: Sk 4 :: B /\ p = pos A.
Proof.
  intros Hi. destruct (ptrs_split _ _ _ _ Hi) as (A & B & E & ->). destruct (slots_after _ Hs _ _ _ E) as (B' & ->).
  exists A, B'. split; [exact E|]. unfold pos. lia.
Qed.
(** a slot and another call do not overlap, unless the call is the gap left for the slot *)
Lemma slot_apart k p A o B : In p (ptrs k 0 ops) -> ops = A ++ o :: B ->
  p + 4 <= pos A \/ pos A + zlen (obytes (pos A) o) <= p \/ (exists A0, A = A0 ++ [AddP k] /\ o = Sk 4 /\ p = pos A0).
Proof.
  intros Hi E. destruct (slot_inv k p Hi) as (A' & B' & E' & ->).
  rewrite E in E'. destruct (split_order _ _ _ _ _ _ E') as [(-> & ->)|[(C & EC)|(C & EC)]].
  - right. left. cbn. lia.
  - right. left. rewrite EC. replace (A ++ o :: C) with ((A ++ [o]) ++ C) by (rewrite <- app_assoc; reflexivity).
    pose proof (pos_le (A ++ [o]) C). rewrite pos_snoc in H. lia.
  - subst A. destruct C as [|c C].
    + right. right. exists A'. rewrite <- app_assoc in E'. cbn in E'. apply app_inv_head in E'. injection E' as -> _. auto.
    + left. rewrite <- app_assoc in E'. cbn in E'. apply app_inv_head in E'. injection E' as -> _.
      replace (A' ++ AddP k :: Sk 4 :: C) with (((A' ++ [AddP k]) ++ [Sk 4]) ++ C) by (rewrite <- !app_assoc; reflexivity).
      pose proof (pos_le ((A' ++ [AddP k]) ++ [Sk 4]) C) as L. rewrite !pos_snoc in L. cbn [obytes] in L.
      change (zlen (@nil Z)) with 0 in L. change (zlen (zeros 4)) with 4 in L. lia.
Qed.

Definition fxs (k : kind) : Fixups := Fx (fill (ptrs k 0 ops) (dests k 0 ops)) (length (dests k 0 ops)).
Definition fin : mem :=
  write_fixups (fxs KDescs) (write_fixups (fxs KAliases) (write_fixups (fxs KClassNames)
    (write_fixups (fxs KStrings) (write_fixups (fxs KItems) (to_mem (content 0 ops)))))).

Lemma fin_other x : (forall k p, k <> KHashes -> In p (ptrs k 0 ops) -> ~ (p <= x < p + 4)) -> fin x = to_mem (content 0 ops) x.
Proof.
  intros H. unfold fin, fxs. rewrite !write_other; [reflexivity|..]; intros p Hp; eapply H; try exact Hp; discriminate.
Qed.

Lemma content_holds A o B : ops = A ++ o :: B -> holds (to_mem (content 0 ops)) (pos A) (obytes (pos A) o).
Proof.
  intros E. pose proof (to_mem_holds (content 0 ops)) as H. rewrite E in H at 2. rewrite content_app in H.
  apply holds_app in H as [_ H]. rewrite Z.add_0_l in H. change (zlen (content 0 A)) with (pos A) in H.
  cbn [content] in H. apply holds_app in H as [H _]. exact H.
Qed.

Lemma fin_plain A o B : ops = A ++ o :: B ->
  (forall k A0, A = A0 ++ [AddP k] -> k = KHashes \/ o <> Sk 4) -> holds fin (pos A) (obytes (pos A) o).
Proof.
  intros E Hn. eapply holds_ext; [|apply (content_holds _ _ _ E)].
  intros x Hx. apply fin_other. intros k p Hk Hp.
  destruct (slot_apart k p A o B Hp E) as [L|[L|(A0 & -> & -> & ->)]]; [lia|lia|].
  destruct (Hn k A0 eq_refl); contradiction.
Qed.
(** what is written is there *)
Lemma fin_write A bs B : ops = A ++ Wr bs :: B -> holds fin (pos A) bs.
Proof. intros E. apply (fin_plain A (Wr bs) B E). intros. right. discriminate. Qed.
(** a gap no pointer was announced for stays zero *)
Lemma fin_gap A n B : ops = A ++ Sk n :: B -> (forall k A0, A <> A0 ++ [AddP k]) -> holds fin (pos A) (zeros n).
Proof. intros E H. apply (fin_plain A (Sk n) B E). intros k A0 Ek. exfalso. now apply (H k A0). Qed.
(** ... and so does the gap for a pointer to hashes *)
Lemma fin_hash_gap A B : ops = A ++ AddP KHashes :: Sk 4 :: B -> holds fin (pos A) (zeros 4).
Proof.
  intros E. assert (E' : ops = (A ++ [AddP KHashes]) ++ Sk 4 :: B) by (rewrite E, <- app_assoc; reflexivity).
  assert (P : pos (A ++ [AddP KHashes]) = pos A) by (rewrite pos_snoc; cbn; lia).
  rewrite <- P. apply (fin_plain _ (Sk 4) B E'). intros k A0 Ek. left.
  apply app_inj_tail in Ek as [_ Ek]. congruence.
Qed.
(** the others lead to their destination *)
Lemma fin_slot k A B C D : ops = A ++ AddP k :: B -> ops = C ++ FixD k :: D -> np k A = nd k C -> k <> KHashes ->
  holds fin (pos A) (le_bytes 4 (pos C)).
Proof.
  intros EA EC En Hk.
  assert (NA : nth_error (ptrs k 0 ops) (Z.to_nat (np k A)) = Some (pos A)) by (rewrite EA at 1; apply ptrs_at).
  assert (NC : nth_error (dests k 0 ops) (Z.to_nat (np k A)) = Some (pos C)) by (rewrite EC, En at 1; apply dests_at).
  assert (Hat : forall m, holds (write_fixups (fxs k) m) (pos A) (le_bytes 4 (pos C))).
  { intros m. eapply write_at; [apply ptrs_spaced; exact Hs|exact NA|exact NC]. }
  assert (EA' : exists B', ops = (A ++ [AddP k]) ++ Sk 4 :: B').
  { destruct (slots_after _ Hs _ _ _ EA) as (B' & ->). exists B'. rewrite EA, <- app_assoc. reflexivity. }
  destruct EA' as (B' & EA').
  assert (PA : pos (A ++ [AddP k]) = pos A) by (rewrite pos_snoc; cbn; lia).
  assert (Hoth : forall k', k' <> k -> forall m, (forall x, pos A <= x < pos A + 4 -> write_fixups (fxs k') m x = m x)).
  { intros k' Hk' m x Hx. apply write_other. intros p Hp.
    destruct (slot_apart k' p _ _ _ Hp EA') as [L|[L|(A0 & E0 & _ & _)]].
    - rewrite PA in L. lia.
    - rewrite PA in L. change (zlen (obytes (pos A) (Sk 4))) with 4 in L. lia.
    - apply app_inj_tail in E0 as [_ E0]. congruence. }
  assert (Hstep : forall k' m, k' <> k -> holds m (pos A) (le_bytes 4 (pos C)) -> holds (write_fixups (fxs k') m) (pos A) (le_bytes 4 (pos C))).
  { intros k' m Hk' Hm. eapply holds_ext; [|exact Hm]. intros x Hx. rewrite le_len in Hx. apply Hoth; [exact Hk'|lia]. }
  unfold fin. destruct k; try contradiction; repeat first [apply Hat | apply Hstep; [discriminate|]].
Qed.
End Fin.

(* ---------- Save ---------- *)
Definition all_ops (d : db) : list op := class_ops d ++ enum_ops d.

Lemma op_ok_flat {A} (f : A -> list op) l : Forall (fun x => Forall op_ok (f x)) l -> Forall op_ok (flat_map f l).
Proof. induction 1; cbn; [constructor|]. now apply Forall_app. Qed.

Lemma when_slots (b : bool) k r : slots_ok r -> slots_ok (when b [AddP k] ++ Sk 4 :: r).
Proof. destruct b; cbn; auto. Qed.
Lemma rec_slots c : slots_ok (rec_ops c).
Proof. unfold rec_ops. cbn [app]. cbn [slots_ok]. repeat (apply when_slots; cbn [app]). exact I. Qed.
Lemma plain_slots l : Forall (fun o => forall k, o <> AddP k) l -> slots_ok l.
Proof.
  induction 1 as [|o r H _ IH]; [exact I|]. destruct o; try exact IH. exfalso. now apply (H k).
Qed.
Lemma types_slots c : slots_ok (types_ops c).
Proof. apply plain_slots. constructor; [discriminate|]. apply Forall_forall. intros o Ho. apply in_map_iff in Ho as (x & <- & _). discriminate. Qed.
Lemma hashes_slots c : slots_ok (hashes_ops c).
Proof.
  unfold hashes_ops. destruct (ahashes c); [|exact I]. apply plain_slots. constructor; [discriminate|].
  apply Forall_forall. intros o Ho. apply in_map_iff in Ho as (x & <- & _). discriminate.
Qed.
Lemma names_slots c : slots_ok (names_ops c).
Proof. unfold names_ops. destruct (names c); [|exact I]. cbn [app slots_ok]. apply slots_ok_flat. intros. exact I. Qed.
Lemma aliases_slots c : slots_ok (aliases_ops c).
Proof. unfold aliases_ops. destruct (aliases c); [|exact I]. cbn [app slots_ok]. apply slots_ok_flat. intros. apply when_slots. exact I. Qed.
Lemma part_slots t : slots_ok (part_ops t).
Proof. unfold part_ops. apply when_slots. exact I. Qed.
Lemma descs_slots c : slots_ok (descs_ops c).
Proof. unfold descs_ops. destruct (descs c); [|exact I]. cbn [app slots_ok]. apply slots_ok_flat. intros. apply slots_ok_app; apply part_slots. Qed.
Lemma part_text_slots t : slots_ok (part_text t).
Proof. unfold part_text. destruct (_ <? _)%nat; exact I. Qed.
Lemma strings_slots c : slots_ok (strings_ops c).
Proof.
  unfold strings_ops. repeat apply slots_ok_app.
  - destruct (names c); [|exact I]. apply slots_ok_flat. intros. exact I.
  - destruct (aliases c); [|exact I]. apply slots_ok_flat. intros []; exact I.
  - destruct (descs c); [|exact I]. apply slots_ok_flat. intros. apply slots_ok_app; apply part_text_slots.
  - destruct (cname c); exact I.
Qed.
Lemma all_slots d : slots_ok (all_ops d).
Proof.
  unfold all_ops, class_ops, enum_ops. repeat apply slots_ok_app; try (apply slots_ok_flat; intros).
  - apply rec_slots.
  - apply types_slots.
  - apply hashes_slots.
  - apply names_slots.
  - apply aliases_slots.
  - apply descs_slots.
  - apply strings_slots.
  - exact I.
  - apply plain_slots. repeat constructor; try discriminate. apply Forall_forall. intros o Ho. apply in_map_iff in Ho as (v & <- & _). discriminate.
  - exact I.
  - exact I.
  - apply slots_ok_app; [apply slots_ok_flat; intros; exact I|exact I].
Qed.

(* counting *)
Definition sum (l : list Z) : Z := fold_right Z.add 0 l.
Lemma np_flat {A} k (f : A -> list op) l : np k (flat_map f l) = sum (map (fun x => np k (f x)) l).
Proof. induction l; cbn; [reflexivity|]. rewrite np_app. unfold sum in IHl. lia. Qed.
Lemma nd_flat {A} k (f : A -> list op) l : nd k (flat_map f l) = sum (map (fun x => nd k (f x)) l).
Proof. induction l; cbn; [reflexivity|]. rewrite nd_app. unfold sum in IHl. lia. Qed.
Lemma sum_app a b : sum (a ++ b) = sum a + sum b.
Proof. induction a; cbn; [reflexivity|]. unfold sum in *. lia. Qed.
Lemma sum_ext {A} (f g : A -> Z) l : (forall x, f x = g x) -> sum (map f l) = sum (map g l).
Proof. intros H. induction l; cbn; [reflexivity|]. rewrite H. unfold sum in *. lia. Qed.
Lemma sum_const {A} (f : A -> Z) l : (forall x, f x = 0) -> sum (map f l) = 0.
Proof. intros H. induction l; cbn; [reflexivity|]. rewrite H. unfold sum in *. lia. Qed.
Lemma np_plain k l : Forall (fun o => forall k, o <> AddP k) l -> np k l = 0.
Proof. induction 1 as [|o r H _ IH]; [reflexivity|]. cbn. rewrite IH. destruct o; try reflexivity. exfalso. now apply (H k0). Qed.
Lemma nd_plain k l : Forall (fun o => forall k, o <> FixD k) l -> nd k l = 0.
Proof. induction 1 as [|o r H _ IH]; [reflexivity|]. cbn. rewrite IH. destruct o; try reflexivity. exfalso. now apply (H k0). Qed.
Definition b2z (b : bool) : Z := if b then 1 else 0.
Definition is_k (k k' : kind) : Z := b2z (kind_eqb k k').

(** the number of texts of each sort a class has *)
Definition cnt {A} (o : option (list A)) : Z := match o with Some l => zlen l | None => 0 end.
Definition acnt (o : option (list (option text))) : Z := match o with Some l => sum (map (fun a => b2z (some a)) l) | None => 0 end.
Definition full (t : text) : Z := b2z (0 <? length t)%nat.
Definition dcnt (o : option (list (text * text))) : Z := match o with Some l => sum (map (fun d => full (fst d) + full (snd d)) l) | None => 0 end.

Lemma sum_one {A} (l : list A) : sum (map (fun _ => 1) l) = zlen l.
Proof. induction l as [|a l IH]; [reflexivity|]. unfold sum, zlen in *. cbn [map fold_right length]. rewrite IH. lia. Qed.
Lemma sum_mul {A} (f : A -> Z) c l : sum (map (fun x => f x * c) l) = sum (map f l) * c.
Proof. induction l as [|a l IH]; [reflexivity|]. unfold sum in *. cbn [map fold_right]. rewrite IH. ring. Qed.

Lemma np_rec k c : np k (rec_ops c) = is_k k KItems + b2z (some (names c)) * is_k k KStrings + b2z (some (cname c)) * is_k k KClassNames +
  b2z (some (aliases c)) * is_k k KAliases + b2z (some (ahashes c)) * is_k k KHashes + b2z (some (descs c)) * is_k k KDescs.
Proof.
  unfold rec_ops. destruct (some (names c)), (some (cname c)), (some (aliases c)), (some (ahashes c)), (some (descs c)), k; reflexivity.
Qed.
Lemma nd_rec k c : nd k (rec_ops c) = 0.
Proof. unfold rec_ops. destruct (some (names c)), (some (cname c)), (some (aliases c)), (some (ahashes c)), (some (descs c)); reflexivity. Qed.
Lemma np_types k c : np k (types_ops c) = 0.
Proof. apply np_plain. constructor; [discriminate|]. apply Forall_forall. intros o Ho. apply in_map_iff in Ho as (x & <- & _). discriminate. Qed.
Lemma nd_types k c : nd k (types_ops c) = is_k k KItems.
Proof. unfold types_ops. cbn [nd]. rewrite nd_plain; [unfold is_k, b2z; lia|]. apply Forall_forall. intros o Ho. apply in_map_iff in Ho as (x & <- & _). discriminate. Qed.
Lemma np_hashes k c : np k (hashes_ops c) = 0.
Proof. unfold hashes_ops. destruct (ahashes c); [|reflexivity]. apply np_plain. constructor; [discriminate|]. apply Forall_forall. intros o Ho. apply in_map_iff in Ho as (x & <- & _). discriminate. Qed.
Lemma nd_hashes k c : nd k (hashes_ops c) = b2z (some (ahashes c)) * is_k k KHashes.
Proof. unfold hashes_ops. destruct (ahashes c); [|reflexivity]. cbn [nd]. rewrite nd_plain; [unfold is_k, b2z; cbn; destruct (kind_eqb k KHashes); reflexivity|]. apply Forall_forall. intros o Ho. apply in_map_iff in Ho as (x & <- & _). discriminate. Qed.
Lemma np_names k c : np k (names_ops c) = cnt (names c) * is_k k KStrings.
Proof.
  unfold names_ops. destruct (names c) as [l|]; [|reflexivity]. rewrite np_app, np_flat. cbn [np cnt].
  rewrite (sum_ext _ (fun _ => 1 * is_k k KStrings)) by (intros; unfold is_k, b2z; cbn; destruct (kind_eqb k KStrings); reflexivity).
  rewrite sum_mul, sum_one. lia.
Qed.
Lemma nd_names k c : nd k (names_ops c) = b2z (some (names c)) * is_k k KStrings.
Proof.
  unfold names_ops. destruct (names c) as [l|]; [|reflexivity]. rewrite nd_app, nd_flat. rewrite sum_const by reflexivity.
  cbn. unfold is_k, b2z. destruct (kind_eqb k KStrings); reflexivity.
Qed.
Lemma np_aliases k c : np k (aliases_ops c) = acnt (aliases c) * is_k k KAliases.
Proof.
  unfold aliases_ops. destruct (aliases c) as [l|]; [|reflexivity]. rewrite np_app, np_flat. cbn [np acnt].
  rewrite (sum_ext _ (fun a => b2z (some a) * is_k k KAliases)); [rewrite sum_mul; lia|].
  intros a. unfold is_k, b2z. destruct (some a); cbn; destruct (kind_eqb k KAliases); reflexivity.
Qed.
Lemma nd_aliases k c : nd k (aliases_ops c) = b2z (some (aliases c)) * is_k k KAliases.
Proof.
  unfold aliases_ops. destruct (aliases c) as [l|]; [|reflexivity]. rewrite nd_app, nd_flat.
  rewrite sum_const by (intros a; destruct (some a); reflexivity).
  cbn. unfold is_k, b2z. destruct (kind_eqb k KAliases); reflexivity.
Qed.
Lemma np_part k t : np k (part_ops t) = full t * is_k k KDescs.
Proof. unfold part_ops, full, is_k, b2z. destruct (0 <? length t)%nat; cbn; destruct (kind_eqb k KDescs); reflexivity. Qed.
Lemma nd_part k t : nd k (part_ops t) = 0.
Proof. unfold part_ops. destruct (0 <? length t)%nat; reflexivity. Qed.
Lemma np_descs k c : np k (descs_ops c) = dcnt (descs c) * is_k k KDescs.
Proof.
  unfold descs_ops. destruct (descs c) as [l|]; [|reflexivity]. rewrite np_app, np_flat. cbn [np dcnt].
  rewrite (sum_ext _ (fun d => (full (fst d) + full (snd d)) * is_k k KDescs)); [rewrite sum_mul; lia|].
  intros d. rewrite np_app, !np_part. lia.
Qed.
Lemma nd_descs k c : nd k (descs_ops c) = b2z (some (descs c)) * is_k k KDescs.
Proof.
  unfold descs_ops. destruct (descs c) as [l|]; [|reflexivity]. rewrite nd_app, nd_flat.
  rewrite sum_const by (intros d; rewrite nd_app, !nd_part; reflexivity).
  cbn. unfold is_k, b2z. destruct (kind_eqb k KDescs); reflexivity.
Qed.
Lemma np_part_text k t : np k (part_text t) = 0.
Proof. unfold part_text. destruct (0 <? length t)%nat; reflexivity. Qed.
Lemma nd_part_text k t : nd k (part_text t) = full t * is_k k KDescs.
Proof. unfold part_text, full, is_k, b2z. destruct (0 <? length t)%nat; cbn; destruct (kind_eqb k KDescs); reflexivity. Qed.
Lemma np_strings k c : np k (strings_ops c) = 0.
Proof.
  unfold strings_ops. rewrite !np_app.
  assert (np k match cname c with Some t => [FixD KClassNames; Wr (t ++ [0])] | None => [] end = 0) as -> by (destruct (cname c); reflexivity).
  destruct (names c), (aliases c), (descs c); rewrite ?np_flat; repeat rewrite sum_const; try reflexivity;
    intros x; try (destruct x; reflexivity); rewrite ?np_app, ?np_part_text; reflexivity.
Qed.
Lemma nd_name_texts k (l : list text) : nd k (flat_map (fun n => [FixD KStrings; Wr (n ++ [0])]) l) = zlen l * is_k k KStrings.
Proof.
  rewrite nd_flat. rewrite (sum_ext _ (fun _ => 1 * is_k k KStrings)); [rewrite sum_mul, sum_one; reflexivity|].
  intros. unfold is_k, b2z. cbn. destruct (kind_eqb k KStrings); reflexivity.
Qed.
Lemma nd_alias_texts k (l : list (option text)) :
  nd k (flat_map (fun a => match a with None => [] | Some t => [FixD KAliases; Wr (t ++ [0])] end) l) = sum (map (fun a => b2z (some a)) l) * is_k k KAliases.
Proof.
  rewrite nd_flat. rewrite (sum_ext _ (fun a => b2z (some a) * is_k k KAliases)); [now rewrite sum_mul|].
  intros a. unfold is_k, b2z. destruct a; cbn; destruct (kind_eqb k KAliases); reflexivity.
Qed.
Lemma nd_desc_texts k (l : list (text * text)) :
  nd k (flat_map (fun d => part_text (fst d) ++ part_text (snd d)) l) = sum (map (fun d => full (fst d) + full (snd d)) l) * is_k k KDescs.
Proof.
  rewrite nd_flat. rewrite (sum_ext _ (fun d => (full (fst d) + full (snd d)) * is_k k KDescs)); [now rewrite sum_mul|].
  intros d. rewrite nd_app, !nd_part_text. lia.
Qed.
Lemma nd_strings k c : nd k (strings_ops c) = cnt (names c) * is_k k KStrings + acnt (aliases c) * is_k k KAliases +
  dcnt (descs c) * is_k k KDescs + b2z (some (cname c)) * is_k k KClassNames.
Proof.
  unfold strings_ops. rewrite !nd_app.
  assert (nd k match cname c with Some t => [FixD KClassNames; Wr (t ++ [0])] | None => [] end = b2z (some (cname c)) * is_k k KClassNames) as ->
    by (destruct (cname c); cbn; unfold is_k, b2z; try destruct (kind_eqb k KClassNames); reflexivity).
  destruct (names c); [rewrite nd_name_texts|]; (destruct (aliases c); [rewrite nd_alias_texts|]); (destruct (descs c); [rewrite nd_desc_texts|]);
    cbn [nd cnt acnt dcnt]; lia.
Qed.
Lemma np_enum_slots k n : np k (flat_map (fun _ : nat => [AddP KStrings; Sk 4]) (seq 0 n)) = Z.of_nat n * is_k k KStrings.
Proof.
  rewrite np_flat. rewrite (sum_ext _ (fun _ => 1 * is_k k KStrings)); [rewrite sum_mul, sum_one; unfold zlen; rewrite seq_length; lia|].
  intros. unfold is_k, b2z. cbn. destruct (kind_eqb k KStrings); reflexivity.
Qed.
Lemma total_nonneg d : 0 <= total_strings d.
Proof. unfold total_strings. induction (enums d); cbn [map fold_right]; [lia|]. pose proof (zlen_nonneg (enames a)). unfold zlen in *. lia. Qed.

(* ---------- Save succeeds ---------- *)
Definition init := empty_writer.
Lemma exec_app a b w : exec (a ++ b) w = (w' <- exec a w ;; exec b w').
Proof. revert w. induction a as [|o a IH]; intros w; cbn; [reflexivity|]. destruct (step o w); [apply IH|reflexivity]. Qed.

(** after the calls A, the calls B succeed *)
Definition ran (A : list op) (w : writer) : Prop :=
  exec A init = Some w /\ out w = content 0 A /\ (forall k, has (fx w k) (ptrs k 0 A) (dests k 0 A)).
Lemma ran_nil : ran [] init.
Proof. split; [reflexivity|]. split; [reflexivity|]. intros k. split; [reflexivity|cbn; lia]. Qed.
Lemma ran_app A B w : ran A w -> Forall op_ok B -> pos (A ++ B) < 2 ^ 31 -> (forall k, nd k A + nd k B <= np k A) ->
  exists w', exec B w = Some w' /\ ran (A ++ B) w'.
Proof.
  intros (E & O & H) Hok Hp Hd.
  assert (T : tell w = pos A) by (unfold tell; rewrite O; reflexivity).
  destruct (exec_spec B w (fun k => ptrs k 0 A) (fun k => dests k 0 A) Hok) as (w' & E' & O' & H').
  - rewrite T. rewrite pos_app in Hp. exact Hp.
  - exact H.
  - intros k. rewrite np_len, nd_len. apply Hd.
  - exists w'. split; [exact E'|]. split; [rewrite exec_app, E; exact E'|]. split.
    + rewrite O', O, T, content_app. reflexivity.
    + intros k. rewrite ptrs_app, dests_app. specialize (H' k). rewrite T in H'. exact H'.
Qed.
