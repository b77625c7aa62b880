(** The size of the file of Save. *)
From Coq Require Import String Ascii Sorting.Sorted.
From Verif Require Import Base Dds_Model RefDb_Model RefDb_Proof RefDb_Slots_Proof RefDb_Spec.
Local Open Scope Z_scope.

Definition osize (o : op) : Z := match o with Wr bs => zlen bs | Sk n => Z.max 0 n | Pad8 => 7 | _ => 0 end.
Definition osizes (l : list op) : Z := sum (map osize l).
Lemma osize_bound p o : zlen (obytes p o) <= osize o.
Proof.
  destruct o; cbn [obytes osize]; try (cbn; lia); try lia.
  - unfold zlen, zeros. rewrite repeat_length. lia.
  - unfold zlen, zeros. rewrite repeat_length. pose proof (Z.mod_pos_bound (- p) 8 ltac:(lia)). lia.
Qed.
Lemma pos_bound l : forall p, zlen (content p l) <= osizes l.
Proof.
  induction l as [|o l IH]; intros p; [cbn; lia|]. cbn [content]. unfold osizes in *. cbn [map sum fold_right] in *. fold sum in *.
  unfold zlen at 1. rewrite zlen_app. fold (zlen (obytes p o)) in *. pose proof (osize_bound p o). specialize (IH (p + zlen (obytes p o))).
  unfold zlen, sum in *. cbn [fold_right]. lia.
Qed.
Lemma osizes_app a b : osizes (a ++ b) = osizes a + osizes b.
Proof. unfold osizes. now rewrite map_app, sum_app. Qed.
Lemma osizes_flat {A} (f : A -> list op) l : osizes (flat_map f l) = sum (map (fun x => osizes (f x)) l).
Proof. induction l as [|x l IH]; [reflexivity|]. cbn [flat_map map sum fold_right]. rewrite osizes_app, IH. reflexivity. Qed.
Lemma osizes_cons o l : osizes (o :: l) = osize o + osizes l. Proof. reflexivity. Qed.
Lemma osizes_nil : osizes [] = 0. Proof. reflexivity. Qed.
Lemma osizes_when b o : osizes (when b [o]) = if b then osize o else 0.
Proof. destruct b; cbn; lia. Qed.
Lemma sum_le {A} (f g : A -> Z) l : Forall (fun x => f x <= g x) l -> sum (map f l) <= sum (map g l).
Proof. induction 1; cbn [map sum fold_right]; unfold sum in *; lia. Qed.
Lemma sum_plus {A} (f g : A -> Z) l : sum (map (fun x => f x + g x) l) = sum (map f l) + sum (map g l).
Proof. unfold sum. induction l as [|x l IH]; cbn [map fold_right]; lia. Qed.
Lemma sum_k {A} (l : list A) k : sum (map (fun _ => k) l) = k * zlen l.
Proof. unfold sum, zlen. induction l as [|x l IH]; cbn [map fold_right length]; lia. Qed.

Lemma sz_rec c : osizes (rec_ops c) = 56.
Proof.
  unfold rec_ops. rewrite !osizes_app. unfold osizes. cbn [map osize sum fold_right].
  destruct (names c), (cname c), (aliases c), (ahashes c), (descs c); vm_compute; reflexivity.
Qed.
Lemma sz_types c : class_ok c -> osizes (types_ops c) = 16 * len (types c).
Proof.
  intros (_ & Ht & _). unfold types_ops. rewrite osizes_cons. cbn [osize]. unfold len. induction Ht as [|t l [E _] _ IH]; [reflexivity|].
  cbn [map length]. rewrite osizes_cons. cbn [osize]. unfold zlen. rewrite E. lia.
Qed.
Lemma sz_hashes c : class_ok c -> osizes (hashes_ops c) = if_some (ahashes c) (fun _ => 4 * len (types c)).
Proof.
  intros (_ & _ & _ & _ & _ & Hh & _). unfold hashes_ops. destruct (ahashes c) as [l|]; [|reflexivity]. cbn [if_some per_type] in *.
  destruct Hh as [E _]. unfold len. rewrite <- E. rewrite osizes_cons. cbn [osize]. clear E. induction l as [|h l IH]; [reflexivity|].
  cbn [map length]. rewrite osizes_cons. cbn [osize]. unfold u32b at 1. rewrite le_len. lia.
Qed.
Lemma sz_names c : class_ok c -> osizes (names_ops c) = if_some (names c) (fun _ => 7 + 8 * len (types c)).
Proof.
  intros (_ & _ & Hh & _). unfold names_ops. destruct (names c) as [l|]; [|reflexivity]. cbn [if_some per_type] in *.
  destruct Hh as [E _]. rewrite osizes_app, osizes_flat, !osizes_cons, osizes_nil. cbn [osize]. unfold osizes. cbn [map osize sum fold_right].
  rewrite sum_k. unfold nTypes, len, zlen. rewrite E. lia.
Qed.
Lemma sz_aliases c : class_ok c -> osizes (aliases_ops c) = if_some (aliases c) (fun _ => 7 + 8 * len (types c)).
Proof.
  intros (_ & _ & _ & _ & Hh & _). unfold aliases_ops. destruct (aliases c) as [l|]; [|reflexivity]. cbn [if_some per_type] in *.
  destruct Hh as [E _]. rewrite osizes_app, osizes_flat, !osizes_cons, osizes_nil. cbn [osize].
  rewrite (sum_ext _ (fun _ => 4)) by (intros x; destruct x; reflexivity).
  rewrite sum_k. unfold nTypes, len, zlen. rewrite E. lia.
Qed.
Lemma sz_descs c : class_ok c -> osizes (descs_ops c) = if_some (descs c) (fun _ => 32 * len (types c)).
Proof.
  intros (_ & _ & _ & _ & _ & _ & Hh). unfold descs_ops. destruct (descs c) as [l|]; [|reflexivity]. cbn [if_some per_type] in *.
  destruct Hh as [E _]. rewrite osizes_app, osizes_flat, !osizes_cons, osizes_nil. cbn [osize].
  rewrite (sum_ext _ (fun _ => 16)).
  - rewrite sum_k. unfold nTypes, len, zlen. rewrite E. lia.
  - intros [x y]. cbn [fst snd]. rewrite osizes_app. unfold part_ops. rewrite !osizes_app, !osizes_when, !osizes_cons, osizes_nil. cbn [osize].
    unfold u32b. rewrite !le_len. destruct (0 <? length x)%nat, (0 <? length y)%nat; lia.
Qed.
Lemma sz_strings c : osizes (strings_ops c) <= if_some (names c) texts +
  if_some (aliases c) (fun l => total (map (fun o => if_some o (fun t => len t + 1)) l)) +
  if_some (descs c) (fun l => total (map (fun p => len (fst p) + len (snd p) + 2) l)) + if_some (cname c) (fun t => len t + 1).
Proof.
  unfold strings_ops. rewrite !osizes_app.
  assert (T1 : forall t : text, zlen (t ++ [0]) = len t + 1) by (intros; unfold zlen, len; rewrite app_length; cbn; lia).
  assert (X1 : osizes match names c with Some l => flat_map (fun n : list Z => [FixD KStrings; Wr (n ++ [0])]) l | None => [] end = if_some (names c) texts).
  { destruct (names c) as [l|]; [|reflexivity]. cbn [if_some]. rewrite osizes_flat. unfold texts. apply (sum_ext _ _ l). intros t. rewrite !osizes_cons, osizes_nil. cbn [osize]. rewrite T1. lia. }
  assert (X2 : osizes match aliases c with Some l => flat_map (fun a => match a with Some t => [FixD KAliases; Wr (t ++ [0])] | None => [] end) l | None => [] end =
    if_some (aliases c) (fun l => total (map (fun o => if_some o (fun t => len t + 1)) l))).
  { destruct (aliases c) as [l|]; [|reflexivity]. cbn [if_some]. rewrite osizes_flat. apply (sum_ext _ _ l). intros [t|]; [|reflexivity]. rewrite !osizes_cons, osizes_nil. cbn [osize if_some]. rewrite T1. lia. }
  assert (X3 : osizes match descs c with Some l => flat_map (fun d => part_text (fst d) ++ part_text (snd d)) l | None => [] end <=
    if_some (descs c) (fun l => total (map (fun p => len (fst p) + len (snd p) + 2) l))).
  { destruct (descs c) as [l|]; [|cbn; lia]. cbn [if_some]. rewrite osizes_flat. apply (sum_le _ _ l). apply Forall_forall. intros [x y] _. cbn [fst snd].
    rewrite osizes_app. assert (P : forall t, osizes (part_text t) <= len t + 1); [|pose proof (P x); pose proof (P y); lia].
    intros t. unfold part_text. destruct (0 <? length t)%nat; cbn [when]; [|rewrite osizes_nil; unfold len; lia]. rewrite !osizes_cons, osizes_nil. cbn [osize]. unfold zlen, len. lia. }
  assert (X4 : osizes match cname c with Some t => [FixD KClassNames; Wr (t ++ [0])] | None => [] end = if_some (cname c) (fun t => len t + 1)).
  { destruct (cname c) as [t|]; [|reflexivity]. cbn [if_some]. rewrite !osizes_cons, osizes_nil. cbn [osize]. rewrite T1. lia. }
  unfold text in *. lia.
Qed.
Lemma sz_class c : class_ok c -> osizes (rec_ops c) + osizes (types_ops c) + osizes (hashes_ops c) + osizes (names_ops c) + osizes (aliases_ops c) +
  osizes (descs_ops c) + osizes (strings_ops c) <= class_bytes c.
Proof.
  intros Hc. pose proof (sz_strings c). rewrite sz_rec, sz_types, sz_hashes, sz_names, sz_aliases, sz_descs by assumption.
  unfold class_bytes. destruct (names c), (aliases c), (descs c), (ahashes c), (cname c); cbn [if_some] in *; lia.
Qed.
Lemma sz_classes l : Forall class_ok l -> osizes (flat_map rec_ops l) + osizes (flat_map types_ops l) + osizes (flat_map hashes_ops l) +
  osizes (flat_map names_ops l) + osizes (flat_map aliases_ops l) + osizes (flat_map descs_ops l) + osizes (flat_map strings_ops l) <= total (map class_bytes l).
Proof.
  intros Hl. rewrite !osizes_flat, <- !sum_plus. apply (sum_le _ class_bytes). eapply Forall_impl; [|exact Hl]. intros c Hc. cbn beta. now apply sz_class.
Qed.
Lemma sz_values l : osizes (map (fun v => Wr (le_bytes 8 (u64 v))) l) = 8 * zlen l.
Proof. unfold osizes. rewrite map_map. cbn [osize]. rewrite (sum_ext _ (fun _ => 8)) by (intros; apply le_len). apply sum_k. Qed.
Lemma sz_enums d : osizes (enum_ops d) <= total (map enum_bytes (enums d)).
Proof.
  unfold enum_ops. rewrite !osizes_app, !osizes_flat, osizes_cons, osizes_nil. cbn [osize].
  rewrite (sum_ext (fun x : nat => osizes [AddP KStrings; Sk 4]) (fun _ => 4)) by reflexivity. rewrite sum_k.
  pose proof (total_nonneg d) as Ht. unfold zlen. rewrite seq_length. replace (4 * Z.of_nat (Z.to_nat (total_strings d))) with (4 * total_strings d) by lia.
  rewrite Z.max_r by lia. replace (4 * total_strings d + 0 + (4 * total_strings d + sum (map (fun x => osizes (flat_map (fun n => [FixD KStrings; Wr n; Sk 1]) (enames x) ++ [FixD KStrings; Wr (ename x); Sk 1])) (enums d))))
    with (8 * total_strings d + sum (map (fun x => osizes (flat_map (fun n => [FixD KStrings; Wr n; Sk 1]) (enames x) ++ [FixD KStrings; Wr (ename x); Sk 1])) (enums d))) by lia.
  unfold total_strings. change (fold_right Z.add 0 (map (fun e => Z.of_nat (length (enames e)) + 1) (enums d))) with (sum (map (fun e => Z.of_nat (length (enames e)) + 1) (enums d))).
  rewrite Z.mul_comm, <- sum_mul, <- !sum_plus. apply (sum_le _ enum_bytes). apply Forall_forall. intros e _.
  rewrite osizes_app, sz_values, !osizes_cons, osizes_nil, osizes_app, osizes_flat, !osizes_cons, osizes_nil. cbn [osize]. unfold u32b. rewrite !le_len.
  unfold enum_bytes, texts. rewrite map_app. change total with sum. rewrite sum_app.
  rewrite (sum_ext (fun x => osizes [FixD KStrings; Wr x; Sk 1]) (fun t => len t + 1)) by (intros t; rewrite !osizes_cons, osizes_nil; cbn [osize]; unfold zlen, len; lia).
  cbn [map sum fold_right]. unfold zlen, len, sum, text in *. lia.
Qed.
Lemma size_ok d : db_ok d -> pos (all_ops d) <= db_bytes d.
Proof.
  intros (Hc & He & _). unfold pos, all_ops. pose proof (pos_bound (class_ops d ++ enum_ops d) 0) as B. rewrite osizes_app in B.
  pose proof (sz_enums d). pose proof (sz_classes _ Hc). unfold class_ops in B at 2. rewrite !osizes_app, osizes_cons, osizes_nil in B. cbn [osize] in B.
  unfold db_bytes. lia.
Qed.
