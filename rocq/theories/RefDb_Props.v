(** C65: the reflection database file. *)
From Coq Require Import String Ascii.
From Verif Require Import Base Dds_Model RefDb_Model RefDb_Proof RefDb_Slots_Proof RefDb_Layout_Proof RefDb_Facts_Proof RefDb_Load_Proof RefDb_Spec
  RefDb_Size_Proof RefDb_Loop_Proof RefDb_View_Proof RefDb_Enums_Proof.
Local Open Scope Z_scope.

(** Whatever well-formed database is given, Save succeeds, Load accepts the file wherever its buffer
    happens to be, and following the pointers of the loaded object gives the database back - all but
    the alias hashes. *)
Theorem C65_round_trip : forall d base, db_ok d -> 0 < base -> base + db_bytes d < 2 ^ 64 ->
  exists file r, Save d = Some file /\ Load base file = Some r /\ contents base r = Some (without_alias_hashes d).
Proof. intros d base ok Hb Hs. apply round_trip; [exact ok|exact Hb|]. pose proof (size_ok d ok). lia. Qed.
Print Assumptions C65_round_trip.

Definition ex_class := Cls 5 [repeat 7 16; repeat 9 16] (Some [[65]; [66; 67]]) (Some [80; 81]) (Some [None; Some [70]]) (Some [1; 2])
  (Some [([1; 0; 2], []); ([], [5])]).
Definition ex_plain := Cls 6 [repeat 1 16] None None None None None.
Definition ex_empty := Cls 7 [] (Some []) None (Some []) None (Some []).
Definition ex_db := Db [ex_class; ex_plain; ex_empty; ex_class] [Enm 9 [[65]; []] [3; 2 ^ 64 - 1] [69]; Enm 10 [] [] []].
Example ex_ok : db_ok ex_db /\ 0 < 4096 /\ 4096 + db_bytes ex_db < 2 ^ 64.
Proof.
  split; [|split; reflexivity]. split; [|split; [|reflexivity]].
  - repeat constructor; cbn; lia.
  - repeat constructor; cbn; lia.
Qed.

(** A class saved with alias hashes is not loaded with them. *)
Theorem C65_alias_hashes_lost : forall d base, db_ok d -> 0 < base -> base + db_bytes d < 2 ^ 64 ->
  exists file r d', Save d = Some file /\ Load base file = Some r /\ contents base r = Some d' /\
    Forall (fun c => ahashes c = None) (classes d') /\ (d' = d <-> Forall (fun c => ahashes c = None) (classes d)).
Proof.
  intros d base ok Hb Hs. destruct (C65_round_trip d base ok Hb Hs) as (file & r & E1 & E2 & E3).
  exists file, r, (without_alias_hashes d). repeat (split; [assumption|]). unfold without_alias_hashes. cbn [classes]. split.
  - apply Forall_map, Forall_forall. reflexivity.
  - destruct d as [cs es]. cbn [classes enums]. split.
    + intros E. assert (E' : map no_hashes cs = cs) by congruence. rewrite <- E'. apply Forall_map, Forall_forall. reflexivity.
    + intros H. f_equal. clear - H. induction H as [|c l Hc _ IH]; [reflexivity|]. cbn [map]. f_equal; [|exact IH]. destruct c; cbn in *. now subst.
Qed.
Print Assumptions C65_alias_hashes_lost.
Example ex_lost : without_alias_hashes ex_db <> ex_db. Proof. discriminate. Qed.

(** The file is the 32 byte header, which starts with RFDB, followed by as many bytes as the header says. *)
Theorem C65_file : forall d file, db_ok d -> Save d = Some file ->
  firstn 4 file = map (fun c => Z.of_N (N_of_ascii c)) (list_ascii_of_string "RFDB") /\
  Z.of_nat (length file) = 32 + le_value (firstn 4 (skipn 24 file)) /\ Z.of_nat (length file) <= 32 + db_bytes d /\
  le_value (firstn 4 (skipn 8 file)) = len (classes d) /\ le_value (firstn 4 (skipn 12 file)) = len (enums d).
Proof.
  intros d file ok E. pose proof (size_ok d ok) as Z0. destruct ok as (okc & oke & Hsz). pose proof (pos_nonneg (all_ops d)) as P0.
  rewrite (save_file d ltac:(lia)) in E. assert (E' : file = header (zlen (classes d)) (zlen (enums d)) (total_strings d) (pos (class_ops d)) (pos (all_ops d))
    ++ peek (fin (all_ops d)) 0 (Z.to_nat (pos (all_ops d)))) by congruence. subst file. clear E.
  assert (P31 : 2 ^ 32 = 2 * 2 ^ 31) by reflexivity.
  assert (FH : forall i v, nth_error [ID; VERSION; zlen (classes d); zlen (enums d); total_strings d; pos (class_ops d); pos (all_ops d); 0] i = Some v -> 0 <= v < 2 ^ 32 ->
    field (header (zlen (classes d)) (zlen (enums d)) (total_strings d) (pos (class_ops d)) (pos (all_ops d))
    ++ peek (fin (all_ops d)) 0 (Z.to_nat (pos (all_ops d)))) i = v).
  { intros i v E V. rewrite (field_header _ _ _ _ _ _ _ _ E). unfold u32. apply wrap_small. exact V. }
  assert (Cn : 0 <= zlen (classes d) < 2 ^ 32 /\ 0 <= zlen (enums d) < 2 ^ 32).
  { assert (G : forall X (f : X -> Z) l, (forall x, 1 <= f x) -> zlen l <= total (map f l)).
    { intros X f l Hf. unfold zlen, total. induction l as [|x l IH]; [cbn; lia|]. cbn [map fold_right length]. specialize (Hf x). lia. }
    pose proof (G _ class_bytes (classes d)) as G1. pose proof (G _ enum_bytes (enums d)) as G2.
    assert (TT : forall l, 0 <= texts l).
    { intros l. unfold texts, total. induction l as [|x l IH]; [cbn; lia|]. cbn [map fold_right]. unfold len in *. lia. }
    assert (TT2 : forall l : list (option text), 0 <= total (map (fun o => if_some o (fun t => len t + 1)) l)).
    { intros l. unfold total. induction l as [|[x|] l IH]; cbn [map fold_right if_some]; unfold len in *; lia. }
    assert (TT3 : forall l : list (text * text), 0 <= total (map (fun p => len (fst p) + len (snd p) + 2) l)).
    { intros l. unfold total. induction l as [|x l IH]; cbn [map fold_right]; unfold len in *; lia. }
    assert (G1' : forall x, 1 <= class_bytes x).
    { intros x. unfold class_bytes. destruct (ahashes x), (names x) as [a|], (aliases x) as [b|], (descs x) as [c|], (cname x) as [e|]; cbn [if_some];
        try pose proof (TT a); try pose proof (TT2 b); try pose proof (TT3 c); unfold len in *; lia. }
    assert (G2' : forall x, 1 <= enum_bytes x) by (intros x; unfold enum_bytes; pose proof (TT (enames x ++ [ename x])); unfold len in *; lia).
    specialize (G1 G1'). specialize (G2 G2'). unfold db_bytes in Hsz.
    pose proof (zlen_nonneg (classes d)). pose proof (zlen_nonneg (enums d)). lia. }
  split; [reflexivity|]. split; [|split; [|split]].
  - pose proof (FH 6%nat (pos (all_ops d)) eq_refl ltac:(lia)) as F6. unfold field in F6. change (4 * 6)%nat with 24%nat in F6. rewrite F6. rewrite app_length, peek_length.
    change (length (header (zlen (classes d)) (zlen (enums d)) (total_strings d) (pos (class_ops d)) (pos (all_ops d)))) with 32%nat. lia.
  - rewrite app_length, peek_length.
    change (length (header (zlen (classes d)) (zlen (enums d)) (total_strings d) (pos (class_ops d)) (pos (all_ops d)))) with 32%nat. lia.
  - apply (FH 2%nat _ eq_refl). apply Cn.
  - apply (FH 3%nat _ eq_refl). apply Cn.
Qed.
Print Assumptions C65_file.
Example ex_file : match Save ex_db with Some f => length f = 646%nat | None => False end. Proof. vm_compute. reflexivity. Qed.

(** Load refuses exactly the files whose first four bytes are not RFDB (with 1) and those whose version
    is above 1000 (with 2); no other file with a complete header is refused. *)
Theorem C65_refuses : forall base file, (32 <= length file)%nat -> Forall (fun b => 0 <= b < 256) file ->
  (Load base file = Some (Refused 1) <-> firstn 4 file <> [82; 70; 68; 66]) /\
  (Load base file = Some (Refused 2) <-> firstn 4 file = [82; 70; 68; 66] /\ 1000 < le_value (firstn 4 (skipn 4 file))) /\
  (forall code, Load base file = Some (Refused code) -> code = 1 \/ code = 2).
Proof.
  intros base file HL HB.
  assert (E : firstn 4 file = [82; 70; 68; 66] <-> field file 0 = ID).
  { unfold field. change (4 * 0)%nat with 0%nat. cbn [skipn]. destruct file as [|a [|b [|c [|e r]]]]; try (cbn in HL; lia). cbn [firstn].
    repeat match goal with H : Forall _ (_ :: _) |- _ => inversion H; clear H; subst end.
    change ID with (82 + 256 * (70 + 256 * (68 + 256 * 66))). cbn [le_value]. split.
    - intros X. injection X as -> -> -> ->. reflexivity.
    - intros X. cbn beta in *. assert (a = 82 /\ b = 70 /\ c = 68 /\ e = 66) as (-> & -> & -> & ->) by lia. reflexivity. }
  assert (E1 : field file 1 = le_value (firstn 4 (skipn 4 file))) by reflexivity.
  unfold Load. destruct (Nat.ltb_spec (length file) 32); [lia|].
  assert (NR : forall c, (let s := field file 6 in let m := to_mem (firstn (Z.to_nat s) (skipn 32 file)) in
    m <- load_classes base s (Z.to_nat (field file 2)) 0 m ;; r <- load_enums s m (Z.to_nat (field file 3)) (field file 5) ;;
    m <- expand (ptr base) s (snd r) (field file 4) (Z.to_nat (field file 4)) 0 m ;; es <- name_enums base s m (fst r) (snd r) ;;
    Some (Loaded s m (Z.to_nat (field file 2)) es)) <> Some (Refused c)).
  { intros c. cbv zeta. destruct load_classes; [|discriminate]. destruct load_enums; [|discriminate]. destruct expand; [|discriminate]. destruct name_enums; discriminate. }
  destruct (Z.eqb_spec (field file 0) ID) as [I|I]; cbn [negb].
  - rewrite <- E1. destruct (Z.ltb_spec VERSION (field file 1)) as [V|V]; unfold VERSION in V.
    + split; [split; [discriminate|tauto]|]. split; [tauto|]. intros code X. assert (code = 2) by congruence. tauto.
    + split; [split; [intros X; now apply NR in X|tauto]|]. split; [split; [intros X; now apply NR in X|lia]|]. intros code X. now apply NR in X.
  - split; [tauto|]. split; [split; [discriminate|tauto]|]. intros code X. assert (code = 1) by congruence. tauto.
Qed.
Print Assumptions C65_refuses.
Example ex_refused : Load 4096 (repeat 0 32) = Some (Refused 1) /\ Load 4096 ([82; 70; 68; 66; 233; 3; 0; 0] ++ repeat 0 24) = Some (Refused 2) /\
  Load 4096 ([82; 70; 68; 66] ++ repeat 0 28) <> Some (Refused 2).
Proof. repeat split; vm_compute; (reflexivity || discriminate). Qed.

(** The counts in the header are believed: a file that announces more records than its buffer has room
    for makes Load reach outside of the buffer. *)
Lemma class_inside base s q m m' : load_class base s q m = Some m' -> q + 56 <= s.
Proof.
  unfold load_class. intros E.
  repeat match type of E with match ?x with Some _ => _ | None => None end = _ => destruct x eqn:?; [|discriminate] end.
  match goal with H : rd 4 s _ (q + 52) = Some _ |- _ => unfold rd, inside in H; destruct ((0 <=? q + 52) && (q + 52 + Z.of_nat 4 <=? s)) eqn:I; [lia|discriminate] end.
Qed.
Lemma classes_inside base s : forall k q m m', load_classes base s (S k) q m = Some m' -> q + 56 * Z.of_nat (S k) <= s.
Proof.
  induction k as [|k IH]; intros q m m' E; cbn [load_classes] in E; destruct (load_class base s q m) as [m1|] eqn:E1; try discriminate.
  - apply class_inside in E1. lia.
  - apply IH in E. lia.
Qed.
Theorem C65_counts_believed : forall base file r,
  Load base file = Some r -> (forall code, r <> Refused code) ->
  le_value (firstn 4 (skipn 8 file)) <= 0 \/ 56 * le_value (firstn 4 (skipn 8 file)) <= le_value (firstn 4 (skipn 24 file)).
Proof.
  intros base file r E NR. unfold Load in E. destruct (length file <? 32)%nat; [discriminate|].
  destruct (negb (field file 0 =? ID)); [assert (r = Refused 1) by congruence; now apply NR in H|].
  destruct (VERSION <? field file 1); [assert (r = Refused 2) by congruence; now apply NR in H|]. cbv zeta in E.
  destruct (load_classes base (field file 6) (Z.to_nat (field file 2)) 0 _) as [m'|] eqn:E1; [|discriminate].
  change (le_value (firstn 4 (skipn 8 file))) with (field file 2). change (le_value (firstn 4 (skipn 24 file))) with (field file 6).
  destruct (Z.to_nat (field file 2)) as [|k] eqn:K; [lia|]. apply classes_inside in E1. right. lia.
Qed.
Print Assumptions C65_counts_believed.
Example ex_believed : Load 4096 (flat_map u32b [ID; 1000; 1; 0; 0; 0; 48; 0] ++ repeat 0 48) = None.
Proof. vm_compute. reflexivity. Qed.

(** A record that does carry the offset of alias hashes has it put where the alias names belong, and the
    pointer to the alias hashes is left as it is in the file. *)
Lemma expand_out f s q n : forall k t m m', expand f s q n k t m = Some m' -> forall x, x < q + 8 * t -> m' x = m x.
Proof.
  induction k as [|k IH]; intros t m m' E x Hx; cbn [expand] in E; [congruence|].
  destruct rd as [v|]; [|discriminate]. unfold wr in E. destruct inside; [|discriminate]. rewrite (IH _ _ _ E x ltac:(lia)). apply poke8_out. lia.
Qed.
Lemma expand_descs_out base s : forall k p o m m' lim, expand_descs base s k p o m = Some m' -> lim <= p -> lim <= o -> forall x, x < lim -> m' x = m x.
Proof.
  induction k as [|k IH]; intros p o m m' lim E Hp Ho x Hx; cbn [expand_descs] in E; [congruence|].
  destruct (rd 4 s m o) as [v|]; [|discriminate].
  destruct (if negb (v =? 0) then wr 8 s m p (ptr base v) else m'0 <- wr 8 s m p 0 ;; wr 4 s m'0 o 0) as [m1|] eqn:E1; [|discriminate].
  destruct (rd 4 s m1 (o + 4)) as [z|]; [|discriminate]. unfold wr at 1 in E. destruct inside; [|discriminate].
  rewrite (IH _ _ _ _ lim E ltac:(lia) ltac:(lia) x Hx). rewrite poke8_out by lia.
  destruct (negb (v =? 0)); unfold wr in E1; destruct inside; try discriminate.
  - assert (m1 = poke m p (le_bytes 8 (ptr base v))) by congruence. subst. apply poke8_out. lia.
  - destruct inside; [|discriminate]. assert (m1 = poke (poke m p (le_bytes 8 0)) o (le_bytes 4 0)) by congruence. subst. rewrite poke4_out by lia. apply poke8_out. lia.
Qed.
Lemma wr_inv k s m a v m' : wr k s m a v = Some m' -> m' = poke m a (le_bytes k v).
Proof. unfold wr. destruct inside; [congruence|discriminate]. Qed.
Theorem C65_alias_hash_pointer_misplaced : forall base s q m m' hp,
  load_class base s q m = Some m' ->
  (forall a, a = 36 \/ a = 44 \/ a = 52 -> le_value (peek m (q + a) 4) = 0 \/ q + 56 <= le_value (peek m (q + a) 4)) ->
  le_value (peek m (q + 48) 4) = hp -> hp <> 0 ->
  peek m' (q + 32) 8 = le_bytes 8 (u64 (base + hp)) /\ peek m' (q + 40) 8 = peek m (q + 40) 8.
Proof.
  intros base s q m m' hp E HA Hh Hn. unfold load_class in E.
  assert (RD : forall mm a v, rd 4 s mm a = Some v -> v = le_value (peek mm a 4)) by (intros mm a v; unfold rd; destruct inside; [congruence|discriminate]).
  assert (PE : forall m1 m2 a k, (forall x, a <= x < a + Z.of_nat k -> m1 x = m2 x) -> peek m1 a k = peek m2 a k).
  { intros m1 m2 a k H. unfold peek. apply map_ext_in. intros i Hi. apply in_seq in Hi. apply H. lia. }
  destruct (rd 4 s m (q + 32)) as [tp|] eqn:R1; [|discriminate].
  destruct (wr 8 s m (q + 8) (ptr base tp)) as [m1|] eqn:W1; [|discriminate]. apply wr_inv in W1.
  assert (O1 : forall x, ~ (q + 8 <= x < q + 16) -> m1 x = m x) by (intros; subst m1; apply poke8_out; lia). clear W1.
  destruct (rd 4 s m1 (q + 36)) as [np|] eqn:R2; [|discriminate]. apply RD in R2.
  rewrite (PE m1 m (q + 36) 4%nat) in R2 by (intros; apply O1; lia).
  destruct (if negb (np =? 0) then m <- wr 8 s m1 (q + 16) (ptr base np) ;; n <- rd 4 s m (q + 4) ;; expand (ptr base) s np n (Z.to_nat n) 0 m else wr 8 s m1 (q + 16) 0) as [m2|] eqn:S2; [|discriminate].
  assert (O2 : forall x, x < q + 56 -> ~ (q + 16 <= x < q + 24) -> m2 x = m1 x).
  { intros x Hx Hy. destruct (Z.eqb_spec np 0) as [N0|N0]; cbn [negb] in S2; [apply wr_inv in S2; subst m2; apply poke8_out; lia|].
    destruct (wr 8 s m1 (q + 16) (ptr base np)) as [mm|] eqn:W; [|discriminate]. apply wr_inv in W. destruct (rd 4 s mm (q + 4)) as [nn|]; [|discriminate].
    rewrite (expand_out _ _ _ _ _ _ _ _ S2) by (destruct (HA 36 ltac:(lia)); lia). subst mm. apply poke8_out. lia. }
  destruct (rd 4 s m2 (q + 40)) as [cp|] eqn:R3; [|discriminate].
  destruct (wr 8 s m2 (q + 24) (ptr0 base cp)) as [m3|] eqn:W3; [|discriminate]. apply wr_inv in W3.
  assert (O3 : forall x, ~ (q + 24 <= x < q + 32) -> m3 x = m2 x) by (intros; subst m3; apply poke8_out; lia). clear W3.
  destruct (rd 4 s m3 (q + 44)) as [ap|] eqn:R4; [|discriminate]. apply RD in R4.
  rewrite (PE m3 m (q + 44) 4%nat) in R4 by (intros; rewrite O3, O2, O1 by lia; reflexivity).
  destruct (if negb (ap =? 0) then m <- wr 8 s m3 (q + 32) (ptr base ap) ;; n <- rd 4 s m (q + 4) ;; expand (ptr0 base) s ap n (Z.to_nat n) 0 m else wr 8 s m3 (q + 32) 0) as [m4|] eqn:S4; [|discriminate].
  assert (O4 : forall x, x < q + 56 -> ~ (q + 32 <= x < q + 40) -> m4 x = m3 x).
  { intros x Hx Hy. destruct (Z.eqb_spec ap 0) as [N0|N0]; cbn [negb] in S4; [apply wr_inv in S4; subst m4; apply poke8_out; lia|].
    destruct (wr 8 s m3 (q + 32) (ptr base ap)) as [mm|] eqn:W; [|discriminate]. apply wr_inv in W. destruct (rd 4 s mm (q + 4)) as [nn|]; [|discriminate].
    rewrite (expand_out _ _ _ _ _ _ _ _ S4) by (destruct (HA 44 ltac:(lia)); lia). subst mm. apply poke8_out. lia. }
  destruct (rd 4 s m4 (q + 48)) as [hp'|] eqn:R5; [|discriminate]. apply RD in R5.
  rewrite (PE m4 m (q + 48) 4%nat) in R5 by (intros; rewrite O4, O3, O2, O1 by lia; reflexivity). rewrite Hh in R5. subst hp'.
  destruct (Z.eqb_spec hp 0); [contradiction|]. cbn [negb] in E.
  destruct (wr 8 s m4 (q + 32) (ptr base hp)) as [m5|] eqn:W5; [|discriminate]. apply wr_inv in W5.
  destruct (rd 4 s m5 (q + 52)) as [dp|] eqn:R6; [|discriminate]. apply RD in R6.
  assert (O5 : forall x, ~ (q + 32 <= x < q + 40) -> m5 x = m4 x) by (intros; subst m5; apply poke8_out; lia).
  rewrite (PE m5 m (q + 52) 4%nat) in R6 by (intros; rewrite O5, O4, O3, O2, O1 by lia; reflexivity).
  assert (O6 : forall x, x < q + 48 -> m' x = m5 x).
  { intros x Hx. destruct (Z.eqb_spec dp 0) as [N0|N0]; cbn [negb] in E; [apply wr_inv in E; subst m'; apply poke8_out; lia|].
    destruct (wr 8 s m5 (q + 48) (ptr base dp)) as [mm|] eqn:W; [|discriminate]. apply wr_inv in W. destruct (rd 4 s mm (q + 4)) as [nn|]; [|discriminate].
    assert (0 <= u32 (nn * 4)) by (unfold u32, wrap; apply Z.mod_pos_bound; reflexivity).
    rewrite (expand_descs_out _ _ _ _ _ _ _ dp E) by (destruct (HA 52 ltac:(lia)); lia). subst mm. apply poke8_out. lia. }
  split.
  - rewrite (PE m' m5) by (intros; apply O6; lia). pose proof (poke8_quad m4 (q + 32) (ptr base hp)) as Q. rewrite <- W5 in Q. apply holds_peek in Q.
    rewrite le_length in Q. exact Q.
  - apply PE. intros x Hx. rewrite O6, O5, O4, O3, O2, O1 by lia. reflexivity.
Qed.
Print Assumptions C65_alias_hash_pointer_misplaced.
(** a record with one type, an alias array at 72 and hashes at 80 *)
Definition ex_record := flat_map (le_bytes 4) ([1; 1] ++ PAD_CHECK ++ [56; 0; 0; 72; 80; 0]) ++ repeat 3 16 ++ repeat 0 8 ++ [7; 0; 0; 0].
Example ex_misplaced : match load_class 4096 84 0 (to_mem ex_record) with
  | Some m => le_value (peek m 32 8) = 4176 /\ le_value (peek m 40 8) <> 0 | None => False end.
Proof. vm_compute. split; [reflexivity|discriminate]. Qed.
