(** C83: the headers of VAG, FWSE, XVAG and MSF files. *)
From Coq Require Import Strings.Ascii Strings.String Sorting.Sorted.
From Verif Require Import Base Endian_Model Endian_Spec Endian_Proof Stream_Model Dds_Model AudioHeaders_Model AudioHeaders_Spec.
Local Open Scope nat_scope.
Local Open Scope list_scope.

(** the structure of that name *)
Definition header (name : string) : list member :=
  if String.eqb name "VAG" then VAG else if String.eqb name "FWSE" then FWSE else if String.eqb name "XVAGChunk" then XVAGChunk
  else if String.eqb name "XVAGHeader" then XVAGHeader else if String.eqb name "XVAGfmat" then XVAGfmat else MSF.

Lemma align_up_spec : forall o a, 0 < a -> align_up o a mod a = 0 /\ o <= align_up o a < o + a.
Proof.
  intros o a Ha. unfold align_up. pose proof (Nat.mod_upper_bound o a ltac:(lia)). pose proof (Nat.mod_upper_bound (a - o mod a) a ltac:(lia)).
  split; [|lia]. destruct (Nat.eq_dec (o mod a) 0) as [E|E].
  - rewrite E, Nat.sub_0_r, Nat.mod_same, Nat.add_0_r by lia. exact E.
  - rewrite (Nat.mod_small (a - o mod a)) by lia. rewrite (Nat.div_mod o a) at 1 by lia.
    replace (a * (o / a) + o mod a + (a - o mod a)) with (0 + (o / a + 1) * a) by lia.
    rewrite Nat.mod_add by lia. apply Nat.mod_0_l. lia.
Qed.

Lemma place_fst : forall ms o, map fst (place o ms) = ms.
Proof. induction ms as [|m r IH]; intro o; cbn [place map fst]; [reflexivity|]. rewrite IH. reflexivity. Qed.
Lemma place_after : forall ms o, Forall (fun m => 0 < m_size m) ms -> Forall (fun p => o <= snd p) (place o ms).
Proof.
  induction ms as [|m r IH]; intros o H; cbn [place]; [constructor|]. inversion H as [|? ? Hm Hr]; subst.
  destruct (align_up_spec o (m_size m) Hm) as [_ B]. constructor; [cbn; lia|].
  eapply Forall_impl; [|apply IH; exact Hr]. intros p Hp. cbn beta in *. lia.
Qed.
Lemma place_before : forall ms o, Forall (fun m => 0 < m_size m) ms ->
  Forall (fun p => snd p + m_size (fst p) * m_count (fst p) <= end_of o ms) (place o ms) /\ o <= end_of o ms.
Proof.
  induction ms as [|m r IH]; intros o H; cbn [place end_of]; [split; [constructor | lia]|]. inversion H as [|? ? Hm Hr]; subst.
  destruct (align_up_spec o (m_size m) Hm) as [_ B].
  destruct (IH (align_up o (m_size m) + m_size m * m_count m) Hr) as [I1 I2].
  split; [|lia]. constructor; [cbn; lia | exact I1].
Qed.

Lemma alignment_divides : forall ms m, In m ms -> Forall (fun m => In (m_size m) [1; 2; 4; 8]) ms -> exists k, alignment ms = k * m_size m.
Proof.
  intros ms m Hin Hf.
  assert (A : forall ms, Forall (fun m => In (m_size m) [1; 2; 4; 8]) ms -> In (alignment ms) [1; 2; 4; 8] /\ Forall (fun m => m_size m <= alignment ms) ms).
  { induction ms0 as [|x r IH]; intro H; [split; [cbn; auto | constructor]|]. inversion H as [|? ? Hx Hr]; subst.
    destruct (IH Hr) as [I1 I2]. cbn [alignment fold_right]. fold (alignment r). split.
    - destruct (Nat.max_spec (m_size x) (alignment r)) as [[_ E]|[_ E]]; rewrite E; assumption.
    - constructor; [lia|]. eapply Forall_impl; [|exact I2]. intros y Hy. cbn beta in *. lia. }
  destruct (A ms Hf) as [A1 A2]. rewrite Forall_forall in A2, Hf. specialize (A2 m Hin). specialize (Hf m Hin). cbn beta in *.
  cbn [In] in A1, Hf. exists (alignment ms / m_size m).
  destruct A1 as [E|[E|[E|[E|[]]]]]; destruct Hf as [F|[F|[F|[F|[]]]]]; rewrite <- E, <- F in *; cbn in *; lia.
Qed.

(** Any structure of integers and arrays of them: every member is at a multiple of the size of its elements, after the end of
    those before it and with less than that size of padding; all lie in the structure, whose size allows arrays of it. *)
Theorem C83_layout : forall ms, Forall (fun m => In (m_size m) [1; 2; 4; 8]) ms ->
  map fst (place 0 ms) = ms /\
  Forall (fun p => snd p mod m_size (fst p) = 0 /\ snd p + m_size (fst p) * m_count (fst p) <= sizeof ms) (place 0 ms) /\
  (forall a p q b, place 0 ms = a ++ p :: q :: b ->
     snd p + m_size (fst p) * m_count (fst p) <= snd q < snd p + m_size (fst p) * m_count (fst p) + m_size (fst q)) /\
  ForallOrdPairs (fun p q => snd p + m_size (fst p) * m_count (fst p) <= snd q) (place 0 ms) /\
  Forall (fun m => sizeof ms mod m_size m = 0) ms.
Proof.
  intros ms Hs.
  assert (Hp : Forall (fun m => 0 < m_size m) ms).
  { eapply Forall_impl; [|exact Hs]. intros m Hm. cbn in Hm. lia. }
  assert (Hal : 0 < alignment ms).
  { clear. unfold alignment. induction ms as [|m r IH]; cbn [fold_right]; lia. }
  destruct (align_up_spec (end_of 0 ms) (alignment ms) Hal) as [Al1 Al2]. fold (sizeof ms) in Al1, Al2.
  split; [|split; [|split; [|split]]].
  - apply place_fst.
  - destruct (place_before ms 0 Hp) as [B _].
    assert (M : forall o, Forall (fun p => snd p mod m_size (fst p) = 0) (place o ms)).
    { clear -Hp. induction ms as [|m r IH]; intro o; cbn [place]; [constructor|]. inversion Hp as [|? ? Hm Hr]; subst.
      constructor; [cbn; apply align_up_spec; exact Hm | apply IH; exact Hr]. }
    specialize (M 0). rewrite Forall_forall in *. intros p Hin. specialize (B p Hin). specialize (M p Hin). cbn beta in *. lia.
  - clear -Hp. generalize 0. induction ms as [|m r IH]; intros o a p q b E; cbn [place] in E; [destruct a; discriminate E|].
    inversion Hp as [|? ? Hm Hr]; subst. destruct a as [|x a].
    + cbn [app] in E. injection E as E1 E2. subst p. cbn [fst snd]. destruct r as [|m2 r]; [discriminate E2|].
      cbn [place] in E2. injection E2 as E2 E3. subst q. cbn [fst snd]. inversion Hr as [|? ? Hm2 _]; subst. apply align_up_spec. exact Hm2.
    + cbn [app] in E. injection E as E1 E2. exact (IH Hr _ _ _ _ _ E2).
  - clear -Hp. generalize 0. induction ms as [|m r IH]; intro o; cbn [place]; [constructor|].
    inversion Hp as [|? ? Hm Hr]; subst. constructor; [|apply IH; exact Hr]. cbn [fst snd]. apply place_after. exact Hr.
  - rewrite Forall_forall. intros m Hin. destruct (alignment_divides ms m Hin Hs) as [k E].
    rewrite (Nat.div_mod (sizeof ms) (alignment ms)) by lia. rewrite Al1, E, Nat.add_0_r.
    replace (k * m_size m * (sizeof ms / (k * m_size m))) with (k * (sizeof ms / (k * m_size m)) * m_size m) by (apply Nat.mul_shuffle0).
    apply Nat.mod_mul. rewrite Forall_forall in Hp. specialize (Hp m Hin). lia.
Qed.
Print Assumptions C83_layout.

(** The headers lie as documented. *)
Theorem C83_headers : forall name entries size, In (name, entries, size) documented ->
  map (fun p => (m_name (fst p), snd p, m_size (fst p), m_count (fst p))) (place 0 (header name)) = entries /\
  sizeof (header name) = size /\
  fold_right (fun e n => snd (fst e) * snd e + n) 0 entries = size.
Proof.
  intros name entries size H. unfold documented in H. cbn [In] in H.
  destruct H as [E|[E|[E|[E|[E|[E|[]]]]]]]; injection E as <- <- <-; vm_compute; auto.
Qed.
Print Assumptions C83_headers.

Lemma find_spec : forall name l, NoDup (map (fun p => m_name (fst p)) l) -> forall m o, In (m, o) l -> m_name m = name -> find name l = Some (m, o).
Proof.
  induction l as [|[m' o'] r IH]; intros Hd m o Hin Hn; [destruct Hin|]. cbn [find]. cbn [map fst] in Hd. inversion Hd as [|? ? Hni Hdr]; subst.
  destruct Hin as [E|Hin].
  - injection E as -> ->. rewrite String.eqb_refl. reflexivity.
  - destruct (String.eqb_spec (m_name m') (m_name m)) as [E|_]; [|apply IH; auto].
    exfalso. apply Hni. rewrite E. apply (in_map (fun p => m_name (fst p)) r (m, o)). exact Hin.
Qed.

Lemma documented_find : forall name entries size f o s c, In (name, entries, size) documented -> In (f, o, s, c) entries ->
  exists m, find f (place 0 (header name)) = Some (m, o) /\ m_name m = f /\ m_size m = s /\ m_count m = c /\ o + s * c <= size /\ In s [1; 4].
Proof.
  intros name entries size f o s c H Hin.
  destruct (C83_headers name entries size H) as (E & Esz & _).
  assert (D : NoDup (map (fun p => m_name (fst p)) (place 0 (header name)))).
  { assert (Q : map (fun p => m_name (fst p)) (place 0 (header name)) = map (fun e : entry => fst (fst (fst e))) entries).
    { rewrite <- E, map_map. reflexivity. }
    rewrite Q. clear -H. unfold documented in H. cbn [In] in H.
    destruct H as [E|[E|[E|[E|[E|[E|[]]]]]]]; injection E as <- <- <-; cbn [map fst];
      repeat (constructor; [cbn [In]; intuition discriminate|]); constructor. }
  rewrite <- E in Hin. apply in_map_iff in Hin. destruct Hin as [[m o'] [X Hin]]. cbn [fst snd] in X. injection X as Xf Xo Xs Xc. subst o'.
  exists m. split; [apply find_spec; assumption|]. repeat split; auto.
  - assert (S1 : Forall (fun m => In (m_size m) [1; 4]) (header name)).
    { clear - H. unfold documented in H. cbn [In] in H.
      destruct H as [E|[E|[E|[E|[E|[E|[]]]]]]]; injection E as <- <- <-; apply Forall_forall; intros m Hm; vm_compute in Hm; repeat (destruct Hm as [<-|Hm]; [cbn; auto|]); destruct Hm. }
    assert (S2 : Forall (fun m => In (m_size m) [1; 2; 4; 8]) (header name)).
    { eapply Forall_impl; [|exact S1]. cbn. intuition. }
    destruct (C83_layout _ S2) as (_ & B & _). rewrite Forall_forall in B. specialize (B (m, o) Hin). cbn [fst snd] in B. subst s c. rewrite Esz in B. lia.
  - assert (S1 : Forall (fun m => In (m_size m) [1; 4]) (header name)).
    { clear - H. unfold documented in H. cbn [In] in H.
      destruct H as [E|[E|[E|[E|[E|[E|[]]]]]]]; injection E as <- <- <-; apply Forall_forall; intros m Hm; vm_compute in Hm; repeat (destruct Hm as [<-|Hm]; [cbn; auto|]); destruct Hm. }
    rewrite Forall_forall in S1. subst s. apply S1.
    pose proof (place_fst (header name) 0) as Em.
    rewrite <- Em. apply (in_map fst _ (m, o)). exact Hin.
Qed.

Lemma le_value_little : forall l, le_value l = little_endian l.
Proof. induction l as [|b l IH]; [reflexivity|]. cbn [le_value little_endian fold_right]. rewrite IH. reflexivity. Qed.
Lemma big_rev : forall l, big_endian (rev l) = little_endian l.
Proof. intro l. unfold big_endian, little_endian. rewrite <- (rev_involutive l) at 2. rewrite (fold_left_rev_right (fun b v => (b + 256 * v)%Z) (rev l) 0%Z).
  generalize 0%Z. induction (rev l) as [|b r IH]; intro z; [reflexivity|]. cbn [fold_left]. rewrite <- IH. f_equal. ring. Qed.


(** Reading a member of a header gives the little-endian number of the documented bytes of the file; assigning it writes
    them, so that it is read back, and leaves every other byte. *)
Theorem C83_fields : forall name entries size f o s c k bs v, In (name, entries, size) documented -> In (f, o, s, c) entries -> k < c ->
  length bs = size ->
  get (header name) f k bs = Some (little_endian (part (o + s * k) s bs)) /\
  exists bs', set (header name) f k v bs = Some bs' /\ length bs' = size /\
    get (header name) f k bs' = Some (v mod 256 ^ Z.of_nat s)%Z /\
    forall i, i < o + s * k \/ o + s * k + s <= i -> nth i bs' 0%Z = nth i bs 0%Z.
Proof.
  intros name entries size f o s c k bs v H Hin Hk Hl.
  destruct (documented_find _ _ _ _ _ _ _ H Hin) as (m & Fm & En & Es & Ec & Hfit & _).
  assert (Hr : o + s * k + s <= size) by nia.
  unfold get, set. rewrite Fm, Es, Ec. destruct (Nat.ltb_spec k c) as [_|]; [|lia].
  split; [rewrite le_value_little; reflexivity|].
  assert (L1 : length (firstn (o + s * k) bs) = o + s * k) by (rewrite firstn_length; lia).
  assert (L2 : length (le_bytes s v) = s) by apply le_bytes_length.
  eexists. split; [reflexivity|]. split; [|split].
  - rewrite !app_length, L1, L2, skipn_length. lia.
  - rewrite skipn_app, L1, Nat.sub_diag. rewrite (skipn_all2 (firstn (o + s * k) bs)) by lia. cbn [app skipn].
    rewrite firstn_app, L2, Nat.sub_diag, firstn_O, app_nil_r, (firstn_all2 (le_bytes s v)) by lia. rewrite le_value_bytes. reflexivity.
  - intros i [Hi|Hi].
    + rewrite app_nth1 by lia. rewrite <- (firstn_skipn (o + s * k) bs) at 2. rewrite app_nth1 by lia. reflexivity.
    + rewrite app_nth2, L1 by lia. rewrite app_nth2, L2 by lia.
      rewrite <- (firstn_skipn (o + s * k + s) bs) at 2. rewrite app_nth2; rewrite firstn_length, Nat.min_l by lia; [|lia]. f_equal. lia.
Qed.
Print Assumptions C83_fields.

Lemma swap_words_some : forall bs n, length bs = 4 * n -> bytes_ok bs -> exists bs', swap_words bs = Some bs' /\ length bs' = 4 * n /\
  forall i, i < n -> part (4 * i) 4 bs' = rev (part (4 * i) 4 bs).
Proof.
  intros bs n Hl Hb. unfold swap_words. rewrite Hl. replace (4 * n / 4) with n by (rewrite Nat.mul_comm, Nat.div_mul by lia; reflexivity).
  rewrite (FArraySwapper_spec 4) by (cbv; auto). cbn [option_map]. eexists. split; [reflexivity|].
  revert bs Hl Hb. induction n as [|n IH]; intros bs Hl Hb; cbn [elements map array_bytes flat_map].
  - split; [reflexivity | intros; lia].
  - destruct bs as [|a [|b [|c [|d bs]]]]; try (cbn in Hl; lia). cbn [firstn skipn].
    assert (Hl' : length bs = 4 * n) by (cbn in Hl; lia).
    assert (Hb' : bytes_ok bs /\ bytes_ok [a; b; c; d]).
    { unfold bytes_ok in *. inversion Hb as [|? ? ? Hb1]; subst. inversion Hb1 as [|? ? ? Hb2]; subst. inversion Hb2 as [|? ? ? Hb3]; subst.
      inversion Hb3 as [|? ? ? Hb4]; subst. split; [exact Hb4 | repeat (apply Forall_cons; [assumption|]); apply Forall_nil]. }
    destruct Hb' as [Hb' Hw]. destruct (IH bs Hl' Hb') as [I1 I2].
    assert (W : le_bytes 4 (byte_reverse 4 (le_value [a; b; c; d])) = [d; c; b; a]).
    { rewrite byte_reverse_bytes. change 4 with (length [a; b; c; d]) at 1. rewrite le_bytes_value by exact Hw. reflexivity. }
    change (Z.to_nat 4) with 4 in *. fold (array_bytes 4 (map (byte_reverse 4) (elements 4 n bs))). rewrite W. split.
    + cbn [app length]. rewrite I1. lia.
    + intros i Hi. destruct i as [|i]; [reflexivity|]. replace (4 * S i) with (S (S (S (S (4 * i))))) by lia.
      unfold part in *. cbn [app skipn]. apply I2. lia.
Qed.

(** A header of a big-endian file: after swapping its words every 32-bit member is the big-endian number of its bytes. *)
Theorem C83_big_endian : forall name entries size f o c k bs, In (name, entries, size) documented -> In (f, o, 4, c) entries -> k < c ->
  length bs = size -> bytes_ok bs ->
  exists bs', swap_words bs = Some bs' /\ get (header name) f k bs' = Some (big_endian (part (o + 4 * k) 4 bs)) /\
    (exists again, swap_words bs' = Some again /\ get (header name) f k again = get (header name) f k bs).
Proof.
  intros name entries size f o c k bs H Hin Hk Hl Hb.
  destruct (documented_find _ _ _ _ _ _ _ H Hin) as (m & Fm & En & Es & Ec & Hfit & _).
  assert (Q : exists n, size = 4 * n).
  { exists (size / 4). clear -H. unfold documented in H. cbn [In] in H.
    destruct H as [E|[E|[E|[E|[E|[E|[]]]]]]]; injection E as <- <- <-; vm_compute; reflexivity. }
  destruct Q as [n Hn].
  assert (Q : exists i, o = 4 * i).
  { exists (o / 4). clear -H Hin. unfold documented in H. cbn [In] in H.
    destruct H as [E|[E|[E|[E|[E|[E|[]]]]]]]; injection E as <- <- <-; cbn [In] in Hin;
      repeat (destruct Hin as [E|Hin]; [try discriminate E; injection E as <- <- <-; vm_compute; reflexivity|]);
      destruct Hin. }
  destruct Q as [i Hi]. rewrite Hn in Hl. destruct (swap_words_some bs n Hl Hb) as (bs' & S1 & L1 & P1).
  exists bs'. split; [exact S1|].
  assert (G : forall b, get (header name) f k b = Some (little_endian (part (4 * (i + k)) 4 b))).
  { intro b. unfold get. rewrite Fm, Es, Ec. destruct (Nat.ltb_spec k c) as [_|]; [|lia]. rewrite le_value_little, Hi.
    replace (4 * i + 4 * k) with (4 * (i + k)) by lia. reflexivity. }
  assert (Hik : i + k < n) by lia. split.
  - rewrite G, (P1 _ Hik). rewrite <- big_rev, rev_involutive. rewrite Hi. replace (4 * i + 4 * k) with (4 * (i + k)) by lia. reflexivity.
  - assert (Hb' : bytes_ok bs').
    { unfold swap_words in S1. destruct (FArraySwapper 4 (elements 4 (length bs / 4) bs)) as [l|]; [|discriminate S1]. injection S1 as <-.
      unfold bytes_ok, array_bytes. clear. induction l as [|x l IH]; cbn [flat_map]; [constructor|]. apply Forall_app. split; [apply le_bytes_ok | exact IH]. }
    destruct (swap_words_some bs' n L1 Hb') as (again & S2 & L2 & P2). exists again. split; [exact S2|].
    rewrite !G, (P2 _ Hik), (P1 _ Hik), rev_involutive. reflexivity.
Qed.
Print Assumptions C83_big_endian.

(** Not so for the members of single bytes: swapping the words of an XVAG header moves the second byte after the flags to the
    number of blocks, and the first to the flags. *)
Theorem C83_bytes_swapped_refuted : forall bs, length bs = 32 -> bytes_ok bs ->
  exists bs', swap_words bs = Some bs' /\ get XVAGHeader "numBlocks" 0 bs' = get XVAGHeader "unk" 1 bs /\
    get XVAGHeader "flags" 0 bs' = get XVAGHeader "unk" 0 bs.
Proof.
  intros bs Hl Hb. destruct (swap_words_some bs 8 Hl Hb) as (bs' & S1 & L1 & P1). exists bs'. split; [exact S1|].
  specialize (P1 2 ltac:(lia)). unfold part in P1. cbn [Nat.mul Nat.add] in P1.
  do 13 (destruct bs as [|? bs]; [discriminate Hl|]). do 13 (destruct bs' as [|? bs']; [discriminate L1|]).
  cbn [skipn firstn rev app] in P1. injection P1 as -> -> -> ->. split; reflexivity.
Qed.
Print Assumptions C83_bytes_swapped_refuted.

(** The signature of a header is the right one exactly if the file starts with those characters. *)
Theorem C83_signatures : forall name tag id bs,
  In (name, tag, id) [("VAG", "VAGp", VAGID); ("FWSE", "FWSE", FWSE_ID); ("XVAGChunk", "XVAG", XVAGID); ("XVAGHeader", "XVAG", XVAGID); ("XVAGfmat", "fmat", XVAGFMAT)]%string ->
  length bs = sizeof (header name) -> bytes_ok bs ->
  (get (header name) "id" 0 bs = Some id <-> firstn 4 bs = characters tag).
Proof.
  intros name tag id bs H Hl Hb.
  assert (G : get (header name) "id" 0 bs = Some (le_value (firstn 4 bs)) /\ 4 <= length bs /\
              id = le_value (characters tag) /\ length (characters tag) = 4 /\ bytes_ok (characters tag)).
  { cbn [In] in H. destruct H as [E|[E|[E|[E|[E|[]]]]]]; injection E as <- <- <-;
      (split; [reflexivity|]; split; [rewrite Hl; apply Nat.leb_le; vm_compute; reflexivity|]; split; [reflexivity|]; split; [reflexivity|];
       unfold bytes_ok, characters; cbn; repeat constructor; lia). }
  destruct G as (G & L4 & -> & L2 & B2). rewrite G. split; [|intros ->; reflexivity].
  intro E0. assert (E : le_value (firstn 4 bs) = le_value (characters tag)) by congruence.
  assert (L1 : length (firstn 4 bs) = 4) by (rewrite firstn_length; lia).
  assert (B1 : bytes_ok (firstn 4 bs)).
  { unfold bytes_ok in *. rewrite Forall_forall in *. intros x Hx. apply Hb. rewrite <- (firstn_skipn 4 bs). apply in_or_app. left. exact Hx. }
  pose proof (le_bytes_value _ B1) as V1. pose proof (le_bytes_value _ B2) as V2. rewrite L1 in V1. rewrite L2 in V2.
  etransitivity; [symmetry; exact V1|]. etransitivity; [|exact V2]. f_equal. exact E.
Qed.
Print Assumptions C83_signatures.

(** The codes of the codecs. *)
Theorem C83_codecs :
  XVAGFormat = [("PS_ADPCM", 6); ("PS_ADPCM_EX", 7); ("MPEG", 8); ("AT9", 9)]%Z%string /\
  forall n i, nth_error ["PCM16BE"; "PCM16LE"; "PCM32F"; "PSX_ADPCM"; "AT3L"; "AT3M"; "AT3H"; "LAME"]%string i = Some n <->
    In (n, Z.of_nat i) CodecType.
Proof.
  split; [reflexivity|]. intros n i. change CodecType with (combine ["PCM16BE"; "PCM16LE"; "PCM32F"; "PSX_ADPCM"; "AT3L"; "AT3M"; "AT3H"; "LAME"]%string [0; 1; 2; 3; 4; 5; 6; 7]%Z).
  split; intro E.
  - do 8 (destruct i as [|i]; [injection E as <-; cbn; tauto|]). destruct i; discriminate E.
  - cbn [combine In] in E.
    repeat (destruct E as [E|E]; [injection E as <- E; apply (f_equal Z.to_nat) in E; rewrite Nat2Z.id in E; subst i; reflexivity|]). destruct E.
Qed.
Print Assumptions C83_codecs.

Definition ex_vag : list Z := characters "VAGp" ++ [0; 0; 0; 32; 0; 0; 0; 0; 0; 0; 1; 0; 0; 0; 172; 68]%Z ++ repeat 0%Z 44.
Example ex_be : exists b, swap_words ex_vag = Some b /\ get VAG "sampleRate" 0 b = Some 44100%Z /\ get VAG "dataSize" 0 b = Some 256%Z /\
  get VAG "sampleRate" 0 ex_vag = Some 0x44AC0000%Z /\ get VAG "id" 0 ex_vag = Some VAGID /\ length ex_vag = 64.
Proof. eexists. split; [vm_compute; reflexivity|]. vm_compute. repeat split. Qed.
Example ex_pad : place 0 [Member "a" 1 1; Member "b" 4 1; Member "c" 2 3] = [(Member "a" 1 1, 0); (Member "b" 4 1, 4); (Member "c" 2 3, 8)] /\
  sizeof [Member "a" 1 1; Member "b" 4 1; Member "c" 2 3] = 16. Proof. split; reflexivity. Qed.
