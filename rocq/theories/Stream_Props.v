(** C26 typed values, C27 containers, C28 strings, C29 navigation, C30 skipping and padding.
    [Some]/[None]: the call returns / throws. *)
From Verif Require Import Base Endian_Model Endian_Spec Endian_Proof Stream_Model Stream_Spec Stream_Proof
  Stream_Nav_Proof.

(** ** C26 *)

(** Writing a value puts exactly its bytes, in the stream's byte order, at the position:
    every other byte, the origin, the saved position and the byte order are unchanged. *)
Theorem C26_write_puts_encoding : forall w sz v, usable w -> scalar_size sz -> fits sz v ->
  exists w', Write sz v w = Some w' /\
    puts (if swapEndian w then rev (le_bytes sz v) else le_bytes sz v) (st w) (st w') /\
    savePos w' = savePos w /\ localPos w' = localPos w /\ swapEndian w' = swapEndian w.
Proof.
  intros w sz v U Hs Hf. rewrite Write_eq by assumption. eexists. split; [reflexivity|].
  split; [|repeat split]. apply raw_write_puts. apply good_true. exact U.
Qed.
Print Assumptions C26_write_puts_encoding.

(** Reading back from the place of writing gives the value with the same byte order, the
    byte-reversed value with the other, and moves by the size. *)
Theorem C26_read_back : forall w w' r sz v old, usable w -> scalar_size sz -> fits sz v ->
  Write sz v w = Some w' -> reads_back w w' r ->
  Read sz old r = Some (if eqb (swapEndian r) (swapEndian w) then v else byte_reverse sz v,
                        moved r (pos (st r) + sz)).
Proof.
  intros w w' r sz v old U Hs Hf E B. rewrite Write_eq in E by assumption. injection E as <-.
  apply reads_back_at in B; [|assumption|left].
  - destruct B as [rest A]. apply (Read_eq r _ sz v rest old Hs Hf A).
  - intros Hnil. apply (f_equal (@length Z)) in Hnil. rewrite encoding_length in Hnil.
    apply scalar_pos in Hs. cbn in Hnil. lia.
Qed.
Print Assumptions C26_read_back.

(** Any record of fields of mixed sizes and byte orders written in turn is read back. *)
Theorem C26_records_read_back : forall fs w w' r garbage, usable w -> Forall field_ok fs ->
  fs <> [] -> write_fields fs w = Some w' -> reads_back w w' r ->
  exists r', read_fields fs garbage r = Some (map snd fs, r') /\ usable r' /\
             pos (st r') = pos (st w').
Proof.
  intros fs w w' r g U F Hn E B. rewrite write_fields_eq in E by assumption. injection E as <-.
  assert (B' : reads_back w (WriteBuffer (fields_bytes fs) w) r) by exact B.
  apply reads_back_at in B'; [|assumption|left].
  - destruct B' as [rest A]. destruct (read_fields_eq fs r rest g A F) as (r' & E' & [U' _] & P).
    exists r'. split; [assumption|]. split; [assumption|]. rewrite P.
    unfold SwapEndian, WriteBuffer, with_st. cbn [st].
    rewrite raw_write_good by (apply good_true; assumption). cbn [pos].
    destruct B as (_ & _ & ->). reflexivity.
  - destruct fs as [|[[b sz] v] fs]; [congruence|]. inversion F as [|? ? H1 H2]; subst.
    destruct H1 as [Hs _]. intros Hnil. apply (f_equal (@length Z)) in Hnil.
    cbn [fields_bytes flat_map] in Hnil. rewrite app_length, encoding_length in Hnil.
    apply scalar_pos in Hs. cbn in Hnil. lia.
Qed.
Print Assumptions C26_records_read_back.

(** A write to a writer that can be at its position never throws for the supported sizes;
    a value too short to read leaves the reader failed for good: nothing, not even seeking,
    moves it or changes what a later read delivers. *)
Theorem C26_short_read_fails : forall r sz old, usable r -> scalar_size sz ->
  (length (data (st r)) < pos (st r) + sz)%nat ->
  exists v r', Read sz old r = Some (v, r') /\ eof (st r') = true /\ fail (st r') = true.
Proof.
  intros r sz old [U1 U2] Hs H. unfold Read, ReadBuffer, raw_read.
  replace (good (st r)) with true by (symmetry; apply good_true; auto).
  set (got := firstn sz (skipn (pos (st r)) (data (st r)))).
  assert (L : (length got < sz)%nat).
  { unfold got. rewrite firstn_length, skipn_length. apply scalar_pos in Hs. lia. }
  apply Nat.ltb_lt in L. rewrite L.
  set (x := le_value _).
  assert (S : exists v, maybe_swap r sz x = Some v).
  { unfold maybe_swap. destruct (swapEndian r); cbn [andb]; [|eauto].
    destruct (1 <? sz)%nat eqn:E; [|eauto]. apply scalar_swap in E; [|assumption].
    rewrite FByteswapper_spec by exact E. eauto. }
  destruct S as [v ->]. eexists _, _. split; [reflexivity|]. cbn. auto.
Qed.
Print Assumptions C26_short_read_fails.

Theorem C26_failure_is_permanent : forall writer ops r, fail (st r) = true ->
  let r' := run writer ops r in
  fail (st r') = true /\ data (st r') = data (st r) /\ pos (st r') = pos (st r) /\
  (swapEndian r' = false -> forall sz v, scalar_size sz -> fits sz v ->
     exists r'', Read sz v r' = Some (v, r'')).
Proof.
  intros writer ops r H r'. destruct (run_stuck writer ops r H) as (A & B & C). fold r' in A, B, C.
  repeat split; try assumption. intros Hsw sz v Hs Hf. unfold Read, ReadBuffer, raw_read, good.
  rewrite A, andb_false_r. unfold maybe_swap. rewrite Hsw. cbn [andb].
  rewrite le_value_bytes, Z.mod_small by exact Hf. eauto.
Qed.
Print Assumptions C26_failure_is_permanent.

Definition empty_file : stream := mkStream [] 0 false false true.
Example C26_case :
  match write_fields [(true, 4%nat, 0x01020304); (false, 2%nat, 0xABCD); (true, 1%nat, 7)] (open_ empty_file) with
  | Some w =>
    data (st w) = [1; 2; 3; 4; 0xCD; 0xAB; 7] /\
    read_fields [(true, 4%nat, 0); (false, 2%nat, 0); (true, 1%nat, 0)] 99
      (open_ (mkStream (data (st w)) 0 false false false)) =
    Some ([0x01020304; 0xABCD; 7], mkNav (mkStream [1; 2; 3; 4; 0xCD; 0xAB; 7] 7 false false false) 0 0 true)
  | None => False
  end.
Proof. vm_compute. repeat split; reflexivity. Qed.

(** ** C27 *)

(** What is read back is the container cut to its length modulo the range of the count:
    the whole container exactly when the length fits the count type. *)
Theorem C27_container_read_back : forall csz sz l w w' r garbage old,
  scalar_size csz -> scalar_size sz -> Forall (fits sz) l -> usable w ->
  WriteContainerWCount csz sz l w = Some w' -> reads_back w w' r -> swapEndian r = swapEndian w ->
  let kept := Z.to_nat (Z.of_nat (length l) mod 256 ^ Z.of_nat csz) in
  ReadContainer csz sz garbage old r = Some (firstn kept l, moved r (pos (st r) + csz + sz * kept)).
Proof. exact container_round_trip. Qed.
Print Assumptions C27_container_read_back.

Theorem C27_whole_container : forall csz sz l w w' r garbage old,
  scalar_size csz -> scalar_size sz -> Forall (fits sz) l -> usable w ->
  WriteContainerWCount csz sz l w = Some w' -> reads_back w w' r -> swapEndian r = swapEndian w ->
  Z.of_nat (length l) < 256 ^ Z.of_nat csz ->
  ReadContainer csz sz garbage old r = Some (l, moved r (pos (st w'))).
Proof.
  intros csz sz l w w' r g old Hc Hs F U E B Hsw Hl.
  rewrite (container_round_trip csz sz l w w' r g old Hc Hs F U E B Hsw).
  rewrite Z.mod_small by lia. rewrite Nat2Z.id, firstn_all. do 3 f_equal.
  rewrite WriteContainerWCount_eq in E by assumption. injection E as <-.
  unfold WriteBuffer, with_st. cbn [st]. rewrite raw_write_good by (apply good_true; assumption).
  cbn [pos]. rewrite app_length, encoding_length, list_bytes_length. destruct B as (_ & _ & ->). lia.
Qed.
Print Assumptions C27_whole_container.

Theorem C27_write_always_succeeds : forall csz sz l w,
  scalar_size csz -> scalar_size sz -> Forall (fits sz) l -> usable w ->
  exists w', WriteContainerWCount csz sz l w = Some w' /\ usable w'.
Proof.
  intros. rewrite WriteContainerWCount_eq by assumption. eexists. split; [reflexivity|].
  apply WriteBuffer_usable. assumption.
Qed.
Print Assumptions C27_write_always_succeeds.

(** Without a count: reading [length l] elements restores them, byte-reversed when the
    byte orders differ. *)
Theorem C27_elements_read_back : forall sz l w w' r old,
  scalar_size sz -> Forall (fits sz) l -> usable w -> l <> [] ->
  WriteContainer sz l w = Some w' -> reads_back w w' r ->
  ReadContainerN sz (length l) old r =
    Some (map (fun v => if eqb (swapEndian r) (swapEndian w) then v else byte_reverse sz v) l,
          moved r (pos (st r) + sz * length l)).
Proof.
  intros sz l w w' r old Hs F U Hn E B. rewrite WriteContainer_eq in E by assumption. injection E as <-.
  apply reads_back_at in B; [|assumption|left].
  - destruct B as [rest A]. apply (ReadContainerN_eq r _ sz l rest old Hs F A).
  - intros Hnil. apply (f_equal (@length Z)) in Hnil. rewrite list_bytes_length in Hnil.
    apply scalar_pos in Hs. destruct l; [congruence|]. cbn in Hnil. lia.
Qed.
Print Assumptions C27_elements_read_back.

(** A stream that ends inside the elements: the container nevertheless gets all n elements.  Those
    that are completely there are read; those of which nothing is there keep the value they had in the
    container (0 for new ones), byte-reversed when the stream swaps; the reader is failed. *)
Theorem C27_short_stream : forall sz n old r, scalar_size sz -> Forall (fits sz) old -> usable r -> bytes_ok (data (st r)) ->
  let left := skipn (pos (st r)) (data (st r)) in
  (length left < sz * n)%nat ->
  exists l r', ReadContainerN sz n old r = Some (l, r') /\ eof (st r') = true /\ fail (st r') = true /\ length l = n /\
    forall i, (i < n)%nat ->
      let order v := if swapEndian r then byte_reverse sz v else v in
      ((sz * (i + 1) <= length left)%nat -> nth i l 0 = order (le_value (firstn sz (skipn (sz * i) left)))) /\
      ((length left <= sz * i)%nat -> nth i l 0 = order (nth i old 0)).
Proof.
  intros sz n old r Hs Ho U Hb left Hlen. unfold ReadContainerN. pose proof (scalar_pos sz Hs) as Hp.
  assert (SK : forall (A : Type) (P : A -> Prop) k (l : list A), Forall P l -> Forall P (skipn k l)).
  { intros A P k l F. rewrite <- (firstn_skipn k l) in F. apply Forall_app in F. apply F. }
  assert (FI : forall (A : Type) (P : A -> Prop) k (l : list A), Forall P l -> Forall P (firstn k l)).
  { intros A P k l F. rewrite <- (firstn_skipn k l) in F. apply Forall_app in F. apply F. }
  destruct n as [|n']; [lia|]. set (n := S n') in *. set (res := firstn n old ++ repeat 0 (n - length old)).
  assert (Lres : length res = n) by (unfold res; rewrite app_length, firstn_length, repeat_length; lia).
  assert (Fres : Forall (fits sz) res).
  { unfold res. apply Forall_app. split; [now apply FI|]. apply Forall_forall. intros x Hx. apply repeat_spec in Hx. subst x.
    unfold fits. split; [lia|]. apply Z.pow_pos_nonneg; lia. }
  assert (Nres : forall i, (i < n)%nat -> nth i res 0 = nth i old 0).
  { intros i Hi. unfold res. destruct (Nat.lt_ge_cases i (length old)) as [Hl|Hl].
    - rewrite app_nth1 by (rewrite firstn_length; lia). rewrite <- (firstn_skipn n old) at 2. rewrite app_nth1 by (rewrite firstn_length; lia). reflexivity.
    - rewrite app_nth2 by (rewrite firstn_length; lia). rewrite nth_repeat. symmetry. apply nth_overflow. exact Hl. }
  unfold ReadBuffer, raw_read. rewrite (proj2 (good_true (st r)) (conj (proj1 U) (proj2 U))). fold left.
  rewrite (firstn_all2 left) by lia. replace (length left <? sz * n)%nat with true by (symmetry; apply Nat.ltb_lt; exact Hlen).
  set (b := left ++ skipn (length left) (array_bytes sz res)).
  assert (Bb : bytes_ok b).
  { unfold b. apply Forall_app. split; [apply SK; exact Hb|]. apply SK. clear. induction res as [|x r IH]; [constructor|].
    cbn [array_bytes flat_map]. apply Forall_app. split; [apply le_bytes_ok|exact IH]. }
  assert (EL : forall m c, length (elements sz m c) = m) by (intros m; induction m as [|m IH]; intros c; cbn [elements length]; [reflexivity|now rewrite IH]).
  assert (EN : forall m c i, (i < m)%nat -> nth i (elements sz m c) 0 = le_value (firstn sz (skipn (sz * i) c))).
  { intros m. induction m as [|m IH]; intros c [|i] Hi; try lia; cbn [elements nth].
    - rewrite Nat.mul_0_r. reflexivity.
    - rewrite IH by lia. rewrite skipn_skipn. do 3 f_equal. lia. }
  assert (EF : forall m c, bytes_ok c -> Forall (fits sz) (elements sz m c)).
  { intros m. induction m as [|m IH]; intros c Hc; cbn [elements]; [constructor|]. constructor; [|apply IH; now apply SK].
    unfold fits. pose proof (le_value_bound (firstn sz c) (FI _ _ _ _ Hc)) as R. rewrite firstn_length in R.
    assert (256 ^ Z.of_nat (Nat.min sz (length c)) <= 256 ^ Z.of_nat sz) by (apply Z.pow_le_mono_r; lia). lia. }
  rewrite (swap_all_eq r sz _ Hs (EF n b Bb)). eexists _, _. split; [reflexivity|]. cbn [st with_st eof fail]. split; [reflexivity|]. split; [reflexivity|].
  split; [rewrite map_length; apply EL|]. intros i Hi. set (order := fun v => if swapEndian r then byte_reverse sz v else v) in *.
  assert (N : nth i (map order (elements sz n b)) 0 = order (le_value (firstn sz (skipn (sz * i) b)))).
  { rewrite (nth_indep _ 0 (order 0)) by (rewrite map_length, EL; exact Hi). rewrite map_nth, EN by exact Hi. reflexivity. }
  split; intros H; (etransitivity; [exact N|]); apply (f_equal order).
  - unfold b. rewrite skipn_app, firstn_app. rewrite skipn_length. replace (sz - (length left - sz * i))%nat with 0%nat by lia.
    rewrite firstn_O, app_nil_r. reflexivity.
  - unfold b. rewrite skipn_app, (skipn_all2 left) by lia. cbn [app]. rewrite skipn_skipn. replace (sz * i - length left + length left)%nat with (sz * i)%nat by lia.
    rewrite <- (Nres i Hi). assert (A : forall l j, Forall (fits sz) l -> (j < length l)%nat -> le_value (firstn sz (skipn (sz * j) (array_bytes sz l))) = nth j l 0).
    { intros l. induction l as [|x l IH]; intros [|j] F L; cbn [length] in L; try lia; cbn [array_bytes flat_map nth].
      - rewrite Nat.mul_0_r. cbn [skipn]. rewrite firstn_app, le_bytes_length, Nat.sub_diag, firstn_O, app_nil_r.
        rewrite firstn_all2 by (rewrite le_bytes_length; lia). rewrite le_value_bytes. apply Z.mod_small. exact (Forall_inv F).
      - rewrite skipn_app, le_bytes_length. rewrite skipn_all2 by (rewrite le_bytes_length; nia). cbn [app].
        replace (sz * S j - sz)%nat with (sz * j)%nat by nia. apply IH; [exact (Forall_inv_tail F)|lia]. }
    apply A; [exact Fres|lia].
Qed.
Print Assumptions C27_short_stream.
Example C27_short_case : option_map fst (ReadContainerN 2 4 [9; 8; 7] (open_ (mkStream [1; 0; 2] 0 false false false))) = Some [1; 2; 7; 0].
Proof. vm_compute. reflexivity. Qed.

(** Element functions supplied by the caller: if one element function reads back what the
    other writes, the container is read back too. *)
Theorem C27_lambda_read_back : forall (A : Type) (fw : A -> nav -> option nav)
    (fr : A -> nav -> option (A * nav)) (enc : bool -> A -> list Z) (ok : A -> Prop) (dflt : A),
  (forall a w, ok a -> usable w -> fw a w = Some (WriteBuffer (enc (swapEndian w) a) w)) ->
  (forall a r rest, ok a -> at_bytes r (enc (swapEndian r) a ++ rest) ->
     exists r', fr dflt r = Some (a, r') /\ at_bytes r' rest /\ swapEndian r' = swapEndian r) ->
  forall csz l w w' r g, scalar_size csz -> Forall ok l -> usable w ->
  Z.of_nat (length l) < 256 ^ Z.of_nat csz ->
  WriteContainerLambda csz fw l w = Some w' -> reads_back w w' r -> swapEndian r = swapEndian w ->
  exists r' rest, ReadContainerLambda csz fr g [] dflt r = Some (l, r') /\ at_bytes r' rest.
Proof. intros. eapply lambda_round_trip; eassumption. Qed.
Print Assumptions C27_lambda_read_back.

(** ** C28 *)

(** Characters of one byte: WriteT then ReadString gives the text appended to what the
    destination already held, and the reader stands where the writer stood. *)
Theorem C28_string_read_back : forall s w w' r tmp input,
  bytes_ok s -> ~ In 0 s -> usable w -> WriteT s w = Some w' -> reads_back w w' r ->
  ReadString (S (length s)) 1 tmp input r = Done (input ++ s) (moved r (pos (st w'))).
Proof.
  intros s w w' r tmp input Hb Hn U E B. rewrite WriteT_eq in E by assumption. injection E as <-.
  pose proof B as (_ & _ & Hp).
  assert (Hs1 : scalar_size 1) by (left; reflexivity).
  apply reads_back_at in B; [|assumption|left].
  - destruct B as [rest A]. rewrite !list_bytes_1 in A. rewrite <- (list_bytes_1 (swapEndian r)) in A.
    rewrite (ReadString_eq 1 s Hs1) with (rest := rest); try assumption; [|lia].
    do 2 f_equal. unfold WriteBuffer, with_st. cbn [st]. rewrite raw_write_good by (apply good_true; assumption).
    cbn [pos]. rewrite list_bytes_length, app_length. cbn [length]. lia.
  - intros Hnil. apply (f_equal (@length Z)) in Hnil. rewrite list_bytes_length, app_length in Hnil. cbn in Hnil. lia.
Qed.
Print Assumptions C28_string_read_back.

(** Wide characters, with the reader and the writer using the same byte order. *)
Theorem C28_wide_string_read_back : forall sz s w w' r tmp input,
  scalar_size sz -> Forall (fits sz) s -> ~ In 0 s -> usable w ->
  WriteTW sz s w = Some w' -> reads_back w w' r -> swapEndian r = swapEndian w ->
  ReadString (S (length s)) sz tmp input r = Done (input ++ s) (moved r (pos (st w'))).
Proof.
  intros sz s w w' r tmp input Hs F Hn U E B Hsw. rewrite WriteTW_eq in E by assumption. injection E as <-.
  pose proof B as (_ & _ & Hp).
  apply reads_back_at in B; [|assumption|left].
  - destruct B as [rest A]. rewrite <- Hsw in A.
    rewrite (ReadString_eq sz s Hs) with (rest := rest); try assumption; [|lia].
    do 2 f_equal. unfold WriteBuffer, with_st. cbn [st]. rewrite raw_write_good by (apply good_true; assumption).
    cbn [pos]. rewrite list_bytes_length, app_length. cbn [length]. lia.
  - intros Hnil. apply (f_equal (@length Z)) in Hnil. rewrite list_bytes_length, app_length in Hnil.
    apply scalar_pos in Hs. cbn in Hnil. lia.
Qed.
Print Assumptions C28_wide_string_read_back.

(** Text that runs to the end of the stream without a terminator is delivered whole, and
    the reader has failed. *)
Theorem C28_unterminated : forall sz s r tmp input,
  scalar_size sz -> Forall (fits sz) s -> ~ In 0 s -> usable r ->
  skipn (pos (st r)) (data (st r)) =
    flat_map (fun c => if swapEndian r then rev (le_bytes sz c) else le_bytes sz c) s ->
  exists r', ReadString (S (length s)) sz tmp input r = Done (input ++ s) r' /\
             eof (st r') = true /\ fail (st r') = true.
Proof.
  intros sz s r tmp input Hs F Hn U E. apply ReadString_unterminated; try assumption; [lia|].
  split; assumption.
Qed.
Print Assumptions C28_unterminated.

(** On a reader that failed and was then seeked (which clears end-of-file but not the
    failure) ReadString does not stop, unless the uninitialised character happens to be 0. *)
Theorem C28_failed_reader_refuted : forall sz tmp fuel input r p d, scalar_size sz -> fits sz tmp -> tmp <> 0 ->
  fail (st r) = true -> swapEndian r = false ->
  ReadString fuel sz tmp input (Seek p d r) = OutOfFuel.
Proof.
  intros sz tmp fuel input r p d Hs Hf Hn Hfail Hsw. apply ReadString_hang; try assumption.
  - unfold Seek, raw_seek. cbn [with_st st]. rewrite Hfail. reflexivity.
  - apply raw_seek_stuck. assumption.
Qed.
Print Assumptions C28_failed_reader_refuted.

Example C28_case :
  match WriteT [104; 105] (open_ empty_file) with
  | Some w =>
    ReadString 9 1 77 [33] (open_ (mkStream (data (st w) ++ [5]) 0 false false false)) =
    Done [33; 104; 105] (open_ (mkStream [104; 105; 0; 5] 3 false false false))
  | None => False
  end.
Proof. vm_compute. reflexivity. Qed.

(** ** C29 *)

(** Tell is the absolute position minus the origin (modulo 2^64) and changes nothing. *)
Theorem C29_tell : forall r, usable r ->
  Tell r = ((Z.of_nat (pos (st r)) - localPos r) mod 2 ^ 64, r).
Proof. exact Tell_eq. Qed.
Print Assumptions C29_tell.

(** Once a read went past the end, or the stream failed otherwise, none of this holds: Tell and GetSize give -1 minus the
    origin and Push -1, as unsigned 64-bit numbers, the stream fails for good and Pop does not move. *)
Theorem C29_unusable_refuted : forall r, eof (st r) = true \/ fail (st r) = true ->
  fst (Tell r) = (-1 - localPos r) mod 2 ^ 64 /\ fst (GetSize r) = (-1 - localPos r) mod 2 ^ 64 /\ fst (Push r) = 2 ^ 64 - 1 /\
  fail (st (snd (Tell r))) = true /\ fail (st (snd (GetSize r))) = true /\
  fail (st (Pop (snd (Push r)))) = true /\ pos (st (Pop (snd (Push r)))) = pos (st r).
Proof.
  intros r H.
  assert (T : forall s, eof s = true \/ fail s = true -> raw_tell s = (2 ^ 64 - 1, mkStream (data s) (pos s) (eof s) true (file_like s))).
  { intros [d p e f l] Hs. cbn [eof fail] in Hs. unfold raw_tell. cbn [eof fail data pos file_like].
    destruct f; [reflexivity|]. destruct e; [reflexivity|]. destruct Hs; discriminate. }
  assert (M : u64 (2 ^ 64 - 1 - localPos r) = (-1 - localPos r) mod 2 ^ 64).
  { unfold u64, wrap. replace (2 ^ 64 - 1 - localPos r) with (-1 - localPos r + 1 * 2 ^ 64) by lia. apply Z.mod_add. lia. }
  assert (T1 := T (st r) H).
  assert (ET : Tell r = ((-1 - localPos r) mod 2 ^ 64, with_st r (mkStream (data (st r)) (pos (st r)) (eof (st r)) true (file_like (st r))))).
  { unfold Tell. rewrite T1, M. reflexivity. }
  assert (EP : Push r = (2 ^ 64 - 1, mkNav (mkStream (data (st r)) (pos (st r)) (eof (st r)) true (file_like (st r))) (2 ^ 64 - 1) (localPos r) (swapEndian r))).
  { unfold Push. rewrite T1. reflexivity. }
  assert (EG : exists x, GetSize r = ((-1 - localPos r) mod 2 ^ 64, x) /\ fail (st x) = true).
  { unfold GetSize. rewrite ET. unfold Seek, raw_seek, Tell, with_st. cbn [st fail data pos file_like localPos].
    unfold raw_tell. cbn [fail]. rewrite M. eexists. split; reflexivity. }
  destruct EG as (x & EG & Fx). rewrite EG, ET, EP. cbn [fst snd].
  split; [reflexivity|]. split; [reflexivity|]. split; [reflexivity|]. split; [reflexivity|]. split; [exact Fx|].
  unfold Pop, raw_seek, with_st. cbn [st fail savePos pos]. split; reflexivity.
Qed.
Print Assumptions C29_unusable_refuted.

Theorem C29_seek_tell_identity : forall r, usable r -> placed r -> Seek (fst (Tell r)) Beg r = r.
Proof. exact Seek_Tell. Qed.
Print Assumptions C29_seek_tell_identity.

(** Seek(p) goes to origin + p, and Tell then says p. *)
Theorem C29_seek_then_tell : forall r p, usable r -> 0 <= p -> 0 <= localPos r -> p + localPos r < 2 ^ 63 ->
  file_like (st r) = true \/ p + localPos r <= Z.of_nat (length (data (st r))) ->
  Seek p Beg r = moved r (Z.to_nat (p + localPos r)) /\ fst (Tell (Seek p Beg r)) = p.
Proof.
  intros r p U Hp Ho H V.
  assert (E : u64 (p + localPos r) = Z.of_nat (Z.to_nat (p + localPos r))).
  { rewrite Z2Nat.id by lia. apply wrap_small. lia. }
  split.
  - apply Seek_eq; try assumption; [lia|]. destruct V as [V|V]; [left; assumption|right; lia].
  - apply (Seek_then_Tell r p (Z.to_nat (p + localPos r))); try assumption; try lia.
    destruct V as [V|V]; [left; assumption|right; lia].
Qed.
Print Assumptions C29_seek_then_tell.

(** Setting the origin makes that place position 0. *)
Theorem C29_set_origin : forall r o, usable r -> 0 <= o < 2 ^ 63 ->
  file_like (st r) = true \/ o <= Z.of_nat (length (data (st r))) ->
  let r' := SetRelativeOrigin o true r in
  pos (st r') = Z.to_nat o /\ fst (Tell r') = 0 /\ usable r' /\ data (st r') = data (st r).
Proof.
  intros r o U Ho V. set (r1 := mkNav (st r) (savePos r) o (swapEndian r)).
  assert (E : SetRelativeOrigin o true r = moved r1 (Z.to_nat o)).
  { unfold SetRelativeOrigin. cbv zeta. apply Seek_eq.
    - exact U.
    - cbn [Z.add localPos]. rewrite Z2Nat.id by lia. apply wrap_small. lia.
    - lia.
    - destruct V as [V|V]; [left; exact V|right]. apply Nat2Z.inj_le. rewrite Z2Nat.id by lia. exact V. }
  cbv zeta. rewrite E. rewrite Tell_eq by (unfold usable, moved; cbn; auto).
  cbn. repeat split. rewrite Z2Nat.id by lia. rewrite Z.sub_diag. reflexivity.
Qed.
Print Assumptions C29_set_origin.

(** After Push, any history of reads, writes, seeks, origin changes, ... that leaves the
    stream usable (and contains no further Push), Pop goes back to the absolute position. *)
Theorem C29_push_pop : forall writer ops r, usable r -> placed r ->
  let r' := run writer ops (snd (Push r)) in
  fail (st r') = false ->
  fst (Push r) = Z.of_nat (pos (st r)) /\ Pop r' = moved r' (pos (st r)).
Proof. exact Push_Pop. Qed.
Print Assumptions C29_push_pop.

(** There is one slot: an inner Push makes the outer Pop return to the inner place. *)
Theorem C29_nested_push_refuted : exists r, usable r /\
  let r1 := Seek 3 Beg (snd (Push r)) in
  let r2 := Pop (Seek 5 Beg (snd (Push r1))) in
  pos (st (Pop r2)) <> pos (st r).
Proof. exists (open_ (mkStream [1; 2; 3; 4; 5; 6] 0 false false false)). vm_compute. split; [auto|discriminate]. Qed.
Print Assumptions C29_nested_push_refuted.

(** GetSize changes nothing and returns the size counted from the origin. *)
Theorem C29_get_size : forall r, usable r -> placed r -> Z.of_nat (length (data (st r))) < 2 ^ 63 ->
  GetSize r = ((Z.of_nat (length (data (st r))) - localPos r) mod 2 ^ 64, r).
Proof. exact GetSize_eq. Qed.
Print Assumptions C29_get_size.

Example C29_case :
  let r := SetRelativeOrigin 4 true (open_ (mkStream [1;2;3;4;5;6;7;8] 0 false false false)) in
  fst (Tell (Seek 2 Beg r)) = 2 /\ pos (st (Seek 2 Beg r)) = 6%nat /\ fst (GetSize r) = 4 /\
  pos (st (Pop (run false [OSeek 0 End_; OOrigin 0 true; OSkip 3; OBuffer [9;9]] (snd (Push r))))) = 4%nat.
Proof. vm_compute. repeat split; reflexivity. Qed.

(** ** C30 *)

(** A positive Skip of a writer puts exactly that many zero bytes. *)
Theorem C30_writer_skip : forall w n, usable w -> 0 < n ->
  puts (repeat 0 (Z.to_nat n)) (st w) (st (WriterSkip n w)).
Proof.
  intros w n U H. rewrite WriterSkip_pos by assumption. apply raw_write_puts. apply good_true. exact U.
Qed.
Print Assumptions C30_writer_skip.

(** Zero or negative amounts only move; moving before the start fails. *)
Theorem C30_skip_backwards : forall (writer : bool) n r, usable r -> placed r -> -2 ^ 31 <= n <= 0 ->
  (writer = false -> n < 0) ->
  let r' := (if writer then WriterSkip else ReaderSkip) n r in
  if 0 <=? Z.of_nat (pos (st r)) + n then r' = moved r (Z.to_nat (Z.of_nat (pos (st r)) + n))
  else fail (st r') = true.
Proof.
  intros writer n r U P Hn Hw r'. destruct (Z.leb_spec 0 (Z.of_nat (pos (st r)) + n)).
  - apply Skip_back; try assumption; lia.
  - apply Skip_back_fails; try assumption; lia.
Qed.
Print Assumptions C30_skip_backwards.

Theorem C30_reader_skip : forall n r, usable r -> 0 <= n < 2 ^ 31 -> Z.of_nat (pos (st r)) + n < 2 ^ 63 ->
  (file_like (st r) = true \/ (pos (st r) + Z.to_nat n <= length (data (st r)))%nat) ->
  ReaderSkip n r = moved r (pos (st r) + Z.to_nat n).
Proof. exact ReaderSkip_pos. Qed.
Print Assumptions C30_reader_skip.

(** Padding to a power of two: the writer puts the least number of zeros, and the reader
    moves by the least amount, that brings the relative position to a multiple. *)
Theorem C30_padding : forall k r, usable r -> 0 <= k <= 30 ->
  exists n, 0 <= n < 2 ^ k /\
    (Z.of_nat (pos (st r)) + n - localPos r) mod 2 ^ k = 0 /\
    (forall m, 0 <= m -> (Z.of_nat (pos (st r)) + m - localPos r) mod 2 ^ k = 0 -> n <= m) /\
    puts (repeat 0 (Z.to_nat n)) (st r) (st (ApplyPadding WriterSkip (2 ^ k) r)) /\
    (Z.of_nat (pos (st r)) + n < 2 ^ 63 ->
     file_like (st r) = true \/ (pos (st r) + Z.to_nat n <= length (data (st r)))%nat ->
     ApplyPadding ReaderSkip (2 ^ k) r = moved r (pos (st r) + Z.to_nat n)).
Proof.
  intros k r U Hk. pose proof (pow2_pos k ltac:(lia)) as H0.
  pose proof (Z.pow_le_mono_r 2 k 30 ltac:(lia) ltac:(lia)) as Hk30.
  exists (padding_of r (2 ^ k)). rewrite !ApplyPadding_eq by assumption.
  assert (Bn : 0 <= padding_of r (2 ^ k) < 2 ^ k) by (apply Z.mod_pos_bound; assumption).
  assert (Mul : (Z.of_nat (pos (st r)) + padding_of r (2 ^ k) - localPos r) mod 2 ^ k = 0).
  { unfold padding_of. set (d := Z.of_nat (pos (st r)) - localPos r).
    replace (_ + _ - _) with (d + (- d) mod 2 ^ k) by (unfold d; lia).
    rewrite Zplus_mod_idemp_r. rewrite Z.add_opp_diag_r. reflexivity. }
  split; [assumption|]. split; [assumption|]. split; [|split].
  - intros m Hm E. destruct (Z.le_gt_cases (padding_of r (2 ^ k)) m) as [|Hlt]; [assumption|exfalso].
    set (n := padding_of r (2 ^ k)) in *. clearbody n.
    assert (D : (n - m) mod 2 ^ k = 0).
    { replace (n - m) with ((Z.of_nat (pos (st r)) + n - localPos r) - (Z.of_nat (pos (st r)) + m - localPos r)) by lia.
      rewrite Zminus_mod, Mul, E. reflexivity. }
    rewrite Z.mod_small in D by lia. lia.
  - destruct (Z.eqb_spec (padding_of r (2 ^ k)) 0) as [E|E].
    + rewrite E. cbn [Z.to_nat repeat]. destruct U as [U1 U2].
      pose proof (raw_write_puts [] (st r)) as P. rewrite raw_write_good in P by (apply good_true; auto).
      specialize (P ltac:(apply good_true; auto)). cbn [overwrite length] in P. rewrite Nat.add_0_r in P.
      destruct (st r) as [d p e f fl]. cbn in *. subst. exact P.
    + rewrite WriterSkip_pos by (try assumption; lia). apply raw_write_puts. apply good_true. exact U.
  - intros Hp V. destruct (Z.eqb_spec (padding_of r (2 ^ k)) 0) as [E|E].
    + rewrite E. cbn [Z.to_nat]. rewrite Nat.add_0_r. symmetry. apply moved_self. assumption.
    + apply ReaderSkip_pos; try assumption. lia.
Qed.
Print Assumptions C30_padding.

(** Skipping over data that is already there erases it (a reader's Skip would keep it). *)
Theorem C30_skip_erases : exists w, usable w /\ data (st (WriterSkip 2 w)) <> data (st w).
Proof. exists (open_ (mkStream [1; 2; 3] 0 false false true)). vm_compute. split; [auto|discriminate]. Qed.
Print Assumptions C30_skip_erases.

Example C30_case :
  let w := SetRelativeOrigin 3 true (open_ (mkStream [1; 2; 3] 3 false false true)) in
  data (st (ApplyPadding WriterSkip 8 (WriteBuffer [9] w))) = [1; 2; 3; 9; 0; 0; 0; 0; 0; 0; 0] /\
  pos (st (ApplyPadding ReaderSkip 4 (open_ (mkStream [1;2;3;4;5] 1 false false false)))) = 4%nat /\
  length (data (st (WriterSkip 100 w))) = 103%nat.
Proof. vm_compute. repeat split; reflexivity. Qed.

(** 300 bytes with a one-byte count: 44 come back; a vector of vectors through lambdas. *)
Example C27_case :
  match WriteContainerWCount 1 1 (repeat 7 300) (open_ empty_file) with
  | Some w => option_map fst (ReadContainer 1 1 0 [] (open_ (mkStream (data (st w)) 0 false false false)))
              = Some (repeat 7 44)
  | None => False
  end /\
  match WriteContainerLambda 4 (WriteContainerWCount 2 4) [[1; 2]; []; [0xAABBCCDD]] (SwapEndian true (open_ empty_file)) with
  | Some w => option_map fst (ReadContainerLambda 4 (ReadContainer 2 4 0) 0 [] []
                (SwapEndian true (open_ (mkStream (data (st w)) 0 false false false))))
              = Some [[1; 2]; []; [0xAABBCCDD]]
  | None => False
  end.
Proof. vm_compute. split; reflexivity. Qed.
