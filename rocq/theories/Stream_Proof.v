From Verif Require Import Base Endian_Model Endian_Spec Endian_Proof Stream_Model Stream_Spec.

Arguments overwrite : simpl never.

Lemma good_true s : good s = true <-> eof s = false /\ fail s = false.
Proof. unfold good. destruct (eof s), (fail s); cbn; intuition congruence. Qed.

(** ** overwriting *)
Lemma overwrite_eq l p bs : (bs <> [] \/ (p <= length l)%nat) ->
  overwrite l p bs = firstn p l ++ repeat 0 (p - length l) ++ bs ++ skipn (p + length bs) l.
Proof.
  intros H. destruct bs as [|b bs]; [|reflexivity]. unfold overwrite.
  destruct H as [H|H]; [congruence|]. replace (p - length l)%nat with 0%nat by lia.
  cbn. rewrite Nat.add_0_r. symmetry. apply firstn_skipn.
Qed.

Lemma overwrite_length l p bs : bs <> [] ->
  length (overwrite l p bs) = Nat.max (length l) (p + length bs).
Proof.
  intros H. rewrite overwrite_eq by auto.
  rewrite !app_length, firstn_length, repeat_length, skipn_length. lia.
Qed.

Lemma overwrite_in l p bs i : (i < length bs)%nat ->
  nth_error (overwrite l p bs) (p + i) = nth_error bs i.
Proof.
  intros H. assert (bs <> []) by (intros ->; cbn in H; lia).
  rewrite overwrite_eq by auto. rewrite app_assoc.
  assert (L : length (firstn p l ++ repeat 0 (p - length l)) = p)
    by (rewrite app_length, firstn_length, repeat_length; lia).
  rewrite nth_error_app2 by lia. rewrite L. replace (p + i - p)%nat with i by lia.
  apply nth_error_app1. assumption.
Qed.

Lemma overwrite_low l p bs i : (i < length l)%nat -> (i < p)%nat ->
  nth_error (overwrite l p bs) i = nth_error l i.
Proof.
  intros H Hp. destruct bs as [|b bs]; [reflexivity|].
  rewrite overwrite_eq by (left; discriminate).
  rewrite nth_error_app1 by (rewrite firstn_length; lia).
  rewrite <- (firstn_skipn p l) at 2. rewrite nth_error_app1; [reflexivity|rewrite firstn_length; lia].
Qed.

Lemma overwrite_gap l p bs i : bs <> [] -> (length l <= i < p)%nat ->
  nth_error (overwrite l p bs) i = Some 0.
Proof.
  intros Hb H. rewrite overwrite_eq by auto.
  rewrite nth_error_app2 by (rewrite firstn_length; lia). rewrite firstn_length.
  rewrite nth_error_app1 by (rewrite repeat_length; lia).
  rewrite nth_error_repeat by lia. reflexivity.
Qed.

Lemma overwrite_high l p bs i : (p + length bs <= i)%nat ->
  nth_error (overwrite l p bs) i = nth_error l i.
Proof.
  intros H. destruct bs as [|b bs]; [reflexivity|].
  rewrite overwrite_eq by (left; discriminate). rewrite !app_assoc.
  assert (L : length ((firstn p l ++ repeat 0 (p - length l)) ++ b :: bs) = (p + length (b :: bs))%nat)
    by (rewrite !app_length, firstn_length, repeat_length; lia).
  rewrite nth_error_app2 by lia. rewrite L, nth_error_skipn. f_equal. lia.
Qed.

Lemma overwrite_skipn l p bs : bs <> [] \/ (p <= length l)%nat ->
  skipn p (overwrite l p bs) = bs ++ skipn (p + length bs) l.
Proof.
  intros H. rewrite overwrite_eq by assumption. rewrite app_assoc.
  assert (L : length (firstn p l ++ repeat 0 (p - length l)) = p)
    by (rewrite app_length, firstn_length, repeat_length; lia).
  rewrite <- L at 1. apply skipn_app_exact.
Qed.

Lemma overwrite_app l p a b : overwrite (overwrite l p a) (p + length a) b = overwrite l p (a ++ b).
Proof.
  destruct a as [|x a]; [cbn [length app]; rewrite Nat.add_0_r; reflexivity|].
  destruct b as [|y b]; [rewrite app_nil_r; reflexivity|].
  set (A := x :: a). set (B := y :: b).
  assert (HA : A <> []) by discriminate. assert (HB : B <> []) by discriminate.
  assert (HAB : A ++ B <> []) by discriminate.
  clearbody A B.
  apply list_ext. intros i.
  destruct (Nat.lt_ge_cases i (length l)) as [Hl|Hl]; destruct (Nat.lt_ge_cases i p) as [Hp|Hp].
  - rewrite (overwrite_low l p (A ++ B)) by lia.
    rewrite overwrite_low; [apply overwrite_low; lia| |lia].
    rewrite overwrite_length by assumption. lia.
  - destruct (Nat.lt_ge_cases i (p + length A)) as [Ha|Ha].
    + rewrite overwrite_low; [|rewrite overwrite_length by assumption; lia|lia].
      replace i with (p + (i - p))%nat by lia. rewrite !overwrite_in by (rewrite ?app_length; lia).
      symmetry. apply nth_error_app1. lia.
    + destruct (Nat.lt_ge_cases i (p + length A + length B)) as [Hb|Hb].
      * replace i with ((p + length A) + (i - p - length A))%nat at 1 by lia.
        rewrite overwrite_in by lia.
        replace i with (p + (i - p))%nat at 2 by lia.
        rewrite overwrite_in by (rewrite app_length; lia).
        rewrite nth_error_app2 by lia. reflexivity.
      * rewrite !overwrite_high by (rewrite ?app_length; lia). reflexivity.
  - rewrite (overwrite_gap l p (A ++ B)) by (assumption || lia).
    rewrite overwrite_low; [apply overwrite_gap; [assumption|lia]| |lia].
    rewrite overwrite_length by assumption. lia.
  - destruct (Nat.lt_ge_cases i (p + length A)) as [Ha|Ha].
    + rewrite overwrite_low; [|rewrite overwrite_length by assumption; lia|lia].
      replace i with (p + (i - p))%nat by lia. rewrite !overwrite_in by (rewrite ?app_length; lia).
      symmetry. apply nth_error_app1. lia.
    + destruct (Nat.lt_ge_cases i (p + length A + length B)) as [Hb|Hb].
      * replace i with ((p + length A) + (i - p - length A))%nat at 1 by lia.
        rewrite overwrite_in by lia.
        replace i with (p + (i - p))%nat at 2 by lia.
        rewrite overwrite_in by (rewrite app_length; lia).
        rewrite nth_error_app2 by lia. reflexivity.
      * rewrite !overwrite_high by (rewrite ?app_length; lia). reflexivity.
Qed.

Lemma overwrite_nil l p : overwrite l p [] = l.
Proof. reflexivity. Qed.

(** ** raw writes *)
Lemma raw_write_good bs s : good s = true ->
  raw_write bs s = mkStream (overwrite (data s) (pos s) bs) (pos s + length bs) false false (file_like s).
Proof. intros H. unfold raw_write. rewrite H. reflexivity. Qed.

Lemma raw_write_app a b s : good s = true -> raw_write b (raw_write a s) = raw_write (a ++ b) s.
Proof.
  intros H. rewrite !(raw_write_good _ s) by assumption. rewrite raw_write_good by reflexivity.
  cbn [data pos file_like]. rewrite overwrite_app, app_length. f_equal. lia.
Qed.

Lemma raw_write_puts bs s : good s = true -> puts bs s (raw_write bs s).
Proof.
  intros H. rewrite raw_write_good by assumption. unfold puts. cbn [data pos eof fail file_like].
  repeat split.
  - intros Hb. apply overwrite_length. assumption.
  - intros ->. reflexivity.
  - intros i Hi. apply overwrite_in. assumption.
  - intros i Hi [Hp|Hp]; [apply overwrite_low; assumption|apply overwrite_high; assumption].
  - intros Hb i Hi. apply overwrite_gap; assumption.
Qed.

Lemma WriteBuffer_app a b w : usable w -> WriteBuffer b (WriteBuffer a w) = WriteBuffer (a ++ b) w.
Proof.
  intros U. apply good_true in U. unfold WriteBuffer, with_st. cbn [st savePos localPos swapEndian].
  rewrite raw_write_app by assumption. reflexivity.
Qed.

Lemma WriteBuffer_usable a w : usable w -> usable (WriteBuffer a w).
Proof.
  intros U. apply good_true in U. unfold WriteBuffer, usable, with_st. cbn [st].
  rewrite raw_write_good by assumption. cbn. auto.
Qed.

(** ** encodings *)
Lemma scalar_swap sz : scalar_size sz -> (1 <? sz)%nat = true ->
  Z.of_nat sz = 2 \/ Z.of_nat sz = 4 \/ Z.of_nat sz = 8.
Proof. unfold scalar_size. intros [->|[->|[->| ->]]]; cbn; intros; auto; discriminate. Qed.

Lemma rev_le_bytes_1 v : rev (le_bytes 1 v) = le_bytes 1 v.
Proof. reflexivity. Qed.

Lemma maybe_swap_eq r sz v : scalar_size sz -> fits sz v ->
  exists v', maybe_swap r sz v = Some v' /\ fits sz v' /\
             le_bytes sz v' = encoding (swapEndian r) sz v /\
             v' = (if swapEndian r then byte_reverse sz v else v).
Proof.
  intros Hs Hf. unfold maybe_swap, encoding. destruct (swapEndian r); cbn [andb].
  - destruct (1 <? sz)%nat eqn:E.
    + pose proof (scalar_swap sz Hs E) as H. rewrite FByteswapper_spec by exact H.
      rewrite Nat2Z.id. eexists; split; [reflexivity|].
      split; [apply byte_reverse_range|]. split; [apply byte_reverse_bytes|reflexivity].
    + assert (sz = 1%nat) as -> by (apply Nat.ltb_ge in E; destruct Hs as [?|[?|[?|?]]]; lia).
      exists v. split; [reflexivity|]. split; [assumption|]. split; [reflexivity|].
      unfold byte_reverse. rewrite rev_le_bytes_1, le_value_bytes. symmetry. apply Z.mod_small. exact Hf.
  - exists v. auto.
Qed.

Lemma Write_eq sz v w : scalar_size sz -> fits sz v ->
  Write sz v w = Some (WriteBuffer (encoding (swapEndian w) sz v) w).
Proof.
  intros Hs Hf. unfold Write. destruct (maybe_swap_eq w sz v Hs Hf) as (v' & -> & _ & -> & _). reflexivity.
Qed.

Lemma encoding_length b sz v : length (encoding b sz v) = sz.
Proof. unfold encoding. destruct b; rewrite ?rev_length, le_bytes_length; reflexivity. Qed.

Lemma encoding_ok b sz v : bytes_ok (encoding b sz v).
Proof. unfold encoding. destruct b; [apply Forall_rev|]; apply le_bytes_ok. Qed.

(** ** reading *)

Lemma ReadBuffer_eq r bs rest old n : at_bytes r (bs ++ rest) -> n = length bs -> length old = n ->
  ReadBuffer n old r = (bs, moved r (pos (st r) + n)) /\
  at_bytes (moved r (pos (st r) + n)) rest.
Proof.
  intros [U E] -> Ho. assert (G : good (st r) = true) by (apply good_true; assumption).
  unfold ReadBuffer, raw_read. rewrite G, E, firstn_app_exact, Nat.ltb_irrefl.
  rewrite <- Ho at 1. rewrite skipn_all, app_nil_r. split; [reflexivity|].
  unfold at_bytes, usable, moved. cbn [st data pos eof fail].
  split; [auto|]. rewrite Nat.add_comm, <- skipn_skipn, E. apply skipn_app_exact.
Qed.

Lemma le_value_encoding b sz v : fits sz v ->
  le_value (encoding b sz v) = if b then byte_reverse sz v else v.
Proof.
  intros Hf. unfold encoding. destruct b; [reflexivity|].
  rewrite le_value_bytes. apply Z.mod_small. exact Hf.
Qed.

Lemma Read_eq r b sz v rest old : scalar_size sz -> fits sz v -> at_bytes r (encoding b sz v ++ rest) ->
  Read sz old r = Some (if eqb (swapEndian r) b then v else byte_reverse sz v, moved r (pos (st r) + sz)) /\
  at_bytes (moved r (pos (st r) + sz)) rest.
Proof.
  intros Hs Hf A. unfold Read.
  destruct (ReadBuffer_eq r _ _ (le_bytes sz old) sz A) as [E A'];
    [rewrite encoding_length; reflexivity|apply le_bytes_length|].
  rewrite E. split; [|assumption].
  rewrite le_value_encoding by assumption.
  assert (F : fits sz (if b then byte_reverse sz v else v))
    by (destruct b; [apply byte_reverse_range|assumption]).
  destruct (maybe_swap_eq r sz _ Hs F) as (v' & -> & _ & _ & ->).
  do 2 f_equal. destruct b, (swapEndian r); cbn [eqb]; try reflexivity.
  apply byte_reverse_invol. exact Hf.
Qed.

Lemma Read_same r sz v rest old : scalar_size sz -> fits sz v ->
  at_bytes r (encoding (swapEndian r) sz v ++ rest) ->
  Read sz old r = Some (v, moved r (pos (st r) + sz)) /\ at_bytes (moved r (pos (st r) + sz)) rest.
Proof.
  intros Hs Hf A. destruct (Read_eq r _ sz v rest old Hs Hf A) as [E A'].
  rewrite eqb_reflx in E. auto.
Qed.

(** Connecting a reader with what a writer put. *)
Lemma reads_back_at w bs r : usable w -> reads_back w (WriteBuffer bs w) r ->
  bs <> [] \/ (pos (st w) <= length (data (st w)))%nat ->
  exists rest, at_bytes r (bs ++ rest).
Proof.
  intros U (Ur & Hd & Hp) Hb. exists (skipn (pos (st w) + length bs) (data (st w))).
  split; [assumption|]. rewrite Hp, Hd. unfold WriteBuffer, with_st. cbn [st].
  rewrite raw_write_good by (apply good_true; assumption). cbn [data].
  apply overwrite_skipn. assumption.
Qed.

(** ** sequences *)
Definition fields_bytes (fs : list field) : list Z :=
  flat_map (fun f => let '(b, sz, v) := f in encoding b sz v) fs.

Definition last_swap (fs : list field) (d : bool) : bool :=
  fold_left (fun _ f => fst (fst f)) fs d.

Lemma write_fields_eq fs : forall w, usable w -> Forall field_ok fs ->
  write_fields fs w = Some (SwapEndian (last_swap fs (swapEndian w)) (WriteBuffer (fields_bytes fs) w)).
Proof.
  induction fs as [|[[b sz] v] fs IH]; intros w U F.
  - cbn. unfold WriteBuffer, raw_write. replace (good (st w)) with true by (symmetry; apply good_true; assumption).
    destruct w as [s sp lp sw]. cbn. unfold with_st, SwapEndian. cbn. destruct s. cbn.
    destruct U as [E1 E2]. cbn in E1, E2. subst. rewrite Nat.add_0_r. reflexivity.
  - inversion F as [|? ? HsHf F']; subst; destruct HsHf as [Hs Hf]. cbn [write_fields].
    rewrite Write_eq by assumption. cbn [SwapEndian swapEndian].
    rewrite IH; [|apply WriteBuffer_usable; exact U|assumption].
    cbn [fields_bytes flat_map last_swap fold_left fst]. f_equal.
    rewrite <- WriteBuffer_app by assumption. unfold SwapEndian, WriteBuffer, with_st. cbn. reflexivity.
Qed.

Lemma read_fields_eq fs : forall r rest g, at_bytes r (fields_bytes fs ++ rest) -> Forall field_ok fs ->
  exists r', read_fields fs g r = Some (map snd fs, r') /\ at_bytes r' rest /\
             pos (st r') = (pos (st r) + length (fields_bytes fs))%nat.
Proof.
  induction fs as [|[[b sz] v] fs IH]; intros r rest g A F.
  - exists r. cbn. auto.
  - inversion F as [|? ? HsHf F']; subst; destruct HsHf as [Hs Hf]. cbn [read_fields fields_bytes flat_map] in *.
    rewrite <- app_assoc in A.
    destruct (Read_same (SwapEndian b r) sz v (fields_bytes fs ++ rest) g Hs Hf A) as [-> A'].
    destruct (IH _ rest g A' F') as (r' & -> & A'' & P).
    exists r'. split; [reflexivity|]. split; [assumption|].
    rewrite P. unfold moved, SwapEndian. cbn [st pos]. rewrite app_length, encoding_length.
    unfold fields_bytes. lia.
Qed.

(** ** containers *)
Definition list_bytes (b : bool) (sz : nat) (l : list Z) : list Z := flat_map (encoding b sz) l.

Lemma list_bytes_length b sz l : length (list_bytes b sz l) = (sz * length l)%nat.
Proof.
  unfold list_bytes. induction l as [|v l IH]; cbn [flat_map length]; [lia|].
  rewrite app_length, encoding_length, IH. lia.
Qed.

Lemma array_bytes_length sz l : length (array_bytes sz l) = (sz * length l)%nat.
Proof. apply (list_bytes_length false). Qed.

Lemma write_each_eq sz l : scalar_size sz -> Forall (fits sz) l -> forall w, usable w ->
  write_each sz l w = Some (WriteBuffer (list_bytes (swapEndian w) sz l) w).
Proof.
  intros Hs F. induction F as [|v l Hv F IH]; intros w U; cbn [write_each list_bytes flat_map].
  - unfold WriteBuffer, raw_write. replace (good (st w)) with true by (symmetry; apply good_true; assumption).
    destruct w as [[d p e f fl] sp lp sw]. destruct U as [E1 E2]. cbn in *. subst.
    unfold with_st. cbn. rewrite Nat.add_0_r. reflexivity.
  - rewrite Write_eq by assumption. rewrite IH by (apply WriteBuffer_usable; assumption).
    f_equal. change (swapEndian (WriteBuffer _ w)) with (swapEndian w).
    apply WriteBuffer_app. assumption.
Qed.

Lemma WriteContainer_eq sz l w : scalar_size sz -> Forall (fits sz) l -> usable w ->
  WriteContainer sz l w = Some (WriteBuffer (list_bytes (swapEndian w) sz l) w).
Proof.
  intros Hs F U. unfold WriteContainer. destruct (swapEndian w) eqn:Esw; cbn [andb].
  - destruct (1 <? sz)%nat eqn:E.
    + rewrite write_each_eq by assumption. rewrite Esw. reflexivity.
    + assert (sz = 1%nat) as -> by (apply Nat.ltb_ge in E; destruct Hs as [?|[?|[?|?]]]; lia).
      do 2 f_equal.
  - reflexivity.
Qed.


Lemma elements_list_bytes b sz l : Forall (fits sz) l ->
  elements sz (length l) (list_bytes b sz l) = map (fun v => if b then byte_reverse sz v else v) l.
Proof.
  intros F. induction F as [|v l Hv F IH]; [reflexivity|].
  cbn [length elements list_bytes flat_map map].
  rewrite <- (encoding_length b sz v) at 1. rewrite firstn_app_exact.
  rewrite le_value_encoding by assumption. f_equal.
  rewrite <- (encoding_length b sz v) at 2. rewrite skipn_app_exact. exact IH.
Qed.

Lemma swap_all_eq r sz l : scalar_size sz -> Forall (fits sz) l ->
  swap_all r sz l = Some (map (fun v => if swapEndian r then byte_reverse sz v else v) l).
Proof.
  intros Hs F. induction F as [|v l Hv F IH]; [reflexivity|]. cbn [swap_all map].
  destruct (maybe_swap_eq r sz v Hs Hv) as (v' & -> & _ & _ & ->). rewrite IH. reflexivity.
Qed.

Lemma ReadContainerN_eq r b sz l rest old : scalar_size sz -> Forall (fits sz) l ->
  at_bytes r (list_bytes b sz l ++ rest) ->
  ReadContainerN sz (length l) old r =
    Some (map (fun v => if eqb (swapEndian r) b then v else byte_reverse sz v) l,
          moved r (pos (st r) + sz * length l)) /\
  at_bytes (moved r (pos (st r) + sz * length l)) rest.
Proof.
  intros Hs F A. unfold ReadContainerN.
  destruct l as [|v l].
  - cbn [length map]. rewrite Nat.mul_0_r, Nat.add_0_r. cbn [list_bytes flat_map app] in A.
    assert (M : moved r (pos (st r)) = r).
    { destruct A as [[U1 U2] _]. destruct r as [[d p e f fl] sp lp sw]. cbn in *. subst. reflexivity. }
    rewrite M. auto.
  - set (m := v :: l) in *. change (length (v :: l)) with (length m).
    set (n := length m) in *. assert (Hn : n = S (length l)) by reflexivity.
    clearbody m.
    match goal with |- context [array_bytes sz ?o] => set (res := o) end.
    assert (Lr : length res = n).
    { unfold res. rewrite app_length, firstn_length, repeat_length. lia. }
    assert (R : ReadBuffer (sz * n) (array_bytes sz res) r =
                (list_bytes b sz m, moved r (pos (st r) + sz * n)) /\
                at_bytes (moved r (pos (st r) + sz * n)) rest).
    { apply ReadBuffer_eq; [assumption| |].
      - rewrite list_bytes_length. reflexivity.
      - rewrite array_bytes_length, Lr. reflexivity. }
    destruct R as [R A']. rewrite R.
    replace (match n with O => _ | S _ => _ end)
       with (match swap_all r sz (elements sz n (list_bytes b sz m)) with
             | Some l0 => Some (l0, moved r (pos (st r) + sz * n)) | None => None end)
       by (destruct n; [lia|reflexivity]).
    split; [|assumption]. unfold n. rewrite elements_list_bytes by assumption.
    rewrite swap_all_eq; [|assumption|].
    + rewrite map_map. do 2 f_equal. apply map_ext_in. intros a Ha.
      rewrite Forall_forall in F. specialize (F a Ha).
      destruct (swapEndian r), b; cbn [eqb]; try reflexivity. apply byte_reverse_invol. exact F.
    + apply Forall_forall. intros x Hx. apply in_map_iff in Hx. destruct Hx as (y & <- & Hy).
      rewrite Forall_forall in F. destruct b; [apply byte_reverse_range|auto].
Qed.

Lemma wrap_fits csz n : fits csz (wrap (8 * Z.of_nat csz) n).
Proof. unfold fits. rewrite pow256 by lia. apply wrap_range. lia. Qed.

Lemma WriteContainerWCount_eq csz sz l w : scalar_size csz -> scalar_size sz -> Forall (fits sz) l -> usable w ->
  WriteContainerWCount csz sz l w =
    Some (WriteBuffer (encoding (swapEndian w) csz (wrap (8 * Z.of_nat csz) (Z.of_nat (length l)))
                       ++ list_bytes (swapEndian w) sz l) w).
Proof.
  intros Hc Hs F U. unfold WriteContainerWCount.
  rewrite Write_eq by (try assumption; apply wrap_fits).
  rewrite WriteContainer_eq by (try assumption; apply WriteBuffer_usable; assumption).
  f_equal. apply WriteBuffer_app. assumption.
Qed.

Lemma firstn_le_mod csz (l : list Z) :
  length (firstn (Z.to_nat (wrap (8 * Z.of_nat csz) (Z.of_nat (length l)))) l) =
  Z.to_nat (wrap (8 * Z.of_nat csz) (Z.of_nat (length l))).
Proof.
  rewrite firstn_length. pose proof (wrap_range (8 * Z.of_nat csz) (Z.of_nat (length l)) ltac:(lia)).
  unfold wrap in *. pose proof (Z.mod_le (Z.of_nat (length l)) (2 ^ (8 * Z.of_nat csz)) ltac:(lia) ltac:(lia)).
  set (m := Z.of_nat (length l) mod 2 ^ (8 * Z.of_nat csz)) in *. clearbody m. lia.
Qed.

Lemma Forall_firstn {A} (P : A -> Prop) n l : Forall P l -> Forall P (firstn n l).
Proof.
  intros H. rewrite <- (firstn_skipn n l) in H. apply Forall_app in H. apply H.
Qed.

Lemma container_round_trip csz sz l w w' r g old :
  scalar_size csz -> scalar_size sz -> Forall (fits sz) l -> usable w ->
  WriteContainerWCount csz sz l w = Some w' -> reads_back w w' r -> swapEndian r = swapEndian w ->
  let kept := Z.to_nat (Z.of_nat (length l) mod 256 ^ Z.of_nat csz) in
  ReadContainer csz sz g old r = Some (firstn kept l, moved r (pos (st r) + csz + sz * kept)).
Proof.
  intros Hc Hs F U E B Hsw kept. rewrite WriteContainerWCount_eq in E by assumption.
  injection E as <-.
  set (cnt := wrap (8 * Z.of_nat csz) (Z.of_nat (length l))) in *.
  assert (Hk : kept = Z.to_nat cnt).
  { unfold kept, cnt, wrap. rewrite pow256 by lia. reflexivity. }
  apply reads_back_at in B; [|assumption|left].
  2:{ intros Hnil. apply app_eq_nil in Hnil. destruct Hnil as [Hnil _].
      apply (f_equal (@length Z)) in Hnil. rewrite encoding_length in Hnil.
      destruct Hc as [?|[?|[?|?]]]; cbn in Hnil; lia. }
  destruct B as [rest A]. rewrite <- Hsw, <- app_assoc in A.
  unfold ReadContainer.
  destruct (Read_same r csz cnt _ g Hc (wrap_fits _ _) A) as [-> A'].
  rewrite Hk. assert (Lk : length (firstn (Z.to_nat cnt) l) = Z.to_nat cnt) by apply firstn_le_mod.
  rewrite <- (firstn_skipn (Z.to_nat cnt) l) in A'. unfold list_bytes in A'.
  rewrite flat_map_app, <- app_assoc in A'. fold (list_bytes (swapEndian r) sz (firstn (Z.to_nat cnt) l)) in A'.
  rewrite <- Lk at 1.
  destruct (ReadContainerN_eq _ _ sz _ _ old Hs (Forall_firstn _ _ _ F) A') as [-> _].
  rewrite Lk. cbn [moved swapEndian]. rewrite eqb_reflx. rewrite map_id. reflexivity.
Qed.

(** ** strings *)
Lemma ReadString_eq sz s : scalar_size sz -> Forall (fits sz) s -> ~ In 0 s ->
  forall r rest tmp input fuel, (length s < fuel)%nat ->
  at_bytes r (list_bytes (swapEndian r) sz (s ++ [0]) ++ rest) ->
  ReadString fuel sz tmp input r = Done (input ++ s) (moved r (pos (st r) + sz * (length s + 1))).
Proof.
  intros Hs F. induction F as [|c s Hc F IH]; intros Hn r rest tmp input fuel Hf A.
  - destruct fuel as [|f]; [cbn in Hf; lia|]. cbn [ReadString].
    cbn [list_bytes flat_map app] in A. rewrite app_nil_r in A.
    destruct (Read_same r sz 0 rest tmp Hs) as [-> _]; [unfold fits; lia|assumption|].
    cbn [Z.eqb negb andb]. rewrite app_nil_r. do 3 f_equal. cbn. lia.
  - destruct fuel as [|f]; [cbn in Hf; lia|]. cbn [ReadString].
    cbn [list_bytes flat_map app] in A. rewrite <- app_assoc in A.
    destruct (Read_same r sz c _ tmp Hs Hc A) as [-> A'].
    assert (c <> 0) by (intros ->; apply Hn; left; reflexivity).
    destruct (Z.eqb_spec c 0); [congruence|]. cbn [negb andb moved st eof].
    rewrite (IH ltac:(intros X; apply Hn; right; exact X) _ rest); [|cbn in Hf; lia|exact A'].
    f_equal; [rewrite <- app_assoc; reflexivity|].
    unfold moved. cbn [st pos data file_like savePos localPos swapEndian]. f_equal. f_equal. cbn [length]. lia.
Qed.

(** Text that is not terminated: everything up to the end. *)
Lemma Read_at_end sz r tmp : (0 < sz)%nat -> at_bytes r [] -> scalar_size sz ->
  exists v, Read sz tmp r = Some (v, mkNav (mkStream (data (st r)) (pos (st r)) true true (file_like (st r)))
                                   (savePos r) (localPos r) (swapEndian r)).
Proof.
  intros Hz [U E] Hs. unfold Read, ReadBuffer, raw_read.
  replace (good (st r)) with true by (symmetry; apply good_true; assumption).
  rewrite E, firstn_nil. cbn [length app skipn].
  replace (0 <? sz)%nat with true by (symmetry; apply Nat.ltb_lt; assumption).
  rewrite Nat.add_0_r.
  assert (F : fits sz (le_value (le_bytes sz tmp))).
  { unfold fits. rewrite le_value_bytes. apply Z.mod_pos_bound. apply Z.pow_pos_nonneg; lia. }
  destruct (maybe_swap_eq r sz _ Hs F) as (v' & -> & _). eexists. reflexivity.
Qed.

Lemma scalar_pos sz : scalar_size sz -> (0 < sz)%nat.
Proof. intros [?|[?|[?|?]]]; lia. Qed.

Lemma ReadString_unterminated sz s : scalar_size sz -> Forall (fits sz) s -> ~ In 0 s ->
  forall r tmp input fuel, (length s < fuel)%nat ->
  at_bytes r (list_bytes (swapEndian r) sz s) ->
  exists r', ReadString fuel sz tmp input r = Done (input ++ s) r' /\ eof (st r') = true /\ fail (st r') = true.
Proof.
  intros Hs F. induction F as [|c s Hc F IH]; intros Hn r tmp input fuel Hf A.
  - destruct fuel as [|f]; [cbn in Hf; lia|]. cbn [ReadString].
    destruct (Read_at_end sz r tmp (scalar_pos _ Hs) A Hs) as [v ->].
    cbn [st eof]. rewrite andb_false_r, app_nil_r. eexists. split; [reflexivity|]. auto.
  - destruct fuel as [|f]; [cbn in Hf; lia|]. cbn [ReadString].
    cbn [list_bytes flat_map] in A.
    destruct (Read_same r sz c _ tmp Hs Hc A) as [-> A'].
    assert (c <> 0) by (intros ->; apply Hn; left; reflexivity).
    destruct (Z.eqb_spec c 0); [congruence|]. cbn [negb andb moved st eof].
    destruct (IH ltac:(intros X; apply Hn; right; exact X) _ c (input ++ [c]) f ltac:(cbn in Hf; lia) A')
      as (r' & -> & H1 & H2).
    rewrite <- app_assoc. eexists. split; [reflexivity|]. auto.
Qed.

(** A failed stream whose eofbit has been cleared: the loop never ends. *)
Lemma ReadString_hang sz tmp : scalar_size sz -> fits sz tmp -> tmp <> 0 -> forall fuel r input,
  eof (st r) = false -> fail (st r) = true -> swapEndian r = false ->
  ReadString fuel sz tmp input r = OutOfFuel.
Proof.
  intros Hs Hf Hn. induction fuel as [|f IH]; intros r input He Hfl Hw; [reflexivity|].
  cbn [ReadString]. unfold Read, ReadBuffer, raw_read, good. rewrite He, Hfl. cbn [negb andb].
  unfold maybe_swap. rewrite Hw. cbn [andb].
  rewrite le_value_bytes, Z.mod_small by exact Hf.
  destruct (Z.eqb_spec tmp 0); [congruence|]. cbn [negb andb with_st st eof].
  apply IH; reflexivity || assumption.
Qed.

Lemma list_bytes_1 b s : list_bytes b 1 s = flat_map (le_bytes 1) s.
Proof. unfold list_bytes. apply flat_map_ext. intros a. destruct b; reflexivity. Qed.

Lemma bytes_as_chars s : bytes_ok s -> flat_map (le_bytes 1) s = s.
Proof.
  intros F. induction F as [|c s Hc F IH]; [reflexivity|]. change (flat_map (le_bytes 1) (c :: s)) with ((c mod 256) :: flat_map (le_bytes 1) s).
  rewrite IH. f_equal. apply Z.mod_small. exact Hc.
Qed.

Lemma WriteT_eq s w : bytes_ok s -> usable w ->
  WriteT s w = Some (WriteBuffer (list_bytes (swapEndian w) 1 (s ++ [0])) w).
Proof.
  intros Hb U. unfold WriteT. rewrite Write_eq; [|left; reflexivity|unfold fits; cbn; lia].
  rewrite WriteBuffer_app by assumption. do 2 f_equal.
  rewrite list_bytes_1, flat_map_app, bytes_as_chars by assumption. f_equal.
  unfold WriteBuffer, with_st. cbn [swapEndian]. destruct (swapEndian w); reflexivity.
Qed.

Lemma WriteTW_eq sz s w : scalar_size sz -> Forall (fits sz) s -> usable w ->
  WriteTW sz s w = Some (WriteBuffer (list_bytes (swapEndian w) sz (s ++ [0])) w).
Proof.
  intros Hs F U. unfold WriteTW. destruct (swapEndian w) eqn:E.
  - rewrite WriteContainer_eq by assumption. rewrite Write_eq; [|assumption|unfold fits; lia].
    rewrite WriteBuffer_app by assumption. unfold list_bytes. rewrite flat_map_app. cbn [flat_map].
    rewrite app_nil_r. cbn [WriteBuffer with_st swapEndian]. rewrite E. reflexivity.
  - rewrite Write_eq; [|assumption|unfold fits; lia].
    rewrite WriteBuffer_app by assumption. unfold list_bytes. rewrite flat_map_app. cbn [flat_map].
    rewrite app_nil_r. cbn [WriteBuffer with_st swapEndian]. rewrite E. reflexivity.
Qed.
