(** C86: presets for the Havok importer. *)
From Coq Require Import Strings.Ascii Strings.String QArith Qabs Qpower.
From Verif Require Import Base FileInfo_Model StringView_Model Reflector_Model Reflector_Spec Reflector_Proof Reflector_Props XmlRefl_Model XmlRefl_Proof FloatText_Model FloatText_Spec FloatText_Proof FloatText_Proof2
  FloatText_Text FloatText_Print FloatText_Props FloatBack_Proof FloatBack_Props NodeName_Model NodeName_Spec NodeName_Props HkPreset_Model HkPreset_Spec.
Local Open Scope Z_scope.
Local Open Scope list_scope.

Lemma percent_6 n X : (length (percent_g 6 n X) <= 13)%nat.
Proof.
  unfold percent_g. pose proof (strip_length single (Z.to_nat 6) n) as S. set (D := strip_zeros (places (Z.to_nat 6) n)) in *.
  change (Z.to_nat 6) with 6%nat in *. destruct ((-4 <=? X) && (X <? 6))%Z eqn:E.
  - destruct (Z.leb_spec 0 X).
    + rewrite !app_length, repeat_length. pose proof (point_length single (skipn (Z.to_nat X + 1) D)). rewrite skipn_length in *. rewrite firstn_length. lia.
    + rewrite !app_length, repeat_length. cbn [length]. lia.
  - rewrite !app_length. pose proof (point_length single (skipn 1 D)). rewrite skipn_length in *. rewrite firstn_length. cbn [length]. destruct (Z.abs X <? 100)%Z; rewrite places_length; lia.
Qed.
Lemma single_length w : (length (GetFloat single w) <= 14)%nat.
Proof.
  unfold GetFloat. rewrite firstn_length. eapply Nat.le_trans; [apply Nat.le_min_r|]. rewrite app_length.
  assert (A : (length (if sign_of single w then [45%Z] else []) <= 1)%nat) by (destruct (sign_of single w); cbn; lia).
  assert (B : (length (if exp_field single w =? 2 ^ ebits single - 1 then if frac_field single w =? 0 then [105; 110; 102] else [110; 97; 110]
     else if fst (fraction single w) =? 0 then [48] else let (n, X) := scientific (digs single) (fraction single w) in percent_g (digs single) n X)%Z <= 13)%nat).
  { destruct (exp_field single w =? _); [destruct (frac_field single w =? 0); cbn; lia|]. destruct (fst _ =? 0); [cbn; lia|].
    destruct (scientific (digs single) (fraction single w)) as [n X]. apply percent_6. }
  exact (Nat.add_le_mono _ _ _ _ A B).
Qed.
Lemma scale_whole w : scale_text w = GetFloat single w.
Proof. unfold scale_text. apply firstn_all2. pose proof (single_length w). lia. Qed.
Lemma scale_chars neg E M : fields 24 8 E M -> append_buffer (GetFloat single (pattern 24 8 neg E M)) = Some [Txt (GetFloat single (pattern 24 8 neg E M))] /\
  GetFloat single (pattern 24 8 neg E M) <> [].
Proof.
  intros F. assert (K : forall s, Forall (fun c => 32 <= c <= 126 /\ c <> 60 /\ c <> 38) s -> (exists c r, s = c :: r /\ c <> 32) -> append_buffer s = Some [Txt s] /\ s <> []).
  { intros s A (c & r & -> & C). split; [apply text_buffer; [exact A|eauto]|discriminate]. }
  destruct (pattern_fields single (or_introl eq_refl) neg E M F) as (E1 & E2 & E3 & E4 & _). cbn [prec ebits single] in E1, E2, E3, E4.
  destruct (Z.eq_dec E 255) as [->|NI].
  - apply K; unfold GetFloat; rewrite E1, E2, E3; change (255 =? 2 ^ ebits single - 1) with true; cbn iota; destruct neg, (M =? 0); cbn [app firstn]; first [eexists; eexists; (split; [reflexivity|lia]) | repeat (constructor; [lia|]); constructor].
  - assert (Fi : finite 8 E) by (unfold finite; destruct F as [_ [_ ?]]; lia).
    destruct (Z.eq_dec E 0) as [->|NE]; [destruct (Z.eq_dec M 0) as [->|NM]|].
    + apply K; destruct neg; match goal with |- context [GetFloat ?a ?b] => let v := eval vm_compute in (GetFloat a b) in change (GetFloat a b) with v end; first [eexists; eexists; (split; [reflexivity|lia]) | repeat (constructor; [lia|]); constructor].
    + destruct (get_number single (or_introl eq_refl) neg 0 M F Fi ltac:(lia)) as (d & G & P & _). cbn [prec ebits single] in G. rewrite G.
      destruct (text_plain d P) as [_ T]. destruct (text_starts d [] P) as (c & r & T' & H). rewrite app_nil_r in T'. apply K; [exact T|]. exists c, r. split; [exact T'|lia].
    + destruct (get_number single (or_introl eq_refl) neg E M F Fi ltac:(lia)) as (d & G & P & _). cbn [prec ebits single] in G. rewrite G.
      destruct (text_plain d P) as [_ T]. destruct (text_starts d [] P) as (c & r & T' & H). rewrite app_nil_r in T'. apply K; [exact T|]. exists c, r. split; [exact T'|lia].
Qed.

(** ** The matrix *)
Lemma sign3_pattern neg E M : fields 24 8 E M -> sign3 (pattern 24 8 neg E M) =
  if (E =? 0) && (M =? 0) then Nul else if (E =? 255) && negb (M =? 0) then Pos else if neg then Neg else Pos.
Proof.
  intros F. destruct (pattern_fields single (or_introl eq_refl) neg E M F) as (E1 & E2 & E3 & _). cbn [prec ebits single] in E1, E2, E3.
  unfold sign3. rewrite E1, E2, E3. reflexivity.
Qed.
Lemma entry_sign l x s : entry l x s -> s = element (sign3 x) l.
Proof.
  intros [neg|E M F N1 N2|E M F N1 N2|neg M F N].
  - rewrite sign3_pattern by (unfold fields; lia). reflexivity.
  - rewrite sign3_pattern by exact F. replace ((E =? 0) && (M =? 0)) with false by lia. replace ((E =? 255) && negb (M =? 0)) with false by lia. reflexivity.
  - rewrite sign3_pattern by exact F. replace ((E =? 0) && (M =? 0)) with false by lia. replace ((E =? 255) && negb (M =? 0)) with false by lia. reflexivity.
  - rewrite sign3_pattern by exact F. replace ((255 =? 0) && (M =? 0)) with false by lia. replace ((255 =? 255) && negb (M =? 0)) with true by lia. reflexivity.
Qed.
Lemma entry_exists l x s : entry l x s -> forall l', entry l' x (element (sign3 x) l').
Proof.
  intros H l'. assert (K : forall t, entry l' x t -> entry l' x (element (sign3 x) l')) by (intros t T; rewrite <- (entry_sign l' x t T); exact T).
  destruct H; eapply K; [apply entry_zero|apply entry_negative; assumption|apply entry_positive; assumption|apply entry_nan; assumption].
Qed.
Lemma matrix_text m t : matrix_entries m t -> option_map GetCorrectionMatrix (signs m) = Some t.
Proof.
  intros [r s u a b c R S U]. destruct R as [? ? ? ? ? ? R1 R2 R3], S as [? ? ? ? ? ? S1 S2 S3], U as [? ? ? ? ? ? U1 U2 U3].
  apply entry_sign in R1, R2, R3, S1, S2, S3, U1, U2, U3. subst. reflexivity.
Qed.
Lemma matrix_chars m t : matrix_entries m t -> append_buffer t = Some (content t).
Proof.
  intros H. assert (A : Forall (fun c => c = 45 \/ 88 <= c <= 90) t).
  { assert (E : forall l x s, 88 <= l <= 90 -> entry l x s -> Forall (fun c => c = 45 \/ 88 <= c <= 90) s).
    { intros l x s L [ | | | ]; repeat (constructor; [lia|]); constructor. }
    destruct H as [r s u a b c R S U]. destruct R as [? ? ? ? ? ? R1 R2 R3], S as [? ? ? ? ? ? S1 S2 S3], U as [? ? ? ? ? ? U1 U2 U3].
    rewrite !Forall_app. repeat split; (eapply E; [|eassumption]); lia. }
  destruct t as [|c t]; [reflexivity|]. cbn [content]. apply text_buffer.
  - eapply Forall_impl; [|exact A]. intros z Hz. cbv beta in *. lia.
  - exists c, t. split; [reflexivity|]. apply Forall_inv in A. lia.
Qed.

Lemma plain_c_string s : plain_string s -> c_string s = s.
Proof.
  intros H. induction s as [|c s IH]; [reflexivity|]. cbn [c_string]. destruct (Z.eqb_spec c 0) as [->|N]; [exfalso; apply H; left; reflexivity|].
  f_equal. apply IH. intros I. apply H. right. exact I.
Qed.

(** A preset is added behind everything in the document, which stays: it has the name, the text of the matrix, an
    empty element for each extension in the order given, and for the scale the text a reflected float member holding
    that scale would have (C84), all of it. *)
Theorem C86_saved : forall neg E M m matrix name exts tag attrs kids,
  fields 24 8 E M -> matrix_entries m matrix -> plain_string name -> Forall plain_string exts ->
  exists scale, SaveHKPreset (pattern 24 8 neg E M) m name exts (Elem tag attrs kids) = Some (Elem tag attrs (kids ++ [preset name scale matrix exts])) /\
    forall e cls id t mem, float_member cls id t mem 24 8 -> contains t mem (pattern 24 8 neg E M) ->
      GetReflectedValue (float_env e) cls (Z.of_nat id) mem = Some scale.
Proof.
  intros neg E M m matrix name exts tag attrs kids F Hm Hn He. exists (GetFloat single (pattern 24 8 neg E M)). split.
  - unfold SaveHKPreset. rewrite scale_whole. destruct (scale_chars neg E M F) as [-> NE]. rewrite (matrix_text m matrix Hm), (matrix_chars m matrix Hm).
    cbn [xname xattrs xkids]. rewrite (plain_c_string name Hn).
    assert (X : map (fun e => Elem (c_string e) [] []) exts = map (fun e => Elem e [] []) exts).
    { apply map_ext_in. intros x Hx. rewrite Forall_forall in He. rewrite (plain_c_string x (He x Hx)). reflexivity. }
    rewrite X. unfold preset. destruct (GetFloat single (pattern 24 8 neg E M)); [congruence|]. reflexivity.
  - intros e cls id t mem Hf C. rewrite (get_api e cls id t mem 24 8 Hf), (pattern_value cls id t mem 24 8 Hf neg E M F C).
    destruct Hf as (_ & _ & _ & [(S & _)|(_ & K & _)]); [|discriminate K]. rewrite S. reflexivity.
Qed.
Print Assumptions C86_saved.

(** So a scale that is zero, infinite or nearest to a decimal number of at most six digits is found bit for bit by
    reading that text into any float member. *)
Theorem C86_scale_restored : forall neg E M m matrix name exts tag attrs kids doc,
  fields 24 8 E M -> few_digits 24 8 E M -> matrix_entries m matrix -> plain_string name -> Forall plain_string exts ->
  SaveHKPreset (pattern 24 8 neg E M) m name exts (Elem tag attrs kids) = Some doc ->
  exists scale, xkids doc = kids ++ [preset name scale matrix exts] /\
    forall e cls id t mem, float_member cls id t mem 24 8 ->
      exists new, SetReflectedValue (float_env e) cls (Z.of_nat id) scale mem = Some (ENone, new) /\ now_contains t mem (pattern 24 8 neg E M) new.
Proof.
  intros neg E M m matrix name exts tag attrs kids doc F Few Hm Hn He S. 
  destruct (C86_saved neg E M m matrix name exts tag attrs kids F Hm Hn He) as (scale & S' & G). rewrite S in S'. injection S' as ->. exists scale. split; [reflexivity|].
  intros e cls id t mem Hf. destruct (few_back single (or_introl eq_refl) neg E M F Few) as (B & _ & _ & Sk). cbn [prec ebits single] in B, Sk.
  assert (Es : scale = GetFloat single (pattern 24 8 neg E M)).
  { assert (H1 : float_member [mkRefl RFloat RNone 4 0 0 0 0 0] 0 (mkRefl RFloat RNone 4 0 0 0 0 0) (le_bytes 4 (pattern 24 8 neg E M)) 24 8).
    { split; [reflexivity|]. split; [reflexivity|]. split; [unfold holds, inside; cbn [offset subSize]; rewrite le_bytes_length; cbn; lia|]. left. repeat split. }
    specialize (G e _ _ _ _ H1 eq_refl).
    rewrite (get_api e _ _ _ _ 24 8 H1), (pattern_value _ _ _ _ 24 8 H1 neg E M F eq_refl) in G. injection G as <-. reflexivity. }
  subst scale. apply (set_api e cls id t mem 24 8 Hf). rewrite Sk.
  destruct Hf as (_ & _ & _ & [(Sz & _)|(_ & K & _)]); [|discriminate K]. rewrite Sz. apply B.
Qed.
Print Assumptions C86_scale_restored.

(** ** What the preset says *)
Lemma turns_axis_matrix m : turns_axes m -> exists t, matrix_entries m t /\ exists g, signs m = Some g /\ axis_matrix g.
Proof.
  intros (r & s & u & a & b & c & -> & R & S & U & A & B & C). exists (a ++ b ++ c). split; [constructor; assumption|].
  assert (K : forall q x, row_entries q x -> (exists l, In l [88; 89; 90] /\ (x = [l] \/ x = [45; l])) ->
    exists x1 x2 x3, q = [x1; x2; x3] /\ axis_row (sign3 x1, sign3 x2, sign3 x3)).
  { intros q x [x1 x2 x3 t1 t2 t3 H1 H2 H3] (l & Il & Hl). apply entry_sign in H1, H2, H3. subst t1 t2 t3. exists x1, x2, x3. split; [reflexivity|].
    unfold axis_row. destruct (sign3 x1), (sign3 x2), (sign3 x3); cbn [element app] in Hl;
      first [ exfalso; destruct Hl as [Hl|Hl]; try discriminate Hl; injection Hl; intros; subst; cbn [In] in Il; lia
            | exists Neg; split; [discriminate|auto]; fail | exists Pos; split; [discriminate|auto]; fail ]. }
  destruct (K r a R A) as (x1 & x2 & x3 & -> & X). destruct (K s b S B) as (y1 & y2 & y3 & -> & Y). destruct (K u c U C) as (z1 & z2 & z3 & -> & Z).
  eexists. split; [reflexivity|]. cbn [axis_matrix]. auto.
Qed.
Lemma sign3_entry x y s s' : entry 88 x s -> entry 88 y s' -> sign3 x = sign3 y -> forall v, entry 88 x v <-> entry 88 y v.
Proof.
  intros X Y E v. split; intros H; pose proof (entry_sign _ _ _ H) as K; subst v; [rewrite E; eapply entry_exists; exact Y|rewrite <- E; eapply entry_exists; exact X].
Qed.
Lemma rows_alike x1 x2 x3 y1 y2 y3 a b : row_entries [x1; x2; x3] a -> row_entries [y1; y2; y3] b ->
  sign3 x1 = sign3 y1 -> sign3 x2 = sign3 y2 -> sign3 x3 = sign3 y3 ->
  Forall2 (fun x y => forall s, entry 88 x s <-> entry 88 y s) [x1; x2; x3] [y1; y2; y3].
Proof.
  intros R R' E1 E2 E3. inversion R as [? ? ? ? ? ? R1 R2 R3]; subst. inversion R' as [? ? ? ? ? ? R1' R2' R3']; subst.
  repeat constructor.
  1-2: apply (sign3_entry x1 y1 _ _ (entry_exists _ _ _ R1 88) (entry_exists _ _ _ R1' 88) E1).
  1-2: apply (sign3_entry x2 y2 _ _ (entry_exists _ _ _ R2 88) (entry_exists _ _ _ R2' 88) E2).
  1-2: apply (sign3_entry x3 y3 _ _ (entry_exists _ _ _ R3 88) (entry_exists _ _ _ R3' 88) E3).
Qed.

(** Two presets that look the same have the same name, the same extensions in the same order, the same text of the
    scale, and matrices that turn the axes alike. *)
Theorem C86_faithful : forall neg E M m name exts neg' E' M' m' name' exts' node doc,
  fields 24 8 E M -> turns_axes m -> plain_string name -> Forall plain_string exts ->
  fields 24 8 E' M' -> turns_axes m' -> plain_string name' -> Forall plain_string exts' ->
  SaveHKPreset (pattern 24 8 neg E M) m name exts node = Some doc ->
  SaveHKPreset (pattern 24 8 neg' E' M') m' name' exts' node = Some doc ->
  name = name' /\ exts = exts' /\ same_signs m m' /\
  (few_digits 24 8 E M -> few_digits 24 8 E' M' -> pattern 24 8 neg E M = pattern 24 8 neg' E' M').
Proof.
  intros neg E M m name exts neg' E' M' m' name' exts' node doc F T N X F' T' N' X' S S'.
  destruct (turns_axis_matrix m T) as (t & Mt & g & G & A). destruct (turns_axis_matrix m' T') as (t' & Mt' & g' & G' & A').
  unfold SaveHKPreset in S, S'. rewrite scale_whole in S, S'.
  destruct (scale_chars neg E M F) as [Sc NE]. destruct (scale_chars neg' E' M' F') as [Sc' NE']. rewrite Sc in S. rewrite Sc' in S'.
  rewrite (matrix_text m t Mt), (matrix_chars m t Mt) in S. rewrite (matrix_text m' t' Mt'), (matrix_chars m' t' Mt') in S'.
  rewrite <- S in S'. clear S. injection S' as S'. apply app_inv_head in S'. injection S' as E1 E2 E3 E4.
  rewrite (plain_c_string name N), (plain_c_string name' N') in E1.
  split; [congruence|]. split; [|split].
  - clear -E4 X X'. revert exts' X' E4. induction exts as [|x exts IH]; intros [|y exts'] X' H; try discriminate H; [reflexivity|].
    cbn [map] in H. injection H as Hx Hr. inversion X; subst. inversion X'; subst. rewrite !plain_c_string in Hx by assumption. subst y. f_equal. apply IH; assumption.
  - assert (Et : t = t') by (destruct t, t'; try discriminate E3; [reflexivity|injection E3 as -> ->; reflexivity]).
    pose proof (matrix_text m t Mt) as Q. pose proof (matrix_text m' t' Mt') as Q'. rewrite G in Q. rewrite G' in Q'. cbn [option_map] in Q, Q'. injection Q as Q. injection Q' as Q'.
    assert (Eg : g = g') by (apply (proj1 C76_matrix); [exact A|exact A'|congruence]). subst g'.
    clear -T T' G G'. destruct T as (r & s & u & a & b & c & -> & R & S & U & _). destruct T' as (r' & s' & u' & a' & b' & c' & -> & R' & S' & U' & _).
    pose proof R as R0. pose proof S as S0. pose proof U as U0. pose proof R' as R0'. pose proof S' as S0'. pose proof U' as U0'.
    destruct R, S, U, R', S', U'. cbn [signs] in G, G'. rewrite <- G in G'. injection G' as ? ? ? ? ? ? ? ? ?.
    unfold same_signs. apply Forall2_cons; [|apply Forall2_cons; [|apply Forall2_cons; [|apply Forall2_nil]]]; eapply rows_alike; try eassumption; congruence.
  - intros D D'. assert (Es : GetFloat single (pattern 24 8 neg E M) = GetFloat single (pattern 24 8 neg' E' M')) by congruence.
    destruct (few_back single (or_introl eq_refl) neg E M F D) as (B & _). destruct (few_back single (or_introl eq_refl) neg' E' M' F' D') as (B' & _).
    cbn [prec ebits single] in B, B'. rewrite Es in B. specialize (B 0). specialize (B' 0). congruence.
Qed.
Print Assumptions C86_faithful.

(** Not so for other matrices: all of XYZ in one row looks like the identity. *)
Definition one_pattern24 := pattern 24 8 false 127 0.
Definition nil_pattern24 := pattern 24 8 false 0 0.
Theorem C86_matrix_refuted : exists m m' doc,
  turns_axes m /\ (exists t, matrix_entries m' t) /\ ~ same_signs m m' /\
  SaveHKPreset one_pattern24 m [97] [] (Elem [114] [] []) = Some doc /\ SaveHKPreset one_pattern24 m' [97] [] (Elem [114] [] []) = Some doc.
Proof.
  pose (i := one_pattern24). pose (o := nil_pattern24).
  assert (I : forall l, entry l i [l]) by (intros l; apply entry_positive; [unfold fields|..]; lia).
  assert (O : forall l, entry l o []) by (intros l; apply entry_zero).
  exists [[i; o; o]; [o; i; o]; [o; o; i]], [[i; i; i]; [o; o; o]; [o; o; o]].
  eexists. split; [|split; [|split; [|split]]].
  - exists [i; o; o], [o; i; o], [o; o; i], [88], [89], [90]. split; [reflexivity|].
    split; [apply (row_of i o o [88] [] []); auto|]. split; [apply (row_of o i o [] [89] []); auto|]. split; [apply (row_of o o i [] [] [90]); auto|].
    split; [exists 88|split; [exists 89|exists 90]]; cbn; auto.
  - exists [88; 89; 90]. apply (matrix_of [i; i; i] [o; o; o] [o; o; o] [88; 89; 90] [] []); [apply (row_of i i i [88] [89] [90])|apply (row_of o o o [] [] [])|apply (row_of o o o [] [] [])]; auto.
  - intros H. inversion H as [|? ? ? ? H1 _]; subst. inversion H1 as [|? ? ? ? _ H2]; subst. inversion H2 as [|? ? ? ? H3 _]; subst.
    specialize (proj1 (H3 []) (O 88)). intros K. apply entry_sign in K. discriminate K.
  - vm_compute. reflexivity.
  - vm_compute. reflexivity.
Qed.
Print Assumptions C86_matrix_refuted.

(** A preset with the scale 0.1, beside what was in the document. *)
Example C86_case :
  SaveHKPreset (pattern 24 8 false 123 5033165) [[nil_pattern24; one_pattern24; nil_pattern24]; [pattern 24 8 true 127 0; nil_pattern24; nil_pattern24]; [nil_pattern24; nil_pattern24; one_pattern24]]
    (spelled "Game") [spelled "hkx"; spelled "hkt"] (Elem (spelled "root") [] [Elem (spelled "old") [] []]) =
  Some (Elem (spelled "root") [] [Elem (spelled "old") [] []; preset (spelled "Game") (spelled "0.1") (spelled "Y-XZ") [spelled "hkx"; spelled "hkt"]]).
Proof. vm_compute. reflexivity. Qed.
Example C86_hypotheses : few_digits 24 8 123 5033165 /\ fields 24 8 123 5033165 /\ plain_string (spelled "Game") /\ Forall plain_string [spelled "hkx"; spelled "hkt"].
Proof.
  split; [apply ex_tenth|]. split; [apply ex_tenth|]. split; [|repeat constructor]; unfold plain_string; vm_compute; intuition discriminate.
Qed.
