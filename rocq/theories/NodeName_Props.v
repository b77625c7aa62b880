(** C76: node name suffixes and correction matrices. *)
From Coq Require Import Sorting.Sorted Permutation.
From Verif Require Import Base Reflector_Model NodeName_Model NodeName_Spec.

Lemma insert_perm x l : Permutation (insert_sorted x l) (x :: l).
Proof. induction l as [|y l IH]; cbn [insert_sorted]; [reflexivity|]. destruct (x <=? y); [reflexivity|]. rewrite IH. apply perm_swap. Qed.
Lemma sort_perm l : Permutation (sort l) l.
Proof. induction l as [|x l IH]; cbn [sort]; [reflexivity|]. rewrite insert_perm, IH. reflexivity. Qed.
Lemma insert_sorted_ok x l : Sorted Z.le l -> Sorted Z.le (insert_sorted x l).
Proof.
  induction l as [|y l IH]; intros S1; cbn [insert_sorted]; [repeat constructor|]. destruct (Z.leb_spec x y).
  - constructor; [exact S1|constructor; assumption].
  - inversion S1 as [|? ? S2 H2]. subst. constructor; [apply IH; exact S2|].
    destruct l as [|z l]; cbn [insert_sorted]; [constructor; lia|]. inversion H2. subst. destruct (x <=? z); constructor; lia.
Qed.
Lemma sort_sorted l : Sorted Z.le (sort l).
Proof. induction l as [|x l IH]; cbn [sort]; [constructor|]. apply insert_sorted_ok, IH. Qed.
Lemma sorted_unique a : forall b, Permutation a b -> Sorted Z.le a -> Sorted Z.le b -> a = b.
Proof.
  assert (T : Relations_1.Transitive Z.le) by (intros x y z; lia).
  induction a as [|x a IH]; intros b P Sa Sb; [apply Permutation_nil in P; subst; reflexivity|].
  destruct b as [|y b]; [symmetry in P; apply Permutation_nil in P; discriminate|].
  apply Sorted_StronglySorted in Sa; [|exact T]. apply Sorted_StronglySorted in Sb; [|exact T].
  inversion Sa as [|? ? Sa1 Fa]. inversion Sb as [|? ? Sb1 Fb]. subst.
  assert (x = y).
  { assert (I1 : In x (y :: b)) by (eapply Permutation_in; [exact P|left; reflexivity]).
    assert (I2 : In y (x :: a)) by (eapply Permutation_in; [symmetry; exact P|left; reflexivity]).
    destruct I1 as [->|I1]; [reflexivity|]. destruct I2 as [->|I2]; [reflexivity|].
    rewrite Forall_forall in Fa, Fb. specialize (Fa y I2). specialize (Fb x I1). lia. }
  subst y. f_equal. apply IH; [eapply Permutation_cons_inv; exact P|apply StronglySorted_Sorted; assumption|apply StronglySorted_Sorted; assumption].
Qed.

Definition run (h : list scall) (s : suffixer) : suffixer := fold_left (fun s c => do_scall c s) h s.
Lemma run_state h : forall s, let e := run h s in
  Permutation (channels e) (channels s ++ added h ++ (if color s then [] else if existsb is_color h then [0] else []) ++ repeat (-2) (full_colors h)) /\
  (normals e = true <-> normals s = true \/ In UseNormals h) /\ (skin e = true <-> skin s = true \/ In UseSkin h) /\
  (morph e = true <-> morph s = true \/ In UseMorph h) /\ color e = color s || existsb is_color h.
Proof.
  unfold run. induction h as [|c h IH]; intros s; cbn zeta.
  - cbn [fold_left added flat_map full_colors filter length repeat existsb In app]. rewrite orb_false_r. destruct (color s); rewrite !app_nil_r; repeat split; intuition.
  - cbn [fold_left]. specialize (IH (do_scall c s)). cbn zeta in IH. destruct IH as (P & N & K & M & C).
    assert (X : forall (a b : Z) (l r : list Z), Permutation ((l ++ [a]) ++ r) (l ++ a :: r)) by (intros; rewrite <- app_assoc; reflexivity).
    split; [|split; [|split; [|split]]].
    + rewrite P. clear. destruct c; cbn [do_scall push with_color channels color existsb is_color orb]; unfold added, full_colors; cbn [flat_map filter length repeat app].
      * rewrite <- app_assoc. reflexivity.
      * destruct (color s) eqn:E; [rewrite E; reflexivity|]. cbn [with_color push channels color app]. rewrite <- !app_assoc. apply Permutation_app_head.
        cbn [app]. apply Permutation_cons_app. reflexivity.
      * destruct (color s); cbn [with_color push channels color app]; rewrite <- !app_assoc; apply Permutation_app_head; cbn [app].
        -- apply Permutation_cons_app. reflexivity.
        -- etransitivity; [|apply Permutation_middle]. apply perm_skip. apply Permutation_cons_app. reflexivity.
      * reflexivity.
      * reflexivity.
      * reflexivity.
      * apply Permutation_app_tail. apply sort_perm.
    + rewrite N. clear. destruct c; cbn [do_scall normals In]; try (destruct (color s)); cbn; intuition discriminate.
    + rewrite K. clear. destruct c; cbn [do_scall skin In]; try (destruct (color s)); cbn; intuition discriminate.
    + rewrite M. clear. destruct c; cbn [do_scall morph In]; try (destruct (color s)); cbn; intuition discriminate.
    + rewrite C. clear. destruct c; cbn [do_scall color existsb is_color orb]; try reflexivity; destruct (color s) eqn:E; cbn [color with_color push]; rewrite ?E; reflexivity.
Qed.

(** After any history of calls, in any order and with Generate called at any time in between, the suffix says
    what was added: the numbers in ascending order and one letter for each property used. *)
Theorem C76_suffix : forall h, suffix_of h (Generate None (run h new_suffixer)) /\
  forall name, Generate (Some name) (run h new_suffixer) = [40] ++ name ++ Generate None (run h new_suffixer) ++ [41].
Proof.
  intros h. destruct (run_state h new_suffixer) as (P & N & K & M & _). set (e := run h new_suffixer) in *. cbn [channels color new_suffixer app normals skin morph] in *.
  split.
  - exists (sort (channels e)), (if normals e then [78] else []), (if skin e then [83] else []), (if morph e then [77] else []).
    split; [rewrite sort_perm; exact P|]. split; [apply sort_sorted|]. unfold used.
    split; [|split; [|split]].
    + destruct (normals e); [left|right]; split; try reflexivity; destruct N as [N1 N2]; [destruct N1; auto; discriminate|intros I; assert (false = true) by auto; discriminate].
    + destruct (skin e); [left|right]; split; try reflexivity; destruct K as [N1 N2]; [destruct N1; auto; discriminate|intros I; assert (false = true) by auto; discriminate].
    + destruct (morph e); [left|right]; split; try reflexivity; destruct M as [N1 N2]; [destruct N1; auto; discriminate|intros I; assert (false = true) by auto; discriminate].
    + unfold Generate. cbn [app]. destruct (channels e) as [|x r] eqn:Q; [cbn [sort]; rewrite ?app_nil_r; reflexivity|].
      assert (Z0 : sort (x :: r) <> []).
      { intros H. pose proof (sort_perm (x :: r)) as Y. rewrite H in Y. apply Permutation_nil in Y. discriminate. }
      rewrite flat_map_concat_map. destruct (sort (x :: r)); [congruence|]. rewrite ?app_nil_r. reflexivity.
  - intros name. unfold Generate. cbn [app]. repeat (rewrite <- ?app_assoc; cbn [app]). reflexivity.
Qed.
Print Assumptions C76_suffix.
(** So two histories that add the same things give the same suffix. *)
Theorem C76_order_irrelevant : forall h h', Permutation (numbers h) (numbers h') ->
  (forall c, In c [UseNormals; UseSkin; UseMorph] -> (In c h <-> In c h')) ->
  Generate None (run h new_suffixer) = Generate None (run h' new_suffixer).
Proof.
  intros h h' P U. destruct (proj1 (C76_suffix h)) as (ns & n & s & m & P1 & S1 & N1 & K1 & M1 & ->).
  destruct (proj1 (C76_suffix h')) as (ns' & n' & s' & m' & P2 & S2 & N2 & K2 & M2 & ->). unfold used in *.
  rewrite (U UseNormals) in N1 by (cbn; auto). rewrite (U UseSkin) in K1 by (cbn; auto). rewrite (U UseMorph) in M1 by (cbn; auto).
  assert (ns = ns') by (apply sorted_unique; [rewrite P1, P2; exact P|exact S1|exact S2]). subst ns'.
  assert (n = n') by (destruct N1 as [[-> ?]|[-> ?]], N2 as [[-> ?]|[-> ?]]; congruence || contradiction).
  assert (s = s') by (destruct K1 as [[-> ?]|[-> ?]], K2 as [[-> ?]|[-> ?]]; congruence || contradiction).
  assert (m = m') by (destruct M1 as [[-> ?]|[-> ?]], M2 as [[-> ?]|[-> ?]]; congruence || contradiction).
  subst. reflexivity.
Qed.
Print Assumptions C76_order_irrelevant.
(** The numbers are not separated, so different sets of channels can have one suffix. *)
Theorem C76_ambiguous_refuted : exists h h', ~ Permutation (numbers h) (numbers h') /\
  Generate None (run h new_suffixer) = Generate None (run h' new_suffixer).
Proof.
  exists [AddChannel 1; AddChannel 2], [AddChannel 12]. split; [|vm_compute; reflexivity].
  intros P. apply Permutation_length in P. discriminate.
Qed.
Print Assumptions C76_ambiguous_refuted.

(** A matrix that sends axes to axes is determined by its text, the identity is XYZ. *)
Theorem C76_matrix : (forall m m', axis_matrix m -> axis_matrix m' -> GetCorrectionMatrix m = GetCorrectionMatrix m' -> m = m') /\
  (forall s t u, s <> Nul -> t <> Nul -> u <> Nul ->
     GetCorrectionMatrix ((s, Nul, Nul), (Nul, t, Nul), (Nul, Nul, u)) = element s 88 ++ element t 89 ++ element u 90) /\
  GetCorrectionMatrix ((Pos, Nul, Nul), (Nul, Pos, Nul), (Nul, Nul, Pos)) = [88; 89; 90].
Proof.
  split; [|split].
  - assert (R : forall r r' x y, axis_row r -> axis_row r' -> row_text r ++ x = row_text r' ++ y -> r = r' /\ x = y).
    { intros r r' x y (s & Ns & H) (s' & Ns' & H') E.
      destruct s; try congruence; destruct s'; try congruence; destruct H as [->|[->| ->]]; destruct H' as [->|[->| ->]]; cbn in E;
        injection E as E; try discriminate E; auto; try (injection E as E; auto); discriminate. }
    intros [[a b] c] [[a' b'] c'] (A & B & C) (A' & B' & C') E. cbn [GetCorrectionMatrix] in E.
    destruct (R _ _ _ _ A A' E) as [-> E1]. destruct (R _ _ _ _ B B' E1) as [-> E2].
    destruct (R c c' [] []) as [-> _]; [exact C|exact C'|rewrite !app_nil_r; exact E2|]. reflexivity.
  - intros s t u _ _ _. cbn [GetCorrectionMatrix row_text element app]. rewrite ?app_nil_r. reflexivity.
  - reflexivity.
Qed.
Print Assumptions C76_matrix.
(** Any other matrix may have the text of one that does. *)
Theorem C76_matrix_refuted : exists m m', axis_matrix m /\ m <> m' /\ GetCorrectionMatrix m = GetCorrectionMatrix m'.
Proof.
  exists ((Pos, Nul, Nul), (Nul, Pos, Nul), (Nul, Nul, Pos)), ((Pos, Pos, Pos), (Nul, Nul, Nul), (Nul, Nul, Nul)).
  split; [|split; [discriminate|reflexivity]]. repeat split; exists Pos; (split; [discriminate|auto]).
Qed.
Print Assumptions C76_matrix_refuted.

Example C76_example :
  Generate (Some [65]) (run [AddChannel 3; AddFullColor; UseMorph; AddColor; Generated; AddChannel 1; UseNormals] new_suffixer) =
    [40; 65; 91; 85; 45; 50; 48; 49; 51; 78; 77; 93; 41] /\
  numbers [AddChannel 3; AddFullColor; UseMorph; AddColor; AddChannel 1; UseNormals] = [3; 1; 0; -2] /\
  GetCorrectionMatrix ((Nul, Neg, Nul), (Pos, Nul, Nul), (Nul, Nul, Pos)) = [45; 89; 88; 90].
Proof. vm_compute. repeat split; reflexivity. Qed.
