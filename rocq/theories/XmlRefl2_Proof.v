(** Saving and loading whole objects, second format. *)
From Verif Require Import Base Jenkins_Model FileInfo_Model StringView_Model Reflector_Model Reflector_Spec
  Reflector_Proof Reflector_Props RefAccess_Model XmlRefl_Model XmlRefl_Spec XmlRefl_Leaf_Proof
  XmlRefl_Bits_Proof XmlRefl_Names_Proof XmlRefl_Proof XmlRefl2_Model XmlRefl2_Spec XmlRefl2_Leaf_Proof XmlRefl2_Cover_Proof XmlRefl2_Member_Proof.

Lemma described_read c i t : described c -> (xNames c = None -> forall t, In t (xTypes c) -> ~ an_array t) ->
  (forall ns, xNames c = Some ns -> Forall (fun nm => Z.of_nat (length nm) < 2 ^ 63) ns) -> nth_error (xTypes c) i = Some t ->
  exists nm, GetName c t i = Some nm /\ read_name (c_string nm) = Some (nameHash t, None) /\
    (an_array t -> forall s, 0 <= s < 2 ^ 63 -> read_name (indexed nm s) = Some (nameHash t, Some s)).
Proof.
  intros Hd Harr Hlen Et. destruct (described_name c i t Hd Et) as (nm & G & M). exists nm. split; [exact G|].
  destruct Hd as (Hd & Hi & _ & Hn). destruct (Hi i t Et) as [_ Hh]. unfold GetName in G. destruct (xNames c) as [ns|].
  - destruct Hn as (_ & Hw & _). destruct (nth_error ns i) as [nm'|] eqn:En; [|discriminate]. injection G as ->.
    rewrite Forall_forall in Hw. pose proof (Hw _ (nth_error_In _ _ En)) as W. destruct (word_read nm W) as [Ec Em]. rewrite Ec in *. split.
    + rewrite (read_plain nm (word_no_dash nm W)), M. reflexivity.
    + intros _ s Hs. specialize (Hlen ns eq_refl). rewrite Forall_forall in Hlen. specialize (Hlen _ (nth_error_In _ _ En)). cbn beta in Hlen.
      rewrite (read_indexed nm s W Hlen Hs). congruence.
  - injection G as <-. split.
    + rewrite (read_plain _ (hash_no_dash _ Hh)), M. reflexivity.
    + intros X. exfalso. exact (Harr eq_refl t (nth_error_In _ _ Et) X).
Qed.

Lemma save_members2_ok f (P : nat -> reflType -> content -> Prop) ts : forall i,
  (forall j t, nth_error ts j = Some t -> exists x, f t (i + j)%nat = Some x /\ P (i + j)%nat t x) ->
  exists xs, length xs = length ts /\ save_members2 f ts i = Some (fold_right app_content ([], []) xs) /\
    forall j t x, nth_error ts j = Some t -> nth_error xs j = Some x -> P (i + j)%nat t x.
Proof.
  induction ts as [|t ts IH]; intros i H.
  - exists []. split; [reflexivity|]. split; [reflexivity|]. intros j t x E. destruct j; discriminate.
  - destruct (H 0%nat t eq_refl) as (x & E & Px). rewrite Nat.add_0_r in E, Px.
    destruct (IH (S i)) as (xs & L & Es & Hs). { intros j u Hu. specialize (H (S j) u Hu). rewrite Nat.add_succ_r in H. exact H. }
    exists (x :: xs). split; [cbn; congruence|]. split; [cbn [save_members2 fold_right]; rewrite E, Es; reflexivity|].
    intros [|j] u y Hu Hy; cbn [nth_error] in *; [rewrite Nat.add_0_r; congruence|]. rewrite Nat.add_succ_r. apply (Hs j); assumption.
Qed.
Lemma fold_covers a f n g (P : nat -> nat -> Prop) xs : forall i, (forall j x, nth_error xs j = Some x -> covers2 a f n g x (P (i + j)%nat)) ->
  covers2 a f n g (fold_right app_content ([], []) xs) (fun k => exists j, (j < length xs)%nat /\ P (i + j)%nat k).
Proof.
  induction xs as [|x xs IH]; intros i H.
  - eapply covers2_ext; [|apply covers2_nil]. intros k. split; [tauto|]. intros (j & Hj & _). cbn in Hj. lia.
  - cbn [fold_right]. eapply covers2_ext; [|apply covers2_app; [apply (H 0%nat x eq_refl)|apply (IH (S i))]].
    + intros k. cbn [length]. split.
      * intros [Hk|(j & Hj & Hk)]; [exists 0%nat; split; [lia|exact Hk]|exists (S j); split; [lia|]]. rewrite Nat.add_succ_r. exact Hk.
      * intros ([|j] & Hj & Hk); [left; exact Hk|right]. exists j. split; [lia|]. rewrite Nat.add_succ_r in Hk. exact Hk.
    + intros j y Hy. specialize (H (S j) y Hy). rewrite Nat.add_succ_r in H. exact H.
Qed.

Lemma covers2_load a e reg own n x P : covers2 a (LoadAttr e own) n (fun d => LoadKid2 (Load2Content d e reg) e reg own) x P ->
  forall f, (S n <= f)%nat -> moves a P (Load2Content f e reg own (fst x) (snd x)).
Proof.
  intros (PA & PK & H1 & H2 & H) f Hf. destruct f as [|f]; [lia|].
  eapply moves_ext; [intros k; symmetry; apply H|]. cbn [Load2Content]. apply moves_then; [apply covers_moves; exact H1|].
  apply covers_moves. apply H2. lia.
Qed.

Theorem xml2_round_trip : forall n e reg own a, writable2 n e reg own a -> bytes_ok a ->
  exists x, (forall f, (n <= f)%nat -> Save2Content f e reg own a = Some x) /\
    covers2 a (LoadAttr e own) (pred n) (fun d => LoadKid2 (Load2Content d e reg) e reg own) x (Bits reg own).
Proof.
  induction n as [|n IH]; intros e reg own a W Ha; [destruct W|]. destruct W as (Hd & Harr & Hlen & Hbase & HW).
  cbn [pred].
  assert (M : forall i t, nth_error (xTypes (fst own)) i = Some t -> exists x,
    (forall f, (n <= f)%nat -> SaveMember2 (fun o => Save2Content f e reg o a) e reg own a t i = Some x) /\
    covers2 a (LoadAttr e own) n (fun d => LoadKid2 (Load2Content d e reg) e reg own) x (part_bits reg own t)).
  { intros i t Et. destruct (HW t (nth_error_In _ _ Et)) as [HO HL].
    destruct (described_read _ i t Hd Harr Hlen Et) as (nm & Gn & R0 & Ri).
    destruct (described_id _ i t Hd Et) as [Ei En]. destruct (subclass_id _ i t Hd Et) as [Hsc Har].
    assert (VH : forall R (none : R) (g : Z -> R), via_hash (xinfo (fst own)) none g (nameHash t) = g (Z.of_nat i)).
    { intros R none g. unfold via_hash. rewrite (described_type _ i t Hd Et), En. reflexivity. }
    pose proof (VH bool false (IsReflectedSubClass (xinfo (fst own)))) as V1.
    destruct (IsReflectedSubClass (xinfo (fst own)) (Z.of_nat i)) eqn:Esc.
    - pose proof (proj1 Hsc eq_refl) as Ho. destruct (HO Ho) as (H0 & Hsz & Hnum & Hreg & Hch).
      destruct (reg (typeHash t)) as [kc|] eqn:Ereg; [|congruence].
      assert (Sv : SaveValue e own a t (Z.of_nat i) nm = Some None).
      { unfold SaveValue. destruct Ho as [[T|T]|[[T|T] _]]; rewrite T; reflexivity. }
      destruct (is_array t) eqn:Ea.
      + (* array of objects *)
        assert (Hoa : is_object_array t).
        { destruct Ho as [Ho|Ho]; [|exact Ho]. exfalso. unfold is_object in Ho. unfold is_array in Ea. destruct Ho as [Ho|Ho]; rewrite Ho in Ea; discriminate. }
        assert (Hno : ~ is_object t).
        { unfold is_object. intros [X|X]; unfold is_array in Ea; rewrite X in Ea; discriminate. }
        set (obj := fun s => (kc, (snd own + nat_offset t + Z.to_nat (s * subSize t))%nat)).
        assert (HX : forall s, 0 <= s < numItems t -> XSub reg own (Z.of_nat i) s = Some (obj s)).
        { intros s Hs. unfold XSub. destruct own as [c base]. cbn [fst snd] in *. rewrite Ei.
          replace (numItems t <=? s) with false by lia. rewrite andb_false_r.
          destruct Hoa as [[T|T] [K|K]]; rewrite T, K, Ereg; reflexivity. }
        assert (HC : forall s, 0 <= s < numItems t -> child reg own t (obj s)).
        { intros s Hs. split; [exact Ereg|]. right. split; [exact Hoa|]. exists s. split; [exact Hs|].
          unfold obj, nat_offset. cbn [snd]. assert (0 <= s * subSize t) by nia. lia. }
        set (h := fun s => match Save2Content n e reg (obj s) a with Some l => l | None => ([], []) end).
        assert (Hh : forall s, 0 <= s < numItems t -> (forall f, (n <= f)%nat -> Save2Content f e reg (obj s) a = Some (h s)) /\
           forall f, (n <= f)%nat -> moves a (Bits reg (obj s)) (Load2Content f e reg (obj s) (fst (h s)) (snd (h s)))).
        { intros s Hs. pose proof (Hch _ (HC s Hs)) as W. destruct n as [|n']; [destruct W|].
          destruct (IH e reg (obj s) a W Ha) as (x & E & P). unfold h. rewrite (E (S n') (le_n _)). split; [exact E|].
          intros f Hf. apply (covers2_load _ _ _ _ _ _ _ P). exact Hf. }
        exists ([], map (fun j => Elem (indexed nm (Z.of_nat j)) (fst (h (Z.of_nat j))) (snd (h (Z.of_nat j)))) (seq 0 (Z.to_nat (numItems t)))).
        split.
        * intros f Hf. unfold SaveMember2. cbv zeta. rewrite Gn, Sv, Esc, Har.
          apply (each_kids t _ (fun j => Elem (indexed nm (Z.of_nat j)) (fst (h (Z.of_nat j))) (snd (h (Z.of_nat j))))).
          intros j Hj. rewrite HX by lia. destruct (Hh (Z.of_nat j) ltac:(lia)) as [E _]. rewrite (E f Hf). reflexivity.
        * apply covers2_kids. intros d Hdn.
          eapply covers_ext; [|apply (covers_seq a _ _ (fun j => Bits reg (obj (Z.of_nat j))))].
          -- intros k. split.
             ++ intros (j & Hj & Hk). right. exists (obj (Z.of_nat j)). split; [apply HC; lia|exact Hk].
             ++ intros [(N1 & N2 & _)|(o & Hc & Hk)]; [contradiction|]. destruct Hc as [Er [[X _]|[_ (s & Hs & Es)]]]; [contradiction|].
                exists (Z.to_nat s). split; [lia|]. rewrite Z2Nat.id by lia.
                assert (Eo : o = obj s).
                { destruct o as [oc ob]. cbn [fst snd] in *. rewrite Ereg in Er. injection Er as <-. unfold obj, nat_offset. f_equal.
                  assert (0 <= s * subSize t) by nia. lia. }
                rewrite <- Eo. exact Hk.
          -- intros j Hj. destruct (Hh (Z.of_nat j) ltac:(lia)) as [_ P]. specialize (P d Hdn).
             eapply moves_eq; [|exact P]. intros b. symmetry. unfold LoadKid2. cbv zeta. cbn [xname xattrs xkids].
             rewrite (Ri ltac:(destruct Hoa as [[T|T] _]; [left|right]; exact T)) by lia.
             rewrite V1, (VH _ None (fun id => XSub reg own id (Z.of_nat j))), HX by lia. reflexivity.
      + (* one object *)
        assert (Ho1 : is_object t).
        { destruct Ho as [Ho|[[Ho|Ho] _]]; [exact Ho| |]; unfold is_array in Ea; rewrite Ho in Ea; discriminate. }
        set (o := (kc, (snd own + nat_offset t)%nat)).
        assert (HX : XSub reg own (Z.of_nat i) 0 = Some o).
        { unfold XSub. destruct own as [c base]. cbn [fst snd] in *. rewrite Ei. cbn [Z.eqb negb andb].
          destruct Ho1 as [T|T]; rewrite T, Ereg; unfold o; rewrite Nat.add_0_r; reflexivity. }
        assert (HC : child reg own t o).
        { split; [exact Ereg|]. left. split; [exact Ho1|]. unfold o, nat_offset. cbn [snd]. lia. }
        pose proof (Hch o HC) as W. destruct n as [|n']; [destruct W|].
        destruct (IH e reg o a W Ha) as (x & E & P). exists ([], [Elem (c_string nm) (fst x) (snd x)]). split.
        * intros f Hf. unfold SaveMember2. cbv zeta. rewrite Gn, Sv, Esc, Har, HX. rewrite (E f Hf). reflexivity.
        * apply covers2_kids. intros d Hdn. apply covers_one.
          eapply moves_ext; [|eapply moves_eq; [|apply (covers2_load _ _ _ _ _ _ _ P d Hdn)]].
          -- intros k. split.
             ++ intros Hk. right. exists o. split; assumption.
             ++ intros [(N1 & _)|(o' & Hc & Hk)]; [contradiction|]. destruct Hc as [Er [[_ Es]|[[X _] _]]].
                ** assert (Eo : o' = o).
                   { destruct o' as [oc ob]. cbn [fst snd] in *. rewrite Ereg in Er. injection Er as <-. unfold o, nat_offset. f_equal. lia. }
                   rewrite <- Eo. exact Hk.
                ** exfalso. unfold is_array in Ea. destruct X as [X|X]; rewrite X in Ea; discriminate.
          -- intros b. symmetry. unfold LoadKid2. cbv zeta. cbn [xname xattrs xkids]. rewrite R0, V1.
             rewrite (VH _ None (fun id => XSub reg own id 0)), HX. reflexivity.
    - assert (N1 : ~ is_object t) by (intros X; assert (false = true) by (apply Hsc; auto); discriminate).
      assert (N2 : ~ is_object_array t) by (intros X; assert (false = true) by (apply Hsc; auto); discriminate).
      destruct (leaf_any e reg own a Ha Hbase Hd i t Et N1 N2 nm Gn R0 Ri (HL N1 N2)) as (x & E & P).
      exists x. split; [intros f _; apply E|]. eapply covers2_ext; [|apply P]. intros k. split.
      + intros Hk. left. auto.
      + intros [(_ & _ & Hk)|(o & Hc & _)]; [exact Hk|]. exfalso. destruct Hc as [_ [[X _]|[X _]]]; contradiction. }
  (* the whole object *)
  destruct (save_members2_ok (fun t i => SaveMember2 (fun o => Save2Content n e reg o a) e reg own a t i)
     (fun i t x => (forall f, (n <= f)%nat -> SaveMember2 (fun o => Save2Content f e reg o a) e reg own a t i = Some x) /\
        covers2 a (LoadAttr e own) n (fun d => LoadKid2 (Load2Content d e reg) e reg own) x (part_bits reg own t)) (xTypes (fst own)) 0)
    as (xs & L & Es & Hs).
  { intros j t Hj. destruct (M j t Hj) as (x & E & C). exists x. split; [apply E; lia|]. split; [exact E|exact C]. }
  exists (fold_right app_content ([], []) xs). split.
  - intros f Hf. destruct f as [|f]; [lia|]. cbn [Save2Content].
    assert (X : forall ts ys i, length ys = length ts ->
      (forall j t x, nth_error ts j = Some t -> nth_error ys j = Some x -> SaveMember2 (fun o => Save2Content f e reg o a) e reg own a t (i + j) = Some x) ->
      save_members2 (SaveMember2 (fun o => Save2Content f e reg o a) e reg own a) ts i = Some (fold_right app_content ([], []) ys)).
    { clear. induction ts as [|t ts IHt]; intros ys i L H; [destruct ys; [reflexivity|discriminate]|]. destruct ys as [|y ys]; [discriminate|].
      cbn [save_members2 fold_right]. pose proof (H 0%nat t y eq_refl eq_refl) as E. rewrite Nat.add_0_r in E. rewrite E.
      rewrite (IHt ys (S i)); [reflexivity|cbn in L; congruence|]. intros j u x Hu Hx. specialize (H (S j) u x Hu Hx). rewrite Nat.add_succ_r in H. exact H. }
    apply X; [exact L|]. intros j t x Hj Hx. apply (Hs j t x Hj Hx). lia.
  - eapply covers2_ext; [|apply (fold_covers a _ n _ (fun j k => exists t, nth_error (xTypes (fst own)) j = Some t /\ part_bits reg own t k) xs 0)].
    + intros k. rewrite Bits_parts. split.
      * intros (j & Hj & t & Et & Hk). exists t. split; [apply (nth_error_In _ _ Et)|exact Hk].
      * intros (t & Hi & Hk). apply In_nth_error in Hi. destruct Hi as (j & Et). exists j. split; [|exists t; auto].
        rewrite L. apply nth_error_Some. cbn [Nat.add]. congruence.
    + intros j x Hx. destruct (nth_error (xTypes (fst own)) j) as [t|] eqn:Et.
      * destruct (Hs j t x Et Hx) as [_ C]. eapply covers2_ext; [|exact C]. intros k. cbn [Nat.add]. split; [intros Hk; exists t; auto|].
        intros (u & Eu & Hk). congruence.
      * apply nth_error_None in Et. assert (j < length xs)%nat by (apply nth_error_Some; congruence). lia.
Qed.
