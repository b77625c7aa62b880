(** Saving and loading whole objects. *)
From Verif Require Import Base Jenkins_Model FileInfo_Model StringView_Model Reflector_Model Reflector_Spec
  Reflector_Proof Reflector_Props RefAccess_Model XmlRefl_Model XmlRefl_Spec XmlRefl_Leaf_Proof XmlRefl_Bits_Proof XmlRefl_Names_Proof.

(** ** Composition *)
(** running [f] leaves the bits [R] of [a] in every memory of the same size *)
Definition moves (a : list Z) (R : nat -> Prop) (f : list Z -> option (list Z)) : Prop :=
  forall b, length b = length a -> bytes_ok b -> exists b', f b = Some b' /\ bytes_ok b' /\ copied R a b b'.
Lemma moves_ext a (R R' : nat -> Prop) f : (forall k, R k <-> R' k) -> moves a R f -> moves a R' f.
Proof. intros E H b L B. destruct (H b L B) as (b' & F & B' & C). exists b'. repeat split; try assumption; eapply copied_ext; eassumption. Qed.
Lemma moves_eq a R f g : (forall b, f b = g b) -> moves a R f -> moves a R g.
Proof. intros E H b L B. destruct (H b L B) as (b' & F & B' & C). exists b'. rewrite <- E. auto. Qed.
Lemma moves_fold {A} a (R : A -> nat -> Prop) f l : (forall x, In x l -> moves a (R x) (f x)) ->
  moves a (fun k => exists x, In x l /\ R x k) (fold_mem f l).
Proof.
  induction l as [|x l IH]; intros H b L B.
  - exists b. split; [reflexivity|]. split; [exact B|]. apply copied_none. intros k (x & [] & _).
  - destruct (H x (or_introl eq_refl) b L B) as (b1 & E1 & B1 & C1).
    destruct (IH (fun y Hy => H y (or_intror Hy)) b1 ltac:(destruct C1; congruence) B1) as (b2 & E2 & B2 & C2).
    exists b2. cbn [fold_mem]. rewrite E1. split; [exact E2|]. split; [exact B2|].
    eapply copied_ext; [|apply (copied_seq _ _ _ _ _ _ C1 C2)]. intros k. cbn [In]. split.
    + intros [Hk|(y & Hy & Hk)]; [exists x; auto|exists y; auto].
    + intros (y & [->|Hy] & Hk); [left; exact Hk|right; exists y; auto].
Qed.

(** ** One member that is not an object *)
Lemma copied_shift base (R : nat -> Prop) a b m : length b = length a -> (base <= length a)%nat ->
  copied R (skipn base a) (skipn base b) m ->
  copied (fun k => exists k', k = (8 * base + k')%nat /\ R k') a b (firstn base b ++ m).
Proof.
  intros L Hb [Lm H]. rewrite skipn_length in Lm. split.
  - rewrite app_length, firstn_length, Lm. lia.
  - intros k. unfold bit. pose proof (Nat.div_mod k 8 ltac:(lia)) as D. pose proof (Nat.mod_upper_bound k 8 ltac:(lia)) as M.
    destruct (Nat.lt_ge_cases (k / 8) base) as [C|C].
    + right. split; [intros (k' & -> & _); lia|]. rewrite app_nth1 by (rewrite firstn_length; lia). rewrite nth_firstn by exact C. reflexivity.
    + rewrite app_nth2 by (rewrite firstn_length; lia). rewrite firstn_length, Nat.min_l by lia.
      set (k' := (k - 8 * base)%nat).
      assert (E1 : (k' / 8 = k / 8 - base)%nat) by (symmetry; apply Nat.div_unique with (r := (k mod 8)%nat); unfold k'; lia).
      assert (E2 : (k' mod 8 = k mod 8)%nat) by (symmetry; apply Nat.mod_unique with (q := (k / 8 - base)%nat); unfold k'; lia).
      specialize (H k'). unfold bit in H. rewrite E1, E2, !nth_skipn in H.
      replace (base + (k / 8 - base))%nat with (k / 8)%nat in H by lia.
      destruct H as [[Rk E]|[Rk E]]; [left|right]; (split; [|exact E]).
      * exists k'. split; [unfold k'; lia|exact Rk].
      * intros (q & Eq & Rq). apply Rk. replace k' with q by (unfold k'; lia). exact Rq.
Qed.
Lemma text_buffer s : text_ok s -> (exists c r, s = c :: r /\ c <> 32) -> append_buffer s = Some [Txt s].
Proof.
  intros F (c & r & -> & Hc). unfold append_buffer.
  assert (V : forallb verbatim (c :: r) = true).
  { apply forallb_forall. intros x Hx. unfold text_ok in F. rewrite Forall_forall in F. specialize (F x Hx). cbn beta in F. unfold verbatim. lia. }
  rewrite V. inversion F; subst. cbn [forallb]. assert (X : xspace c = false) by (unfold xspace; lia). rewrite X. reflexivity.
Qed.

Section Object.
  Context (e : env) (reg : registry) (own : xinst) (a : list Z) (Ha : bytes_ok a) (Hbase : (snd own <= length a)%nat)
          (Hd : described (fst own)).

  Lemma leaf_member i t : nth_error (xTypes (fst own)) i = Some t -> textual e t (skipn (snd own) a) ->
    (forall s, GetReflectedValue e [t] 0 (skipn (snd own) a) = Some s -> Z.of_nat (length s) < 2 ^ 64) ->
    exists s, GetAt e own (Z.of_nat i) a = Some s /\ append_buffer s = Some [Txt s] /\
      moves a (fun k => exists k', k = (8 * snd own + k')%nat /\ member_bits t k') (SetAt e own (nameHash t) s).
  Proof.
    intros Et Tx Hl.
    assert (Hs : bytes_ok (skipn (snd own) a)) by (apply Forall_forall; intros x Hx; unfold bytes_ok in Ha; rewrite Forall_forall in Ha; apply Ha; apply skipn_In in Hx; exact Hx).
    destruct (textual_text e t _ Hs Tx) as (s & G & T & N & P). exists s.
    destruct (described_id _ i t Hd Et) as [Ei _].
    split; [unfold GetAt, GetReflectedValue; rewrite Ei; exact G|]. split; [apply text_buffer; assumption|].
    intros b L B. unfold SetAt, SetByHash. rewrite (described_type _ i t Hd Et).
    destruct (P (Hl s G) (skipn (snd own) b)) as (err & m & -> & Bm & C).
    { rewrite !skipn_length. lia. }
    { apply Forall_forall; intros x Hx; unfold bytes_ok in B; rewrite Forall_forall in B; apply B; apply skipn_In in Hx; exact Hx. }
    cbn [put_back]. eexists. split; [reflexivity|]. split.
    - unfold bytes_ok. apply Forall_app. split; [|exact Bm]. apply Forall_forall; intros x Hx; unfold bytes_ok in B; rewrite Forall_forall in B; apply B; apply firstn_In in Hx; exact Hx.
    - apply copied_shift; assumption.
  Qed.
End Object.

(** ** The loops *)
Lemma save_elems_ok f (h : Z -> list xml) n : forall s, (forall i, s <= i < s + Z.of_nat n -> f i = Some (h i)) ->
  save_elems f n s = Some (map (fun i => Elem ([105; 58] ++ to_string (s + Z.of_nat i)) [] (h (s + Z.of_nat i))) (seq 0 n)).
Proof.
  induction n as [|n IH]; intros s H; [reflexivity|]. cbn [save_elems]. rewrite H by lia. rewrite IH by (intros; apply H; lia).
  cbn [seq map]. rewrite Z.add_0_r. rewrite <- seq_shift, map_map. do 2 f_equal. apply map_ext. intros i.
  replace (s + 1 + Z.of_nat i) with (s + Z.of_nat (S i)) by lia. reflexivity.
Qed.
Lemma save_loop_ok c f (N : reflType -> nat -> list Z) (K : reflType -> nat -> list xml) ts : forall i,
  (forall j t, nth_error ts j = Some t -> GetName c t (i + j) = Some (N t (i + j)%nat) /\ f t (i + j)%nat = Some (K t (i + j)%nat)) ->
  exists l, save_loop c f ts i = Some l /\
    length l = length ts /\ forall j t, nth_error ts j = Some t -> nth_error l j = Some (Elem (c_string (N t (i + j)%nat)) [] (K t (i + j)%nat)).
Proof.
  induction ts as [|t ts IH]; intros i H.
  - exists []. repeat split. intros j t E. destruct j; discriminate.
  - destruct (H 0%nat t eq_refl) as [E1 E2]. rewrite Nat.add_0_r in E1, E2.
    destruct (IH (S i)) as (l & E & L & Hl). { intros j u Hu. specialize (H (S j) u Hu). rewrite Nat.add_succ_r in H. exact H. }
    cbn [save_loop]. rewrite E1, E2, E. eexists. split; [reflexivity|]. split; [cbn [length]; congruence|].
    intros [|j] u Hu; cbn [nth_error] in *; [injection Hu as <-; rewrite Nat.add_0_r; reflexivity|].
    rewrite Nat.add_succ_r. apply Hl. exact Hu.
Qed.

Lemma object_kind_class k : object_kind k <-> is_class k = true.
Proof. unfold object_kind. destruct k; cbn; split; intros H; try (destruct H; discriminate); try discriminate; auto. Qed.
Lemma subclass_id c i t : described c -> nth_error (xTypes c) i = Some t ->
  (IsReflectedSubClass (xinfo c) (Z.of_nat i) = true <-> is_object t \/ is_object_array t) /\
  IsArray (xinfo c) (Z.of_nat i) = is_array t.
Proof.
  intros Hd Et. destruct (described_id c i t Hd Et) as [Ei En]. unfold IsReflectedSubClass, IsArray. cbn [xinfo iTypes].
  rewrite Ei, En, Ei. split; [|reflexivity]. rewrite orb_true_iff, andb_true_iff. unfold is_object, is_object_array.
  rewrite !object_kind_class. unfold is_array. destruct (type t); intuition discriminate.
Qed.

Lemma Bits_parts reg own k : Bits reg own k <-> exists t, In t (xTypes (fst own)) /\ part_bits reg own t k.
Proof.
  split.
  - intros H. destruct H as [own t k Hi N1 N2 Hm|own t o k Hi Hc Hk].
    + exists t. split; [exact Hi|]. left. split; [exact N1|]. split; [exact N2|]. exists k. split; [reflexivity|exact Hm].
    + exists t. split; [exact Hi|]. right. exists o. auto.
  - intros (t & Hi & [(N1 & N2 & k' & -> & Hm)|(o & Hc & Hk)]); [eapply bits_member; eassumption|eapply bits_child; eassumption].
Qed.

Lemma nth_error_ext' {A} (l m : list A) : (forall i, nth_error l i = nth_error m i) -> l = m.
Proof.
  revert m. induction l as [|x l IH]; intros m H; destruct m as [|y m]; [reflexivity|specialize (H 0%nat); discriminate|specialize (H 0%nat); discriminate|].
  pose proof (H 0%nat) as E. injection E as ->. f_equal. apply IH. intros i. apply (H (S i)).
Qed.

Theorem xml_round_trip : forall n e reg own a, writable n e reg own a -> bytes_ok a ->
  exists kids, (forall f, (n <= f)%nat -> SaveKids f e reg own a = Some kids) /\
    (forall f, (n <= f)%nat -> moves a (Bits reg own) (LoadKids f e reg own kids)) /\
    length kids = length (xTypes (fst own)) /\
    forall j t x, nth_error (xTypes (fst own)) j = Some t -> nth_error kids j = Some x ->
      forall f, (n <= f)%nat -> moves a (part_bits reg own t) (LoadKids f e reg own [x]).
Proof.
  induction n as [|n IH]; intros e reg own a W Ha; [destruct W|]. destruct W as (Hd & Hbase & HW).
  (* every member *)
  assert (M : forall i t, nth_error (xTypes (fst own)) i = Some t -> exists k,
    (forall f, (n <= f)%nat ->
         (if IsReflectedSubClass (xinfo (fst own)) (Z.of_nat i) then
           if IsArray (xinfo (fst own)) (Z.of_nat i) then
             save_elems (fun s => match XSub reg own (Z.of_nat i) s with
                                  | Some k => SaveKids f e reg k a
                                  | None => None
                                  end) (Z.to_nat (numItems t)) 0
           else match XSub reg own (Z.of_nat i) 0 with
                | Some k => SaveKids f e reg k a
                | None => None
                end
         else match GetAt e own (Z.of_nat i) a with
              | Some s => append_buffer s
              | None => None
              end) = Some k) /\
    forall f nm, (n <= f)%nat -> moves a (part_bits reg own t)
      (fun mem => let a := Elem nm [] k in let hash := nameHash t in
      if via_hash (xinfo (fst own)) false (IsReflectedSubClass (xinfo (fst own))) hash then
        if via_hash (xinfo (fst own)) false (IsArray (xinfo (fst own))) hash then
          fold_mem (fun sc mem =>
            if (length (xname sc) <? 2)%nat then None
            else
            match via_hash (xinfo (fst own)) None (fun id => XSub reg own id (u64 (atoll (skipn 2 (xname sc))))) hash with
            | Some k => LoadKids f e reg k (xkids sc) mem
            | None => None
            end) (xkids a) mem
        else match via_hash (xinfo (fst own)) None (fun id => XSub reg own id 0) hash with
             | Some k => LoadKids f e reg k (xkids a) mem
             | None => None
             end
      else SetAt e own hash (xtext a) mem)).
  { intros i t Et. destruct (HW t (nth_error_In _ _ Et)) as [HO HL].
    destruct (described_id _ i t Hd Et) as [Ei En]. destruct (subclass_id _ i t Hd Et) as [Hsc Har].
    assert (VH : forall R (none : R) (g : Z -> R), via_hash (xinfo (fst own)) none g (nameHash t) = g (Z.of_nat i)).
    { intros R none g. unfold via_hash. rewrite (described_type _ i t Hd Et), En. reflexivity. }
    pose proof (VH bool false (IsReflectedSubClass (xinfo (fst own)))) as V1. pose proof (VH bool false (IsArray (xinfo (fst own)))) as V2.
    destruct (IsReflectedSubClass (xinfo (fst own)) (Z.of_nat i)) eqn:Esc.
    - pose proof (proj1 Hsc eq_refl) as Ho. destruct (HO Ho) as (H0 & Hsz & Hnum & Hreg & Hch). rewrite Har.
      destruct (reg (typeHash t)) as [kc|] eqn:Ereg; [|congruence].
      destruct (is_array t) eqn:Ea.
      + (* array of objects *)
        assert (Hoa : is_object_array t).
        { destruct Ho as [Ho|Ho]; [|exact Ho]. exfalso. unfold is_object in Ho. unfold is_array in Ea. destruct Ho as [Ho|Ho]; rewrite Ho in Ea; discriminate. }
        assert (Hno : ~ is_object t).
        { unfold is_object. intros [X|X]; unfold is_array in Ea; rewrite X in Ea; discriminate. }
        set (obj := fun s => (kc, (snd own + nat_offset t + Z.to_nat (s * subSize t))%nat)).
        assert (HX : forall s, 0 <= s < numItems t -> XSub reg own (Z.of_nat i) s = Some (obj s)).
        { intros s Hs. unfold XSub. destruct own as [c base]. cbn [fst snd] in *. rewrite Ei.
          replace (numItems t <=? s) with false by lia. rewrite andb_false_r.
          destruct Hoa as [[T|T] [K|K]]; rewrite T, K, Ereg; reflexivity. }
        assert (HC : forall s, 0 <= s < numItems t -> child reg own t (obj s)).
        { intros s Hs. split; [exact Ereg|]. right. split; [exact Hoa|]. exists s. split; [exact Hs|].
          unfold obj, nat_offset. cbn [snd]. assert (0 <= s * subSize t) by nia. lia. }
        assert (HI : forall s, 0 <= s < numItems t -> exists kids, (forall f, (n <= f)%nat -> SaveKids f e reg (obj s) a = Some kids) /\
           forall f, (n <= f)%nat -> moves a (Bits reg (obj s)) (LoadKids f e reg (obj s) kids)).
        { intros s Hs. destruct (IH e reg (obj s) a) as (kids & E & P & _); [apply Hch, HC; exact Hs|exact Ha|]. exists kids. auto. }
        set (h := fun s => match SaveKids n e reg (obj s) a with Some l => l | None => [] end).
        assert (Hh : forall s, 0 <= s < numItems t -> (forall f, (n <= f)%nat -> SaveKids f e reg (obj s) a = Some (h s)) /\
           forall f, (n <= f)%nat -> moves a (Bits reg (obj s)) (LoadKids f e reg (obj s) (h s))).
        { intros s Hs. destruct (HI s Hs) as (kids & E & P). unfold h. rewrite (E n (le_n n)). auto. }
        exists (map (fun j => Elem ([105; 58] ++ to_string (0 + Z.of_nat j)) [] (h (0 + Z.of_nat j))) (seq 0 (Z.to_nat (numItems t)))).
        split.
        * intros f Hf. apply save_elems_ok. intros s Hs. rewrite HX by lia. apply Hh; [lia|exact Hf].
        * intros f nm Hf. cbn [xkids].
          eapply moves_ext; [|eapply moves_eq; [intros b; cbv zeta; rewrite V1, V2, Har; try rewrite Ea; reflexivity|]]; cycle 1.
          { apply (moves_fold a (fun sc => Bits reg (obj (u64 (atoll (skipn 2 (xname sc))))))).
            intros sc Hsc'. apply in_map_iff in Hsc'. destruct Hsc' as (j & <- & Hj). apply in_seq in Hj. rewrite Z.add_0_l.
            set (s := Z.of_nat j) in *. assert (Hs : 0 <= s < numItems t) by (unfold s; lia).
            cbn [xname app length Nat.ltb Nat.leb skipn xkids].
            rewrite atoll_to_string by lia.
            eapply moves_eq; [intros b; rewrite (VH _ None (fun id => XSub reg own id s)), HX by exact Hs; reflexivity|]. apply Hh; assumption. }
          intros k. split.
          -- intros (sc & Hsc' & Hk). right. apply in_map_iff in Hsc'. destruct Hsc' as (j & <- & Hj). apply in_seq in Hj.
             rewrite Z.add_0_l in Hk. cbn [xname app skipn] in Hk. rewrite atoll_to_string in Hk by lia. eexists. split; [apply HC|exact Hk]. lia.
          -- intros [(N1 & N2 & _)|(o & Hc & Hk)]; [contradiction|]. destruct Hc as [Er [[X _]|[_ (s & Hs & Es)]]]; [contradiction|].
             exists (Elem ([105; 58] ++ to_string s) [] (h s)). split.
             ++ apply in_map_iff. exists (Z.to_nat s). rewrite Z2Nat.id by lia. split; [reflexivity|]. apply in_seq. lia.
             ++ cbn [xname app skipn]. rewrite atoll_to_string by lia.
                assert (Eo : o = obj s).
                { destruct o as [oc ob]. cbn [fst snd] in *. rewrite Ereg in Er. injection Er as <-. unfold obj, nat_offset. f_equal.
                  assert (0 <= s * subSize t) by nia. lia. }
                rewrite <- Eo. exact Hk.
      + (* one object *)
        assert (Ho1 : is_object t).
        { destruct Ho as [Ho|[[Ho|Ho] _]]; [exact Ho| |]; unfold is_array in Ea; rewrite Ho in Ea; discriminate. }
        set (o := (kc, (snd own + nat_offset t)%nat)).
        assert (HX : XSub reg own (Z.of_nat i) 0 = Some o).
        { unfold XSub. destruct own as [c base]. cbn [fst snd] in *. rewrite Ei. cbn [Z.eqb negb andb].
          destruct Ho1 as [T|T]; rewrite T, Ereg; unfold o; rewrite Nat.add_0_r; reflexivity. }
        assert (HC : child reg own t o).
        { split; [exact Ereg|]. left. split; [exact Ho1|]. unfold o, nat_offset. cbn [snd]. lia. }
        destruct (IH e reg o a (Hch o HC) Ha) as (kids & E & P & _). exists kids. split.
        * intros f Hf. rewrite HX. apply E. exact Hf.
        * intros f nm Hf. cbn [xkids]. eapply moves_ext; [|eapply moves_eq; [intros b; cbv zeta; rewrite V1, V2, Har; try rewrite Ea; rewrite (VH _ None (fun id => XSub reg own id 0)), HX; reflexivity|apply P; exact Hf]].
          intros k. split.
          -- intros Hk. right. exists o. split; assumption.
          -- intros [(N1 & _)|(o' & Hc & Hk)]; [contradiction|]. destruct Hc as [Er [[_ Es]|[[X _] _]]].
             ++ assert (Eo : o' = o).
                { destruct o' as [oc ob]. cbn [fst snd] in *. rewrite Ereg in Er. injection Er as <-. unfold o, nat_offset. f_equal. lia. }
                rewrite <- Eo. exact Hk.
             ++ exfalso. unfold is_array in Ea. destruct X as [X|X]; rewrite X in Ea; discriminate.
    - assert (N1 : ~ is_object t) by (intros X; assert (false = true) by (apply Hsc; auto); discriminate).
      assert (N2 : ~ is_object_array t) by (intros X; assert (false = true) by (apply Hsc; auto); discriminate).
      destruct (HL N1 N2) as [Tx Hlen].
      destruct (leaf_member e own a Ha Hbase Hd i t Et Tx Hlen) as (s & G & B & P).
      exists [Txt s]. split; [intros f _; rewrite G; exact B|].
      intros f nm _. cbn [xtext first_text]. eapply moves_ext; [|eapply moves_eq; [intros b; cbv zeta; rewrite V1; reflexivity|exact P]].
      intros k. split.
      + intros Hk. left. auto.
      + intros [(_ & _ & Hk)|(o & Hc & _)]; [exact Hk|]. exfalso. destruct Hc as [_ [[X _]|[X _]]]; contradiction. }
  (* the whole object *)
  set (K := fun (t : reflType) (i : nat) =>
         match (if IsReflectedSubClass (xinfo (fst own)) (Z.of_nat i) then
           if IsArray (xinfo (fst own)) (Z.of_nat i) then
             save_elems (fun s => match XSub reg own (Z.of_nat i) s with
                                  | Some k => SaveKids n e reg k a
                                  | None => None
                                  end) (Z.to_nat (numItems t)) 0
           else match XSub reg own (Z.of_nat i) 0 with
                | Some k => SaveKids n e reg k a
                | None => None
                end
         else match GetAt e own (Z.of_nat i) a with
              | Some s => append_buffer s
              | None => None
              end) with Some k => k | None => [] end).
  set (N := fun (t : reflType) (i : nat) => match GetName (fst own) t i with Some nm => nm | None => [] end).
  assert (HN : forall i t, nth_error (xTypes (fst own)) i = Some t -> GetName (fst own) t i = Some (N t i) /\ MakeHash (c_string (N t i)) = nameHash t).
  { intros i t Et. destruct (described_name _ i t Hd Et) as (nm & E & Hm). unfold N. rewrite E. auto. }
  destruct (save_loop_ok (fst own)
      (fun t i =>
         let id := Z.of_nat i in
         if IsReflectedSubClass (xinfo (fst own)) id then
           if IsArray (xinfo (fst own)) id then
             save_elems (fun s => match XSub reg own id s with
                                  | Some k => SaveKids n e reg k a
                                  | None => None
                                  end) (Z.to_nat (numItems t)) 0
           else match XSub reg own id 0 with
                | Some k => SaveKids n e reg k a
                | None => None
                end
         else match GetAt e own id a with
              | Some s => append_buffer s
              | None => None
              end) N K (xTypes (fst own)) 0) as (kids & Ek & Lk & Hk).
  { intros j t Et. cbn [Nat.add]. split; [apply HN; exact Et|]. destruct (M j t Et) as (k & E & _).
    cbv zeta. unfold K. rewrite (E n (le_n n)). reflexivity. }
  assert (One : forall j t x, nth_error (xTypes (fst own)) j = Some t -> nth_error kids j = Some x ->
      forall f, (S n <= f)%nat -> moves a (part_bits reg own t) (LoadKids f e reg own [x])).
  { intros j t x Et Ej f Hf. destruct f as [|f]; [lia|].
    pose proof (Hk j t Et) as Ex. rewrite Ej in Ex. cbn [Nat.add] in Ex. injection Ex as ->.
    destruct (HN j t Et) as [_ Eh]. destruct (M j t Et) as (k & E & P).
    assert (EK : K t j = k) by (unfold K; rewrite (E n (le_n n)); reflexivity). rewrite EK in *.
    intros b Lb Bb. destruct (P f (c_string (N t j)) ltac:(lia) b Lb Bb) as (b' & E1 & B1 & C1). exists b'.
    split; [|split; assumption]. cbn [LoadKids fold_mem]. cbv zeta. cbn [xname]. rewrite Eh. cbv zeta in E1. rewrite E1. reflexivity. }
  exists kids. split; [|split; [|split; [exact Lk|exact One]]].
  - intros [|f] Hf; [lia|]. cbn [SaveKids]. cbv zeta.
    destruct (save_loop_ok (fst own)
      (fun t i =>
         if IsReflectedSubClass (xinfo (fst own)) (Z.of_nat i) then
           if IsArray (xinfo (fst own)) (Z.of_nat i) then
             save_elems (fun s => match XSub reg own (Z.of_nat i) s with
                                  | Some k => SaveKids f e reg k a
                                  | None => None
                                  end) (Z.to_nat (numItems t)) 0
           else match XSub reg own (Z.of_nat i) 0 with
                | Some k => SaveKids f e reg k a
                | None => None
                end
         else match GetAt e own (Z.of_nat i) a with
              | Some s => append_buffer s
              | None => None
              end) N K (xTypes (fst own)) 0) as (kids' & Ek' & Lk' & Hk').
    { intros j t Et. cbn [Nat.add]. split; [apply HN; exact Et|]. destruct (M j t Et) as (k & E & _).
      unfold K. rewrite (E n (le_n n)). apply E. lia. }
    rewrite Ek'. f_equal. apply nth_error_ext'. intros j.
    destruct (nth_error (xTypes (fst own)) j) as [t|] eqn:Et; [rewrite (Hk j t Et), (Hk' j t Et); reflexivity|].
    apply nth_error_None in Et. rewrite (proj2 (nth_error_None kids j)), (proj2 (nth_error_None kids' j)) by lia. reflexivity.
  - intros [|f] Hf; [lia|]. cbn [LoadKids]. cbv zeta.
    eapply moves_ext; [|apply (moves_fold a (fun x k => exists j t, nth_error (xTypes (fst own)) j = Some t /\ nth_error kids j = Some x /\ part_bits reg own t k))].
    + intros k. rewrite Bits_parts. split.
      * intros (x & _ & j & t & Et & _ & Pk). exists t. split; [apply (nth_error_In _ _ Et)|exact Pk].
      * intros (t & Ht & Pk). apply In_nth_error in Ht. destruct Ht as [j Et]. exists (Elem (c_string (N t (0 + j)%nat)) [] (K t (0 + j)%nat)).
        split; [apply (nth_error_In _ j); apply Hk; exact Et|]. exists j, t. auto.
    + intros x Hx. apply In_nth_error in Hx. destruct Hx as [j Ej].
      assert (Hj : (j < length (xTypes (fst own)))%nat) by (rewrite <- Lk; apply nth_error_Some; congruence).
      destruct (nth_error (xTypes (fst own)) j) as [t|] eqn:Et; [|apply nth_error_None in Et; lia].
      eapply moves_ext; [|eapply moves_eq; [|apply (One j t x Et Ej (S f) Hf)]].
      * intros q. split; [intros Pq; exists j, t; auto|]. intros (j' & t' & Et' & Ej' & Pq).
        assert (t' = t); [|congruence]. pose proof (Hk j' t' Et') as Ex'. rewrite Ej' in Ex'. cbn [Nat.add] in Ex'. injection Ex' as ->.
        pose proof (Hk j t Et) as Ex. rewrite Ej in Ex. cbn [Nat.add] in Ex. injection Ex as En _.
        destruct (HN j' t' Et') as [_ Eh']. destruct (HN j t Et) as [_ Eh]. rewrite En, Eh in Eh'.
        pose proof (described_type _ j t Hd Et) as X. pose proof (described_type _ j' t' Hd Et') as Y. congruence.
      * intros b. cbn [LoadKids fold_mem]. cbv zeta. match goal with |- match ?x with _ => _ end = _ => destruct x; reflexivity end.
Qed.
