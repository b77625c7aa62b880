From Coq Require Import Sorted.
From Verif Require Import Base FileInfo_Model FileInfo_Spec DirScan_Model DirScan_Spec.

Lemma starts_with_spec s f : starts_with s f = true <-> exists b, s = f ++ b.
Proof.
  revert s. induction f as [|x f IH]; intros s; cbn [starts_with].
  - split; intros _; [|destruct s; reflexivity]. exists s. reflexivity.
  - destruct s as [|y s].
    + split; [discriminate|]. intros [b H]. discriminate.
    + change (starts_with (y :: s) (x :: f)) with ((x =? y) && starts_with s f). rewrite andb_true_iff, IH. split.
      * intros [E [b ->]]. apply Z.eqb_eq in E. subst. exists b. reflexivity.
      * intros [b E]. cbn in E. apply cons_inj in E. destruct E as [-> ->].
        split; [apply Z.eqb_refl|eauto].
Qed.

Lemma contains_spec s f : contains s f = true <-> exists a b, s = a ++ f ++ b.
Proof.
  induction s as [|y s IH]; cbn [contains].
  - rewrite orb_false_r, starts_with_spec. split.
    + intros [b E]. exists [], b. exact E.
    + intros (a & b & E). symmetry in E. apply app_eq_nil in E. destruct E as [-> E]. exists b. symmetry; exact E.
  - rewrite orb_true_iff, starts_with_spec, IH. split.
    + intros [[b E]|(a & b & ->)]; [exists [], b; exact E|exists (y :: a), b; reflexivity].
    + intros (a & b & E). destruct a as [|z a]; [left; exists b; exact E|right].
      cbn in E. apply cons_inj in E. destruct E as [-> ->]. eauto.
Qed.

Lemma filtered_spec fl n : IsFilteredFile fl n = true <-> wanted fl n.
Proof.
  unfold IsFilteredFile, wanted. destruct fl as [|f0 fl]; [tauto|].
  rewrite existsb_exists. split.
  - intros (f & Hf & C). apply contains_spec in C. destruct C as (a & b & E). right. eauto 6.
  - intros [C|(f & a & b & Hf & E)]; [discriminate|]. exists f. split; [assumption|].
    apply contains_spec. eauto.
Qed.

Lemma is_dots_spec e : negb (is_dots (d_name e)) = real_entry e.
Proof.
  unfold real_entry, is_dots. change cDot with dot.
  destruct (list_eq_dec Z.eq_dec (d_name e) [dot]) as [->|N1]; [reflexivity|].
  destruct (list_eq_dec Z.eq_dec (d_name e) [dot; dot]) as [->|N2]; [reflexivity|].
  destruct (d_name e) as [|a [|b [|c l]]]; try reflexivity.
  - destruct (Z.eqb_spec a dot); [subst; congruence|reflexivity].
  - destruct (Z.eqb_spec a dot), (Z.eqb_spec b dot); subst; congruence || reflexivity.
Qed.

Lemma scan_prefix_sub dir d : d <> [] -> last d 0 <> cQuote -> last d 0 <> backslash -> last d 0 <> slash ->
  scan_prefix (dir ++ d) = dir ++ d ++ [slash].
Proof.
  intros Hn H1 H2 H3.
  assert (L : last (dir ++ d) 0 = last d 0).
  { clear - Hn. induction dir as [|x dir IH]; [reflexivity|]. cbn [app].
    destruct (dir ++ d) eqn:E; [|exact IH]. apply app_eq_nil in E. destruct E; congruence. }
  unfold scan_prefix. rewrite L.
  destruct (dir ++ d) eqn:E.
  { apply app_eq_nil in E. destruct E; congruence. }
  rewrite <- E. cbv zeta.
  destruct (Z.eqb_spec (last d 0) cQuote); [congruence|].
  destruct (Z.eqb_spec (last d 0) cBack); [exfalso; apply H2; assumption|].
  destruct (Z.eqb_spec (last d 0) cSlash); [exfalso; apply H3; assumption|].
  cbn [negb andb]. rewrite <- app_assoc. reflexivity.
Qed.

Lemma last_in {A} (l : list A) d : l <> [] -> In (last l d) l.
Proof.
  induction l as [|x l IH]; [congruence|]. intros _. destruct l as [|y l]; [left; reflexivity|].
  right. apply IH. discriminate.
Qed.

Lemma first_slash a b p q : ~ In slash a -> ~ In slash b -> a ++ slash :: p = b ++ slash :: q -> a = b /\ p = q.
Proof.
  revert b. induction a as [|x a IH]; intros [|y b] Ha Hb E; cbn in E; apply cons_inj in E; destruct E as [E1 E2].
  - auto.
  - exfalso. apply Hb. left. congruence.
  - exfalso. apply Ha. left. congruence.
  - subst y. destruct (IH b) as [-> ->]; auto; intros X; [apply Ha|apply Hb]; right; exact X.
Qed.

Lemma NoDup_app_iff {A} (l m : list A) :
  NoDup l /\ NoDup m /\ (forall x, In x l -> ~ In x m) -> NoDup (l ++ m).
Proof.
  intros (N1 & N2 & D). induction N1 as [|x l Hx N1 IH]; [exact N2|]. cbn. constructor.
  - rewrite in_app_iff. intros [H|H]; [exact (Hx H)|]. apply (D x); [left; reflexivity|exact H].
  - apply IH. intros y Hy. apply D. right. exact Hy.
Qed.

Section Scan.
  Context (o : fs) (filters : list (list Z)).

  Definition lists (dir : list Z) (t : tree) (listing : list (list Z)) : Prop :=
    NoDup listing /\
    forall p, In p listing <-> exists q n, leaf_at t q n /\ wanted filters n /\ p = dir ++ q.

  (** the inner loop, with the recursive call abstracted *)
  Fixpoint scan_loop (rec : list Z -> list (list Z) -> option (list (list Z))) (d : list Z)
    (es : list entry) (files : list (list Z)) : option (list (list Z)) :=
    match es with
    | [] => Some files
    | e :: r =>
      if is_dots (d_name e) then scan_loop rec d r files
      else
        let subFile := d ++ d_name e in
        if is_dir e then
          match rec subFile files with
          | None => None
          | Some files' => scan_loop rec d r files'
          end
        else if IsFilteredFile filters (d_name e) then scan_loop rec d r (files ++ [subFile])
        else scan_loop rec d r files
    end.

  Lemma Scan_step f dir files :
    Scan (S f) o filters dir files =
      match o (scan_prefix dir ++ [cDot]) with
      | None => Some files
      | Some es => scan_loop (Scan f o filters) (scan_prefix dir) es files
      end.
  Proof.
    cbn [Scan]. destruct (o (scan_prefix dir ++ [cDot])) as [es|]; [|reflexivity].
    revert files. induction es as [|e es IH]; intros files; [reflexivity|].
    cbn [scan_loop]. destruct (is_dots (d_name e)); [apply IH|].
    destruct (is_dir e); [destruct (Scan f o filters (scan_prefix dir ++ d_name e) files); [apply IH|reflexivity]|].
    destruct (IsFilteredFile filters (d_name e)); apply IH.
  Qed.

  Lemma leaf_at_cons c l q n : leaf_at (Tree (Some (c :: l))) q n <->
    (match c with
     | Leaf m => q = m /\ n = m
     | Sub d t => exists p, q = d ++ slash :: p /\ leaf_at t p n
     end) \/ leaf_at (Tree (Some l)) q n.
  Proof.
    split.
    - intros H. inversion H; subst; cbn [kids] in *.
      + destruct H0 as [->|H0]; [left; auto|right; constructor; exact H0].
      + destruct H0 as [->|H0]; [left; eauto|right; econstructor; [exact H0|assumption]].
    - intros [H|H].
      + destruct c; [destruct H as [-> ->]; constructor; left; reflexivity|].
        destruct H as (p & -> & H). econstructor; [left; reflexivity|exact H].
      + inversion H; subst; [constructor; right; assumption|econstructor; [right; eassumption|assumption]].
  Qed.

  Lemma leaf_at_head l q n : leaf_at (Tree (Some l)) q n ->
    (In (Leaf q) l /\ q = n) \/ exists d t p, In (Sub d t) l /\ q = d ++ slash :: p.
  Proof. intros H. inversion H; subst; cbn [kids] in *; [left; auto|right; eauto 6]. Qed.

  Lemma loop_ok (rec : list Z -> list (list Z) -> option (list (list Z))) dir es : forall l files,
    filter real_entry es = map child_entry l ->
    NoDup (map child_name l) ->
    (forall n, In (Leaf n) l -> plain n) ->
    (forall d t, In (Sub d t) l -> plain d) ->
    (forall d t fs0, In (Sub d t) l -> exists li, rec (dir ++ d) fs0 = Some (fs0 ++ li) /\ lists (dir ++ d ++ [slash]) t li) ->
    exists listing, scan_loop rec dir es files = Some (files ++ listing) /\ lists dir (Tree (Some l)) listing.
  Proof.
    induction es as [|e es IH]; intros l files Hf Hnd Hl Hd Hrec.
    - cbn in Hf. destruct l; [|discriminate]. exists []. rewrite app_nil_r. split; [reflexivity|].
      split; [constructor|]. intros p. split; [intros []|].
      intros (q & n & H & _). inversion H; subst; cbn in *; tauto.
    - cbn [scan_loop filter] in *. rewrite <- is_dots_spec in Hf.
      destruct (is_dots (d_name e)) eqn:Ed; cbn [negb] in Hf; [apply IH; assumption|].
      destruct l as [|c l]; [discriminate|]. cbn [map] in Hf, Hnd. apply cons_inj in Hf. destruct Hf as [He Hf]. subst e.
      inversion Hnd as [|? ? Hc Hnd']; subst.
      assert (IH' : forall files, exists listing, scan_loop rec dir es files = Some (files ++ listing) /\ lists dir (Tree (Some l)) listing).
      { intros fs0. apply IH; try assumption.
        - intros n Hn. apply Hl. right. assumption.
        - intros d t Hn. apply (Hd d t). right. assumption.
        - intros d t f0 Hn. apply Hrec. right. assumption. }
      destruct c as [n|d t]; cbn [child_entry d_name is_dir child_name] in *.
      + assert (Pn : plain n) by (apply Hl; left; reflexivity).
        assert (Hnot : ~ (exists q k, leaf_at (Tree (Some l)) q k /\ wanted filters k /\ dir ++ n = dir ++ q)).
        { intros (q & k & H & _ & E). apply app_inv_head in E. subst q.
          destruct (leaf_at_head _ _ _ H) as [[Hi _]|(d & t & p & _ & E)].
          - apply Hc. apply in_map_iff. exists (Leaf n). auto.
          - apply (proj1 (proj2 Pn)). rewrite E. apply in_or_app. right. left. reflexivity. }
        destruct (IsFilteredFile filters n) eqn:Ef.
        * destruct (IH' (files ++ [dir ++ n])) as (li & -> & N & S).
          exists ((dir ++ n) :: li). rewrite <- app_assoc. split; [reflexivity|]. split.
          -- constructor; [|assumption]. rewrite S. exact Hnot.
          -- intros p. cbn [In]. rewrite S. split.
             ++ intros [<-|(q & k & H & W & E)].
                ** exists n, n. rewrite leaf_at_cons. split; [left; auto|]. split; [apply filtered_spec; assumption|reflexivity].
                ** exists q, k. rewrite leaf_at_cons. auto.
             ++ intros (q & k & H & W & E). rewrite leaf_at_cons in H. destruct H as [[-> ->]|H]; [left; auto|right; eauto].
        * destruct (IH' files) as (li & -> & N & S). exists li. split; [reflexivity|]. split; [assumption|].
          intros p. rewrite S. split.
          -- intros (q & k & H & W & E). exists q, k. rewrite leaf_at_cons. auto.
          -- intros (q & k & H & W & E). rewrite leaf_at_cons in H. destruct H as [[-> ->]|H]; [|eauto].
             exfalso. apply filtered_spec in W. congruence.
      + assert (Pd : plain d) by (apply (Hd d t); left; reflexivity).
        destruct (Hrec d t files ltac:(left; reflexivity)) as (li1 & -> & N1 & S1).
        destruct (IH' (files ++ li1)) as (li2 & -> & N2 & S2).
        exists (li1 ++ li2). rewrite app_assoc. split; [reflexivity|]. split.
        * apply NoDup_app_iff. split; [assumption|]. split; [assumption|].
          intros p Hp Hq. rewrite S1 in Hp. rewrite S2 in Hq.
          destruct Hp as (q1 & k1 & H1 & _ & E1). destruct Hq as (q2 & k2 & H2 & _ & E2).
          rewrite E1 in E2. rewrite <- !app_assoc in E2. apply app_inv_head in E2. cbn in E2.
          destruct (leaf_at_head _ _ _ H2) as [[Hi _]|(d' & t' & p' & Hi & E)].
          -- apply (proj1 (proj2 (Hl q2 ltac:(right; exact Hi)))). rewrite <- E2.
             apply in_or_app. right. left. reflexivity.
          -- rewrite E in E2. destruct (first_slash d d' q1 p') as [-> _]; [apply Pd|apply (Hd d' t'); right; exact Hi|exact E2|].
             apply Hc. apply in_map_iff. exists (Sub d' t'). auto.
        * intros p. rewrite in_app_iff, S1, S2. split.
          -- intros [(q & k & H & W & ->)|(q & k & H & W & E)].
             ++ exists (d ++ slash :: q), k. rewrite leaf_at_cons. split; [left; eauto|]. split; [assumption|].
                rewrite <- !app_assoc. reflexivity.
             ++ exists q, k. rewrite leaf_at_cons. auto.
          -- intros (q & k & H & W & E). rewrite leaf_at_cons in H. destruct H as [(p' & -> & H)|H]; [left|right; eauto].
             exists p', k. rewrite <- !app_assoc. auto.
  Qed.

  Lemma subs_fuel (P : list Z -> tree -> nat -> Prop) l :
    (forall d t, In (Sub d t) l -> exists f0, forall f, (f0 <= f)%nat -> P d t f) ->
    exists f0, forall d t, In (Sub d t) l -> forall f, (f0 <= f)%nat -> P d t f.
  Proof.
    induction l as [|c l IH]; intros H.
    - exists O. intros d t [].
    - destruct IH as [f1 H1]; [intros d t Hi; apply H; right; exact Hi|].
      destruct c as [n|d t].
      + exists f1. intros d t [C|Hi]; [discriminate|apply H1; exact Hi].
      + destruct (H d t ltac:(left; reflexivity)) as [f2 H2].
        exists (f1 + f2)%nat. intros d' t' [C|Hi] f Hf.
        * injection C as <- <-. apply H2. lia.
        * apply H1; [exact Hi|lia].
  Qed.

  Lemma scan_ok dir t : shows o dir t -> well_named t ->
    exists f0, forall fuel, (f0 <= fuel)%nat -> forall arg files, scan_prefix arg = dir ->
      exists listing, Scan fuel o filters arg files = Some (files ++ listing) /\ lists dir t listing.
  Proof.
    intros H. induction H as [dir Ho|dir es l Ho Hf Hsub IH]; intros W.
    - exists 1%nat. intros [|f] Hfuel arg files Ea; [lia|]. rewrite Scan_step, Ea.
      change cDot with dot. rewrite Ho. exists []. rewrite app_nil_r. split; [reflexivity|].
      split; [constructor|]. intros p. split; [intros []|].
      intros (q & n & Hl & _). inversion Hl; subst; cbn in *; tauto.
    - inversion W as [? Wn Wl Wd]; subst. cbn [kids] in *.
      destruct (subs_fuel (fun d t f => forall arg files, scan_prefix arg = dir ++ d ++ [slash] ->
                   exists listing, Scan f o filters arg files = Some (files ++ listing) /\ lists (dir ++ d ++ [slash]) t listing) l)
        as [f0 Hf0].
      { intros d t Hi. apply IH; [exact Hi|]. apply (Wd d t Hi). }
      exists (S f0). intros [|f] Hfuel arg files Ea; [lia|]. rewrite Scan_step, Ea.
      change cDot with dot. rewrite Ho. apply loop_ok with (l := l); try assumption.
      + intros d t Hi. apply (Wd d t Hi).
      + intros d t fs0 Hi. apply (Hf0 d t Hi f ltac:(lia)).
        destruct (Wd d t Hi) as ((P1 & P2 & _) & Q1 & Q2 & _).
        apply scan_prefix_sub; try assumption.
        intros E. apply P2. rewrite <- E. apply last_in. assumption.
  Qed.
End Scan.

(** ** mkdirs *)
Lemma str_ltb_irrefl a : str_ltb a a = false.
Proof. induction a as [|x a IH]; [reflexivity|]. cbn. rewrite Z.ltb_irrefl, Z.eqb_refl. exact IH. Qed.

Lemma str_ltb_trans a b c : str_ltb a b = true -> str_ltb b c = true -> str_ltb a c = true.
Proof.
  revert b c. induction a as [|x a IH]; intros [|y b] [|z c]; cbn; try congruence.
  rewrite !orb_true_iff, !andb_true_iff, !Z.ltb_lt, !Z.eqb_eq.
  intros [H1|[-> H1]] [H2|[-> H2]]; [left; lia|left; lia|left; lia|right; split; [reflexivity|eapply IH; eassumption]].
Qed.

Lemma str_ltb_total a b : str_ltb a b = false -> str_ltb b a = false -> a = b.
Proof.
  revert b. induction a as [|x a IH]; intros [|y b]; cbn; try congruence.
  rewrite !orb_false_iff, !andb_false_iff, !Z.ltb_ge, !Z.eqb_neq.
  intros [H1 H2] [H3 H4]. assert (x = y) by lia. subst. f_equal. apply IH; tauto.
Qed.

Lemma str_ltb_prefix a x r : str_ltb a (a ++ x :: r) = true.
Proof. induction a as [|y a IH]; [reflexivity|]. cbn. rewrite Z.ltb_irrefl, Z.eqb_refl. exact IH. Qed.

Definition slt a b := str_ltb a b = true.

Lemma set_insert_in x y l : In x (set_insert y l) <-> x = y \/ In x l.
Proof.
  induction l as [|z l IH]; cbn [set_insert].
  - cbn. intuition.
  - destruct (str_ltb y z) eqn:E1; [cbn; intuition|].
    destruct (str_ltb z y) eqn:E2; [cbn; rewrite IH; intuition|].
    pose proof (str_ltb_total _ _ E1 E2). subst. cbn. intuition.
Qed.

Lemma set_insert_sorted y l : StronglySorted slt l -> StronglySorted slt (set_insert y l).
Proof.
  induction 1 as [|z l S IH F]; cbn [set_insert]; [repeat constructor|].
  destruct (str_ltb y z) eqn:E1.
  - constructor; [constructor; assumption|]. constructor; [exact E1|].
    eapply Forall_impl; [|exact F]. intros a Ha. eapply str_ltb_trans; eassumption.
  - destruct (str_ltb z y) eqn:E2; [|constructor; assumption].
    constructor; [assumption|]. apply Forall_forall. intros a Ha. apply set_insert_in in Ha.
    destruct Ha as [->|Ha]; [exact E2|]. rewrite Forall_forall in F. apply F. exact Ha.
Qed.

Lemma prefixes_in rest : forall seen p, In p (prefixes seen rest) <-> exists a r, rest = a ++ slash :: r /\ p = seen ++ a.
Proof.
  induction rest as [|c rest IH]; intros seen p; cbn [prefixes].
  - split; [intros []|]. intros (a & r & E & _). destruct a; discriminate.
  - assert (K : In p (prefixes (seen ++ [c]) rest) <-> exists a r, c :: rest = (c :: a) ++ slash :: r /\ p = seen ++ c :: a).
    { rewrite IH. split; intros (a & r & E & ->); exists a, r.
      - rewrite <- app_assoc. subst rest. auto.
      - cbn in E. apply cons_inj in E. destruct E as [_ ->]. rewrite <- app_assoc. auto. }
    destruct (Z.eqb_spec c cSlash) as [->|N]; cbn [In]; rewrite K.
    + split.
      * intros [<-|(a & r & E & ->)]; [exists [], rest; rewrite app_nil_r; auto|eauto].
      * intros (a & r & E & ->). destruct a as [|x a]; [left; symmetry; apply app_nil_r|right].
        cbn in E. apply cons_inj in E. destruct E as [<- ->]. exists a, r. auto.
    + split.
      * intros (a & r & E & ->). eauto.
      * intros (a & r & E & ->). destruct a as [|x a].
        -- cbn in E. apply cons_inj in E. destruct E as [C _]. exfalso; apply N; exact C.
        -- cbn in E. apply cons_inj in E. destruct E as [<- ->]. exists a, r. auto.
Qed.

Lemma prefixes_sorted rest : forall seen, StronglySorted (fun a b => (length a < length b)%nat) (prefixes seen rest) /\
  Forall (fun p => (length seen <= length p)%nat) (prefixes seen rest).
Proof.
  induction rest as [|c rest IH]; intros seen; cbn [prefixes]; [repeat constructor|].
  destruct (IH (seen ++ [c])) as [S F].
  assert (F' : Forall (fun p => (length seen < length p)%nat) (prefixes (seen ++ [c]) rest)).
  { eapply Forall_impl; [|exact F]. intros a Ha. cbv beta in Ha. rewrite app_length in Ha. cbn in Ha. lia. }
  destruct (c =? cSlash).
  - split; [constructor; assumption|]. constructor; [lia|]. eapply Forall_impl; [|exact F']. intros; cbv beta in *; lia.
  - split; [assumption|]. eapply Forall_impl; [|exact F']. intros; cbv beta in *; lia.
Qed.

Lemma full_path_normal s : full_path s = normal s.
Proof. unfold full_path. destruct s; reflexivity. Qed.

Lemma inserts_in ps : forall t x, In x (fold_left (fun t p => set_insert p t) ps t) <-> In x ps \/ In x t.
Proof.
  induction ps as [|p ps IH]; intros t x; cbn [fold_left In]; [tauto|].
  rewrite IH, set_insert_in. intuition.
Qed.
Lemma inserts_sorted ps : forall t, StronglySorted slt t -> StronglySorted slt (fold_left (fun t p => set_insert p t) ps t).
Proof. induction ps as [|p ps IH]; intros t S; cbn [fold_left]; [exact S|]. apply IH, set_insert_sorted, S. Qed.

Definition mk_tree (files : list (list Z)) : list (list Z) :=
  fold_left (fun t f => fold_left (fun t p => set_insert p t) (prefixes [] (full_path f)) t) files [].

Lemma tree_gen files : forall t, StronglySorted slt t ->
  let r := fold_left (fun t f => fold_left (fun t p => set_insert p t) (prefixes [] (full_path f)) t) files t in
  StronglySorted slt r /\ forall x, In x r <-> In x t \/ exists f, In f files /\ ancestor f x.
Proof.
  induction files as [|f files IH]; intros t S; cbn [fold_left].
  - split; [exact S|]. intros x. split; [auto|]. intros [H|(f & [] & _)]. exact H.
  - destruct (IH _ (inserts_sorted (prefixes [] (full_path f)) t S)) as [S' I]. split; [exact S'|].
    intros x. rewrite I, inserts_in, prefixes_in, full_path_normal. split.
    + intros [[(a & r & E & ->)|H]|(g & Hg & A)]; [right; exists f|left; assumption|right; exists g].
      * split; [left; reflexivity|]. exists r. exact E.
      * split; [right; assumption|assumption].
    + intros [H|(g & [->|Hg] & A)]; [auto| |right; eauto].
      left; left. destruct A as [r E]. exists x, r. auto.
Qed.

Lemma tree_ok files : StronglySorted slt (mk_tree files) /\
  forall x, In x (mk_tree files) <-> exists f, In f files /\ ancestor f x.
Proof.
  destruct (tree_gen files [] ltac:(constructor)) as [S I]. split; [exact S|]. intros x.
  unfold mk_tree. rewrite I. cbn. intuition.
Qed.

Lemma sorted_order {A} (R : A -> A -> Prop) (l : list A) :
  StronglySorted R l -> (forall x, ~ R x x) -> (forall x y, R x y -> ~ R y x) ->
  NoDup l /\ forall i j x y, nth_error l i = Some x -> nth_error l j = Some y -> R x y -> (i < j)%nat.
Proof.
  intros S Hi Ha. induction S as [|z l S [N O] F].
  - split; [constructor|]. intros i j x y H. destruct i; discriminate.
  - rewrite Forall_forall in F. split.
    + constructor; [|exact N]. intros H. apply (Hi z), F, H.
    + intros [|i] [|j] x y Hx Hy HR; cbn in Hx, Hy; try lia.
      * injection Hx as <-. injection Hy as <-. destruct (Hi z HR).
      * injection Hy as <-. apply nth_error_In in Hx. apply F in Hx. destruct (Ha _ _ HR Hx).
      * specialize (O i j x y Hx Hy HR). lia.
Qed.

(** Effect of a list of mkdir calls. *)
Lemma after_mkdirs_mono calls : forall (E : list Z -> Prop) q, E q -> after_mkdirs E calls q.
Proof.
  induction calls as [|c calls IH]; intros E q H; [exact H|].
  cbn. apply IH. left. exact H.
Qed.

Lemma after_mkdirs_all calls : forall (E : list Z -> Prop),
  (forall i c, nth_error calls i = Some c -> forall a, parent c a -> E a \/ exists j, (j < i)%nat /\ nth_error calls j = Some a) ->
  forall c, In c calls -> after_mkdirs E calls c.
Proof.
  induction calls as [|c0 calls IH]; intros E H c Hc; [destruct Hc|].
  assert (OK0 : mkdir_ok E c0).
  { intros a Ha. destruct (H O c0 eq_refl a Ha) as [X|(j & Hj & _)]; [exact X|lia]. }
  cbn. destruct Hc as [<-|Hc].
  - apply after_mkdirs_mono. right. auto.
  - apply IH; [|exact Hc]. intros i c1 Hi a Ha.
    destruct (H (S i) c1 Hi a Ha) as [X|(j & Hj & Ej)]; [left; left; exact X|].
    destruct j as [|j]; [left; right; cbn in Ej; injection Ej as ->; auto|].
    right. exists j. split; [lia|exact Ej].
Qed.
