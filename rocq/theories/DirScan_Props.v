(** C31 directory scan, C32 mkdirs. *)
From Coq Require Import Sorted.
From Verif Require Import Base FileInfo_Model FileInfo_Spec DirScan_Model DirScan_Spec DirScan_Proof.

(** C31: scanning a finite tree with ordinary names finishes and appends every leaf whose
    name passes the filters, once, under its path, and nothing else.  The argument may be
    given with or without a trailing slash, or be empty for the current directory. *)
Theorem C31_scan : forall o filters dir t arg, shows o dir t -> well_named t ->
  (* the directory is written as the empty text, with, or without a final slash *)
  (arg = [] /\ dir = []) \/ (arg = dir /\ last arg 0 = slash) \/
  (arg <> [] /\ dir = arg ++ [slash] /\ last arg 0 <> slash /\ last arg 0 <> cQuote /\ last arg 0 <> backslash) ->
  exists f0, forall fuel, (f0 <= fuel)%nat -> forall files,
    exists listing, Scan fuel o filters arg files = Some (files ++ listing) /\ NoDup listing /\
      forall p, In p listing <-> exists q n, leaf_at t q n /\ wanted filters n /\ p = dir ++ q.
Proof.
  intros o filters dir t arg Hs Hw Ha.
  destruct (scan_ok o filters dir t Hs Hw) as [f0 H]. exists f0. intros fuel Hf files.
  apply (H fuel Hf arg files).
  destruct Ha as [[-> ->]|[[-> L]|(N & -> & L1 & L2 & L3)]].
  - reflexivity.
  - unfold scan_prefix. destruct dir as [|x dir]; [discriminate L|]. rewrite L. reflexivity.
  - apply (scan_prefix_sub [] arg N); assumption.
Qed.
Print Assumptions C31_scan.

(** A directory whose name ends with a quote is not scanned: the directory without the quote
    is, so files are reported that do not exist and existing ones are missed. *)
Theorem C31_quote_refuted : forall o filters fuel d files,
  d <> [] -> last d 0 <> cQuote -> last d 0 <> backslash -> last d 0 <> slash ->
  Scan fuel o filters (d ++ [cQuote]) files = Scan fuel o filters d files.
Proof.
  intros o filters [|f] d files Hd H1 H2 H3; [reflexivity|]. rewrite !Scan_step.
  assert (E : scan_prefix (d ++ [cQuote]) = d ++ [slash]).
  { unfold scan_prefix. rewrite last_last.
    destruct (d ++ [cQuote]) eqn:X; [destruct d; discriminate|]. rewrite <- X.
    cbv zeta. rewrite Z.eqb_refl. cbn [negb andb]. rewrite removelast_last. reflexivity. }
  rewrite E. pose proof (scan_prefix_sub [] d Hd H1 H2 H3) as E2. cbn [app] in E2. rewrite E2. reflexivity.
Qed.
Print Assumptions C31_quote_refuted.

(** A directory whose name ends with a backslash (legal on POSIX) is looked up under a name
    that is not its own: no separator is put between the name and the final dot. *)
Theorem C31_backslash_refuted : forall o filters f dir d files,
  o (dir ++ d ++ [backslash] ++ [dot]) = None ->
  Scan (S f) o filters (dir ++ d ++ [backslash]) files = Some files.
Proof.
  intros o filters f dir d files Ho. rewrite Scan_step.
  assert (E : scan_prefix (dir ++ d ++ [backslash]) = dir ++ d ++ [backslash]).
  { unfold scan_prefix. rewrite app_assoc. rewrite last_last.
    destruct ((dir ++ d) ++ [backslash]) eqn:X; [destruct (dir ++ d); discriminate|]. rewrite <- X. reflexivity. }
  rewrite E. change cDot with dot. rewrite <- !app_assoc. rewrite Ho. reflexivity.
Qed.
Print Assumptions C31_backslash_refuted.

(** A tree r/{., a.x, s/{.., b.y, c.x}} with the filter ".x". *)
Definition demo_fs : fs := fun p =>
  if list_eq_dec Z.eq_dec p [114; 47; 46] then Some [mkEntry [46] true; mkEntry [97; 46; 120] false; mkEntry [115] true]
  else if list_eq_dec Z.eq_dec p [114; 47; 115; 47; 46] then
    Some [mkEntry [98; 46; 121] false; mkEntry [46; 46] true; mkEntry [99; 46; 120] false]
  else None.
Definition demo_tree : tree :=
  Tree (Some [Leaf [97; 46; 120]; Sub [115] (Tree (Some [Leaf [98; 46; 121]; Leaf [99; 46; 120]]))]).
Example C31_case :
  shows demo_fs [114; 47] demo_tree /\ well_named demo_tree /\
  Scan 3 demo_fs [[46; 120]] [114] [[1]] = Some [[1]; [114; 47; 97; 46; 120]; [114; 47; 115; 47; 99; 46; 120]].
Proof.
  split; [|split].
  - eapply shows_open; [reflexivity|reflexivity|]. intros d t [C|[C|[]]]; [discriminate|]. injection C as <- <-.
    eapply shows_open; [reflexivity|reflexivity|]. intros d t [C|[C|[]]]; discriminate.
  - assert (P : forall n, (n = [97; 46; 120] \/ n = [98; 46; 121] \/ n = [99; 46; 120] \/ n = [115]) -> plain n).
    { intros n [->|[->|[->| ->]]]; unfold plain; (repeat split); try discriminate; cbn; unfold slash; intuition lia. }
    constructor; cbn [kids demo_tree map child_name].
    + repeat constructor; cbn; intuition discriminate.
    + intros n [C|[C|[]]]; [injection C as <-|discriminate]. apply P; auto.
    + intros d t [C|[C|[]]]; [discriminate|]. injection C as <- <-. split; [apply P; auto|].
      split; [discriminate|]. split; [discriminate|]. constructor; cbn [kids map child_name].
      * repeat constructor; cbn; intuition discriminate.
      * intros n [C|[C|[]]]; injection C as <-; apply P; auto.
      * intros d t [C|[C|[]]]; discriminate.
  - vm_compute. reflexivity.
Qed.

(** C32: the calls of mkdirs over many paths are, each once, [base] followed by every
    ancestor of every path, and an ancestor is created before anything below it. *)
Theorem C32_many : forall base files,
  let calls := mkdirs_many base files in
  NoDup calls /\
  (forall c, In c calls <-> exists f p, In f files /\ ancestor f p /\ c = base ++ p) /\
  (forall i j a x r, nth_error calls i = Some a -> nth_error calls j = Some (a ++ x :: r) -> (i < j)%nat).
Proof.
  intros base files calls. unfold calls, mkdirs_many. cbv zeta. fold (mk_tree files).
  destruct (tree_ok files) as [S I].
  destruct (sorted_order slt (mk_tree files) S) as [N O].
  { intros x. unfold slt. rewrite str_ltb_irrefl. discriminate. }
  { unfold slt. intros x y Hx Hy. pose proof (str_ltb_trans _ _ _ Hx Hy) as C. rewrite str_ltb_irrefl in C. discriminate. }
  split; [|split].
  - clear - N. induction N as [|x l Hx N IH]; cbn; constructor; [|exact IH].
    intros C. apply in_map_iff in C. destruct C as (y & E & Hy). apply app_inv_head in E. subst. exact (Hx Hy).
  - intros c. rewrite in_map_iff. split.
    + intros (p & <- & Hp). apply I in Hp. destruct Hp as (f & Hf & A). exists f, p. auto.
    + intros (f & p & Hf & A & ->). exists p. split; [reflexivity|]. apply I. eauto.
  - intros i j a x r Hi Hj. rewrite nth_error_map in Hi, Hj.
    destruct (nth_error (mk_tree files) i) as [p|] eqn:Ei; [|discriminate].
    destruct (nth_error (mk_tree files) j) as [q|] eqn:Ej; [|discriminate].
    cbn in Hi, Hj. injection Hi as <-. injection Hj as Hj. rewrite <- app_assoc in Hj.
    apply app_inv_head in Hj. subst q.
    apply (O i j _ _ Ei Ej). apply str_ltb_prefix.
Qed.
Print Assumptions C32_many.

(** Hence, when the directory [base] points into exists, all the directories exist afterwards. *)
Theorem C32_many_exist : forall base files (E : list Z -> Prop), (forall a, parent base a -> E a) ->
  forall f p, In f files -> ancestor f p -> after_mkdirs E (mkdirs_many base files) (base ++ p).
Proof.
  intros base files E Hb f p Hf Ha. destruct (C32_many base files) as (N & I & O).
  apply after_mkdirs_all; [|apply I; eauto].
  intros i c Hi a (b & Ec & Hnb).
  assert (Hc : In c (mkdirs_many base files)) by (eapply nth_error_In; exact Hi).
  apply I in Hc. destruct Hc as (f1 & p1 & Hf1 & [r Hr] & ->).
  destruct (in_dec Z.eq_dec slash p1) as [Hs|Hs].
  - right. apply in_split in Hs.
    assert (L : exists p0 q, p1 = p0 ++ slash :: q /\ ~ In slash q).
    { clear - Hs. destruct Hs as (l1 & l2 & ->). revert l1. induction l2 as [|z l2 IH] using rev_ind; intros l1.
      - exists l1, []. split; [reflexivity|intros []].
      - destruct (Z.eq_dec z slash) as [->|Nz].
        + exists (l1 ++ slash :: l2), []. split; [rewrite <- app_assoc; reflexivity|intros []].
        + destruct (IH l1) as (p0 & q & E & Hq). exists p0, (q ++ [z]).
          split; [|rewrite in_app_iff; cbn; intuition].
          change (l1 ++ slash :: l2 ++ [z]) with (l1 ++ (slash :: l2) ++ [z]).
          rewrite app_assoc, E, <- app_assoc. reflexivity. }
    destruct L as (p0 & q & -> & Hq).
    assert (Ea : a = base ++ p0).
    { rewrite app_assoc in Ec.
      assert (R : forall a1 a2 b1 b2, a1 ++ slash :: b1 = a2 ++ slash :: b2 -> ~ In slash b1 -> ~ In slash b2 -> a1 = a2).
      { clear. intros a1 a2 b1 b2 E H1 H2. apply (f_equal (@rev Z)) in E. rewrite !rev_app_distr in E. cbn in E.
        rewrite <- !app_assoc in E. cbn in E.
        apply first_slash in E; [|rewrite <- in_rev; assumption|rewrite <- in_rev; assumption].
        destruct E as [_ E]. apply (f_equal (@rev Z)) in E. rewrite !rev_involutive in E. exact E. }
      symmetry. exact (R _ _ _ _ Ec Hq Hnb). }
    subst a.
    assert (Hin : In (base ++ p0) (mkdirs_many base files)).
    { apply I. exists f1, p0. split; [assumption|]. split; [|reflexivity].
      exists (q ++ slash :: r). rewrite Hr, <- app_assoc. reflexivity. }
    apply In_nth_error in Hin. destruct Hin as [j Hj]. exists j. split; [|exact Hj].
    apply (O j i (base ++ p0) slash q Hj). rewrite Hi, app_assoc. reflexivity.
  - left. apply Hb.
    assert (L : exists b', base = a ++ slash :: b' /\ ~ In slash b').
    { clear - Ec Hs Hnb. revert base Ec. induction a as [|x a IH]; intros base Ec.
      - destruct base as [|y base]; cbn in Ec.
        + exfalso. apply Hs. rewrite Ec. left. reflexivity.
        + apply cons_inj in Ec. destruct Ec as [-> <-]. exists base. split; [reflexivity|].
          intros C. apply Hnb. apply in_or_app. left. exact C.
      - destruct base as [|y base]; cbn in Ec.
        + exfalso. apply Hs. rewrite Ec. right. apply in_or_app. right. left. reflexivity.
        + apply cons_inj in Ec. destruct Ec as [-> Ec]. destruct (IH base Ec) as (b' & -> & H).
          exists b'. auto. }
    exact L.
Qed.
Print Assumptions C32_many_exist.

(** One path: every ancestor, each once, shorter ones first; they exist afterwards. *)
Theorem C32_one : forall s,
  let calls := mkdirs_one s in
  NoDup calls /\ (forall c, In c calls <-> ancestor s c) /\
  (forall i j a b, nth_error calls i = Some a -> nth_error calls j = Some b -> (length a < length b)%nat -> (i < j)%nat) /\
  (forall E p, ancestor s p -> after_mkdirs E calls p).
Proof.
  intros s calls. unfold calls, mkdirs_one. rewrite full_path_normal.
  destruct (prefixes_sorted (normal s) []) as [S _].
  destruct (sorted_order _ _ S) as [N O]; [intros; lia|intros; lia|].
  assert (I : forall c, In c (prefixes [] (normal s)) <-> ancestor s c).
  { intros c. rewrite prefixes_in. split.
    - intros (a & r & E & ->). exists r. exact E.
    - intros [r E]. exists c, r. auto. }
  split; [exact N|]. split; [exact I|]. split; [exact O|].
  intros E p Hp. apply after_mkdirs_all; [|apply I; exact Hp].
  intros i c Hi a (b & -> & Hb). right.
  assert (Hc : In (a ++ slash :: b) (prefixes [] (normal s))) by (eapply nth_error_In; exact Hi).
  apply I in Hc. destruct Hc as [r Hr].
  assert (Ha : In a (prefixes [] (normal s))).
  { apply I. exists (b ++ slash :: r). rewrite Hr, <- app_assoc. reflexivity. }
  apply In_nth_error in Ha. destruct Ha as [j Hj]. exists j. split; [|exact Hj].
  apply (O j i a _ Hj Hi). rewrite app_length. cbn. lia.
Qed.
Print Assumptions C32_one.

Example C32_case : (* base "o/", files "b/c/x", "b\a/y", "b/c/d/z" *)
  mkdirs_many [111; 47] [[98; 47; 99; 47; 120]; [98; 92; 97; 47; 121]; [98; 47; 99; 47; 100; 47; 122]] =
  [[111; 47; 98]; [111; 47; 98; 47; 97]; [111; 47; 98; 47; 99]; [111; 47; 98; 47; 99; 47; 100]] /\
  mkdirs_one [98; 92; 97; 47; 121] = [[98]; [98; 47; 97]].
Proof. vm_compute. split; reflexivity. Qed.
