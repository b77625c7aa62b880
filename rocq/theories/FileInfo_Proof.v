From Verif Require Import Base FileInfo_Model FileInfo_Spec.

Lemma find_last_some c l i : find_last c l = Some i ->
  (i < length l)%nat /\ nth i l (c+1) = c /\ (forall j, (i < j < length l)%nat -> nth j l c <> c) /\
  ~ In c (skipn (S i) l) /\ skipn i l = c :: skipn (S i) l.
Proof.
  revert i. induction l as [|x l IH]; intros i; [discriminate|]. cbn [find_last].
  destruct (find_last c l) as [k|] eqn:E.
  - intros [= <-]. destruct (IH k eq_refl) as (H1 & H2 & H3 & H4 & H5). cbn [length nth skipn].
    split; [lia|]. split; [exact H2|]. split; [|split; [exact H4|exact H5]].
    intros [|j] Hj; [lia|]. apply H3. lia.
  - destruct (Z.eqb_spec x c) as [->|]; [|discriminate]. intros [= <-].
    cbn [length nth skipn]. split; [lia|]. split; [reflexivity|].
    assert (N : ~ In c l).
    { clear IH. induction l as [|y l IHl]; [auto|]. cbn [find_last] in E.
      destruct (find_last c l) eqn:E2; [discriminate|].
      destruct (Z.eqb_spec y c); [discriminate|]. intros [->|Hi]; [auto|]. apply IHl; auto. }
    split; [|split; [exact N|reflexivity]].
    intros [|j] Hj; [lia|]. intros Hn. apply N. rewrite <- Hn. apply nth_In. lia.
Qed.

Lemma find_last_none c l : find_last c l = None <-> ~ In c l.
Proof.
  induction l as [|x l IH]; cbn [find_last In]; [tauto|].
  destruct (find_last c l) as [k|] eqn:E.
  - split; [discriminate|]. intros Hn. exfalso. apply Hn. right.
    destruct (find_last_some c l k E) as (H1 & H2 & _).
    destruct IH as [_ IH]. destruct (in_dec Z.eq_dec c l) as [Hi|Hi]; [exact Hi|].
    apply IH in Hi. discriminate.
  - destruct (Z.eqb_spec x c).
    + split; [discriminate|]. intros Hn. exfalso; apply Hn; auto.
    + split; [|reflexivity]. intros _ [Hx|Hx]; [auto|]. apply IH in Hx; auto.
Qed.

Lemma c_string_id l : ~ In 0 l -> c_string l = l.
Proof.
  induction l as [|c l IH]; intros H; [reflexivity|]. cbn [c_string].
  destruct (Z.eqb_spec c 0) as [->|]; [exfalso; apply H; left; reflexivity|].
  f_equal. apply IH. intros Hi; apply H; right; exact Hi.
Qed.

Lemma skipn_In {A} (x : A) n l : In x (skipn n l) -> In x l.
Proof. intros H. rewrite <- (firstn_skipn n l). apply in_or_app. auto. Qed.

Lemma firstn_S_skipn (p : list Z) i c r : skipn i p = c :: r -> firstn (S i) p = firstn i p ++ [c].
Proof.
  revert p. induction i as [|i IH]; intros [|x p] H; try discriminate; cbn [skipn] in H.
  - injection H as <- <-. reflexivity.
  - cbn [firstn app]. f_equal. exact (IH p H).
Qed.

Lemma normal_no_nul s : ~ In 0 s -> ~ In 0 (normal s).
Proof.
  intros H Hi. apply H. unfold normal in Hi. apply in_map_iff in Hi. destruct Hi as (x & E & Hx).
  unfold backslash, slash in E. destruct (Z.eqb_spec x 92); [lia|]. subst x; exact Hx.
Qed.

Lemma load_some s : s <> [] -> exists f, Load s = Some f /\ fullPath f = normal s /\
  endFolder f = match find_last slash (normal s) with Some i => S i | None => O end /\
  lastDot f = match find_last dot (normal s) with None | Some O => length (normal s) | Some i => i end.
Proof.
  intros H. destruct s as [|c s]; [congruence|]. eexists. split; [reflexivity|]. cbn [fullPath endFolder lastDot].
  split; [reflexivity|]. split; [reflexivity|].
  fold (normal (c :: s)). change cDot with dot. change (map _ (c :: s)) with (normal (c :: s)).
  destruct (find_last dot (normal (c :: s))) as [[|]|]; reflexivity.
Qed.

Lemma decompose s f : ~ In 0 s -> Load s = Some f ->
  GetFullPath f = normal s /\
  GetFolder f ++ GetFilenameExt f = normal s /\
  GetFullPathNoExt f ++ GetExtension f = normal s /\
  ~ In slash (GetFilenameExt f) /\
  (GetFolder f = [] \/ exists t, GetFolder f = t ++ [slash]) /\
  (GetExtension f = [] -> forall i, (0 < i < length (normal s))%nat -> nth i (normal s) 0 <> dot) /\
  (GetExtension f <> [] -> exists t, GetExtension f = dot :: t /\ ~ In dot t /\ GetFullPathNoExt f <> []).
Proof.
  intros Hz HL.
  assert (Hne : s <> []) by (intros ->; discriminate).
  destruct (load_some s Hne) as (f' & E & Ef & Ee & Ed). rewrite HL in E. injection E as <-.
  unfold GetFullPath, GetFolder, GetFilenameExt, GetFullPathNoExt, GetExtension.
  pose proof (normal_no_nul s Hz) as HN.
  rewrite Ef. rewrite !c_string_id by (intros Hi; apply skipn_In in Hi; contradiction).
  split; [reflexivity|]. split; [apply firstn_skipn|]. split; [apply firstn_skipn|].
  set (p := normal s) in *.
  split.
  { rewrite Ee. destruct (find_last slash p) as [i|] eqn:E1.
    - apply find_last_some in E1. tauto.
    - apply find_last_none in E1. exact E1. }
  split.
  { rewrite Ee. destruct (find_last slash p) as [i|] eqn:E1; [|left; reflexivity].
    right. apply find_last_some in E1. destruct E1 as (H1 & _ & _ & _ & H5).
    exists (firstn i p). eapply firstn_S_skipn, H5. }
  rewrite Ed. destruct (find_last dot p) as [[|k]|] eqn:E1.
  - rewrite skipn_all. split; [|congruence]. intros _ i Hi Hn.
    apply find_last_some in E1. destruct E1 as (_ & _ & H3 & _).
    apply (H3 i ltac:(lia)). rewrite <- Hn at 2. apply nth_indep. lia.
  - apply find_last_some in E1. destruct E1 as (H1 & H2 & H3 & H4 & H5). split.
    + intros Hnil. rewrite H5 in Hnil. discriminate.
    + intros _. exists (skipn (S (S k)) p). split; [exact H5|]. split; [exact H4|].
      intros Hnil. assert (length (firstn (S k) p) = 0%nat) by (rewrite Hnil; reflexivity).
      rewrite firstn_length in H. lia.
  - rewrite skipn_all. split; [|congruence]. intros _ i Hi Hn.
    apply find_last_none in E1. apply E1. rewrite <- Hn. apply nth_In. lia.
Qed.

(** The last dot lies after the last slash (or there is no dot that counts). *)
Definition dot_after_slash (p : list Z) : Prop :=
  forall i j, find_last dot p = Some i -> i <> 0%nat -> find_last slash p = Some j -> (j < i)%nat.

Lemma filename_ok s f : ~ In 0 s -> Load s = Some f ->
  (GetFilename f <> None <->
   (forall i, nth i (normal s) 0 = slash -> (0 < lastDot f)%nat -> (i < lastDot f)%nat)) .
Proof.
  intros Hz HL.
  assert (Hne : s <> []) by (intros ->; discriminate).
  destruct (load_some s Hne) as (f' & E & Ef & Ee & Ed). rewrite HL in E. injection E as <-.
  unfold GetFilename. destruct (Nat.ltb_spec (lastDot f) (endFolder f)) as [L|L].
  - split; [congruence|]. intros H. exfalso. rewrite Ee in L.
    destruct (find_last slash (normal s)) as [j|] eqn:E1; [|lia].
    apply find_last_some in E1. destruct E1 as (H1 & H2 & _).
    assert (H0 : nth j (normal s) 0 = slash) by (etransitivity; [apply nth_indep; lia|exact H2]).
    destruct (lastDot f) eqn:E2.
    + destruct (find_last dot (normal s)) as [[|k]|] eqn:E3; try lia.
    + specialize (H j H0 ltac:(lia)). lia.
  - split; [|discriminate]. intros _ i Hi Hp.
    destruct (find_last slash (normal s)) as [j|] eqn:E1.
    + apply find_last_some in E1. destruct E1 as (H1 & H2 & H3 & _).
      destruct (Nat.le_gt_cases i j); [lia|].
      assert (i < length (normal s))%nat.
      { destruct (Nat.lt_ge_cases i (length (normal s))); [assumption|].
        rewrite nth_overflow in Hi by assumption. discriminate. }
      exfalso. apply (H3 i ltac:(lia)). etransitivity; [apply nth_indep; lia|exact Hi].
    + apply find_last_none in E1. exfalso. apply E1. rewrite <- Hi. apply nth_In.
      destruct (Nat.lt_ge_cases i (length (normal s))); [assumption|].
      rewrite nth_overflow in Hi by assumption. discriminate.
Qed.

Lemma filename_split s f : ~ In 0 s -> Load s = Some f ->
  match GetFilename f with
  | Some n => n ++ GetExtension f = GetFilenameExt f
  | None => exists a b, normal s = a ++ [dot] ++ b /\ a <> [] /\ ~ In dot b /\ In slash b
  end.
Proof.
  intros Hz HL.
  assert (Hne : s <> []) by (intros ->; discriminate).
  destruct (load_some s Hne) as (f' & E & Ef & Ee & Ed). rewrite HL in E. injection E as <-.
  pose proof (normal_no_nul s Hz) as HN.
  unfold GetFilename, GetExtension, GetFilenameExt.
  rewrite !c_string_id by (rewrite Ef; intros Hi; apply skipn_In in Hi; contradiction).
  rewrite Ef. destruct (Nat.ltb_spec (lastDot f) (endFolder f)) as [L|L].
  - rewrite Ee, Ed in L.
    destruct (find_last slash (normal s)) as [j|] eqn:E1; [|lia].
    apply find_last_some in E1. destruct E1 as (H1 & H2 & _).
    destruct (find_last dot (normal s)) as [[|k]|] eqn:E3; [lia| |lia].
    apply find_last_some in E3. destruct E3 as (K1 & K2 & K3 & K4 & K5).
    exists (firstn (S k) (normal s)), (skipn (S (S k)) (normal s)).
    split; [rewrite <- (firstn_skipn (S k) (normal s)) at 1; rewrite K5; reflexivity|].
    split. { intros Hn. assert (length (firstn (S k) (normal s)) = 0%nat) by (rewrite Hn; reflexivity).
      rewrite firstn_length in H. lia. }
    split; [exact K4|].
    assert (Hjk : j <> S k).
    { intros ->. assert (X : slash = dot); [|discriminate X]. etransitivity; [symmetry; exact H2|]. etransitivity; [apply nth_indep; lia|exact K2]. }
    assert (Hj : slash = nth (j - S (S k)) (skipn (S (S k)) (normal s)) (slash + 1)).
    { rewrite nth_skipn. replace (S (S k) + (j - S (S k)))%nat with j by lia. symmetry; exact H2. }
    rewrite Hj. apply nth_In. rewrite skipn_length. lia.
  - replace (lastDot f) with ((lastDot f - endFolder f) + endFolder f)%nat at 2 by lia.
    rewrite <- skipn_skipn. apply firstn_skipn.
Qed.

(** Explode *)
Lemma join_app cs c : cs <> [] -> join (cs ++ [c]) = join cs ++ slash :: c.
Proof.
  induction cs as [|a cs IH]; intros H; [congruence|].
  destruct cs as [|b cs]; [reflexivity|].
  cbn [app]. change (join (a :: b :: cs ++ [c])) with (a ++ slash :: join ((b :: cs) ++ [c])).
  rewrite IH by discriminate. change (join (a :: b :: cs)) with (a ++ slash :: join (b :: cs)).
  rewrite <- app_assoc. reflexivity.
Qed.

(** everything up to [lo] has been emitted *)
Definition emitted (cs : list (list Z)) : list Z := match cs with [] => [] | _ => join cs ++ [slash] end.

Lemma emitted_app cs c : emitted (cs ++ [c]) = emitted cs ++ c ++ [slash].
Proof.
  destruct cs as [|a cs]; [reflexivity|]. unfold emitted at 1.
  destruct ((a :: cs) ++ [c]) eqn:E; [destruct cs; discriminate|]. rewrite <- E.
  rewrite join_app by discriminate. unfold emitted. rewrite <- !app_assoc. reflexivity.
Qed.

Lemma firstn_S_nth (p : list Z) c : (c < length p)%nat -> firstn (S c) p = firstn c p ++ [nth c p 0].
Proof.
  revert c. induction p as [|x p IH]; intros [|c] H; cbn [length] in H; try lia; [reflexivity|].
  change (x :: firstn (S c) p = (x :: firstn c p) ++ [nth c p 0]). rewrite IH by lia. reflexivity.
Qed.

Lemma seg_split (p : list Z) a b : (a <= b <= length p)%nat ->
  firstn b p = firstn a p ++ firstn (b - a) (skipn a p).
Proof.
  intros H. rewrite <- (firstn_skipn a (firstn b p)) at 1.
  rewrite firstn_firstn, Nat.min_l by lia. rewrite skipn_firstn_comm. reflexivity.
Qed.

Lemma explode_loop_inv p l0 fuel : forall c lo acc cs lo',
  (c + fuel = length p)%nat -> (l0 <= lo <= c)%nat ->
  Forall no_slash acc -> firstn lo p = firstn l0 p ++ emitted acc ->
  no_slash (firstn (c - lo) (skipn lo p)) ->
  explode_loop p fuel c lo acc = (cs, lo') ->
  (l0 <= lo' <= length p)%nat /\ Forall no_slash cs /\ firstn lo' p = firstn l0 p ++ emitted cs /\
  no_slash (skipn lo' p).
Proof.
  induction fuel as [|fuel IH]; intros c lo acc cs lo' Hc Hlo Hacc Hem Hns; cbn [explode_loop].
  - intros [= <- <-]. split; [lia|]. split; [assumption|]. split; [assumption|].
    replace (c - lo)%nat with (length (skipn lo p)) in Hns by (rewrite skipn_length; lia).
    rewrite firstn_all in Hns. exact Hns.
  - destruct (Z.eqb_spec (nth c p 0) cSlash) as [E|E].
    + intros HL. eapply IH; [| | | | |exact HL]; try lia.
      * apply Forall_app; split; [assumption|]. constructor; [assumption|constructor].
      * rewrite emitted_app. rewrite firstn_S_nth by lia. rewrite E. change cSlash with slash.
        rewrite (seg_split p lo c) by lia. rewrite Hem. rewrite <- !app_assoc. reflexivity.
      * rewrite Nat.sub_diag. cbn [firstn]. intros [].
    + intros HL. eapply IH; [| | | | |exact HL]; try lia; try assumption.
      replace (S c - lo)%nat with (S (c - lo)) by lia.
      assert (Hs : firstn (S (c - lo)) (skipn lo p) = firstn (c - lo) (skipn lo p) ++ [nth c p 0]).
      { rewrite firstn_S_nth by (rewrite skipn_length; lia). rewrite nth_skipn.
        replace (lo + (c - lo))%nat with c by lia. reflexivity. }
      unfold no_slash in *. rewrite Hs. intros Hi. apply in_app_or in Hi. destruct Hi as [Hi|[Hi|[]]]; [auto|].
      apply E. exact Hi.
Qed.

Lemma explode_components s f : ~ In 0 s -> Load s = Some f ->
  exists cs, Explode f = Some cs /\ components (drop_lead (normal s)) cs.
Proof.
  intros Hz HL.
  assert (Hne : s <> []) by (intros ->; discriminate).
  destruct (load_some s Hne) as (f' & E & Ef & Ee & Ed). rewrite HL in E. injection E as <-.
  pose proof (normal_no_nul s Hz) as HN.
  unfold Explode. rewrite Ef.
  assert (Hl : normal s <> []) by (destruct s; [congruence|discriminate]).
  destruct (normal s) as [|p0 p'] eqn:Ep; [congruence|]. set (p := p0 :: p') in *.
  set (l0 := if p0 =? cSlash then 1%nat else 0%nat).
  destruct (explode_loop p (length p - 1) 1 l0 []) as [cs lo] eqn:EL.
  assert (Hl0 : (l0 <= 1)%nat) by (unfold l0; destruct (p0 =? cSlash); lia).
  assert (Hbody : drop_lead p = skipn l0 p).
  { unfold drop_lead, p, l0. change slash with cSlash. destruct (p0 =? cSlash); reflexivity. }
  eapply (explode_loop_inv p l0) in EL;
    [|cbn; lia|lia|constructor|rewrite app_nil_r; reflexivity|].
  2:{ unfold l0, p. destruct (Z.eqb_spec p0 cSlash) as [E|E]; cbn [Nat.sub skipn firstn]; [intros []|].
      intros [Hi|[]]. apply E. exact Hi. }
  destruct EL as (H1 & H2 & H3 & H4).
  assert (HB : skipn l0 p = emitted cs ++ skipn lo p).
  { rewrite <- (firstn_skipn lo p) at 1. rewrite H3, <- app_assoc.
    rewrite skipn_app. rewrite skipn_all2 by (rewrite firstn_length; lia).
    rewrite firstn_length, Nat.min_l by (cbn; lia). rewrite Nat.sub_diag. reflexivity. }
  eexists. split; [reflexivity|]. rewrite Hbody.
  destruct (Nat.eqb_spec lo (length p)) as [Elo|Elo].
  - split; [assumption|]. rewrite Elo, skipn_all, app_nil_r in HB. rewrite HB.
    destruct cs as [|c cs]; [left; auto|]. right; right. split; [discriminate|reflexivity].
  - rewrite c_string_id by (intros Hi; apply skipn_In in Hi; contradiction).
    split; [apply Forall_app; split; [assumption|constructor; [exact H4|constructor]]|].
    right; left. split; [destruct cs; discriminate|]. split.
    + rewrite HB. destruct cs as [|c cs]; [reflexivity|]. rewrite join_app by discriminate.
      unfold emitted. rewrite <- app_assoc. reflexivity.
    + rewrite last_last. intros Hn. assert (length (skipn lo p) = 0%nat) by (rewrite Hn; reflexivity).
      rewrite skipn_length in H. lia.
Qed.

(** components are unique *)
Lemma split_slash c r c' r' : no_slash c -> no_slash c' -> c ++ slash :: r = c' ++ slash :: r' -> c = c' /\ r = r'.
Proof.
  revert c'. induction c as [|x c IH]; intros [|y c'] H H' E; cbn [app] in E; apply cons_inj in E; destruct E as [E1 E2].
  - auto.
  - exfalso; apply H'; left; auto.
  - exfalso; apply H; left; auto.
  - subst y. destruct (IH c') as [-> ->]; auto.
    + intros Hi; apply H; right; exact Hi.
    + intros Hi; apply H'; right; exact Hi.
Qed.

Lemma join_inj cs : forall cs', cs <> [] -> cs' <> [] -> Forall no_slash cs -> Forall no_slash cs' ->
  join cs = join cs' -> cs = cs'.
Proof.
  induction cs as [|a cs IH]; intros [|b cs'] H H' Hf Hf' E; try congruence.
  inversion Hf as [|? ? Ha Hr]; inversion Hf' as [|? ? Hb Hr']; subst.
  destruct cs as [|a2 cs], cs' as [|b2 cs'].
  - cbn [join] in E. congruence.
  - exfalso. change (join (b :: b2 :: cs')) with (b ++ slash :: join (b2 :: cs')) in E. cbn [join] in E.
    apply Ha. rewrite E. apply in_or_app; right; left; reflexivity.
  - exfalso. change (join (a :: a2 :: cs)) with (a ++ slash :: join (a2 :: cs)) in E. cbn [join] in E.
    apply Hb. rewrite <- E. apply in_or_app; right; left; reflexivity.
  - change (join (b :: b2 :: cs')) with (b ++ slash :: join (b2 :: cs')) in E.
    change (join (a :: a2 :: cs)) with (a ++ slash :: join (a2 :: cs)) in E.
    destruct (split_slash _ _ _ _ Ha Hb E) as [-> E2]. f_equal. apply IH; auto; discriminate.
Qed.

Lemma join_last_not_slash cs : cs <> [] -> last cs [] <> [] -> Forall no_slash cs ->
  forall t, join cs <> t ++ [slash].
Proof.
  intros Hn Hl Hf t E.
  assert (Ha : cs = removelast cs ++ [last cs []]) by (apply app_removelast_last; assumption).
  set (lc := last cs []) in *.
  assert (Hlc : no_slash lc).
  { rewrite Ha in Hf. apply Forall_app in Hf. destruct Hf as [_ Hf]. inversion Hf; assumption. }
  assert (G : exists u, join cs = u ++ lc).
  { rewrite Ha. destruct (removelast cs) as [|x y]; [exists []; reflexivity|].
    rewrite join_app by discriminate. exists (join (x :: y) ++ [slash]). rewrite <- app_assoc. reflexivity. }
  destruct G as (u & G). rewrite E in G.
  destruct (exists_last Hl) as (w & z & Ez). rewrite Ez in G. rewrite app_assoc in G.
  apply app_inj_tail in G. destruct G as [_ <-]. apply Hlc. rewrite Ez. apply in_or_app; right; left; reflexivity.
Qed.

Lemma components_unique body cs cs' : components body cs -> components body cs' -> cs = cs'.
Proof.
  intros (F & H) (F' & H').
  assert (J0 : forall l, l <> [] -> last l [] <> [] -> join l <> []).
  { intros l Hl Hn E. assert (Ha : l = removelast l ++ [last l []]) by (apply app_removelast_last; assumption).
    rewrite Ha in E. destruct (removelast l) as [|x y]; [cbn in E; contradiction|].
    rewrite join_app in E by discriminate. destruct (join (x :: y)); discriminate. }
  destruct H as [[H1 H2]|[(H1 & H2 & H3)|(H1 & H2)]], H' as [[K1 K2]|[(K1 & K2 & K3)|(K1 & K2)]]; subst.
  - reflexivity.
  - exfalso; symmetry in K2; apply (J0 cs'); auto.
  - destruct (join cs'); discriminate.
  - exfalso; apply (J0 cs); auto.
  - apply join_inj; auto.
  - exfalso. eapply join_last_not_slash; [exact H1|exact H3|exact F|exact K2].
  - exfalso. destruct (join cs); discriminate.
  - exfalso. eapply join_last_not_slash; [exact K1|exact K3|exact F'|]. symmetry; exact K2.
  - apply app_inj_tail in K2. apply join_inj; tauto.
Qed.
