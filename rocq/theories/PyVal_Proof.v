(** Lemmas for C89. *)
From Verif Require Import Base PyVal_Model PyVal_Spec.

Section Values.
  Variables (F D : Type) (wide : F -> D) (narrow : D -> F) (zero one : F) (minus1 : D).
  Notation sample := (sample F D).
  Definition last_buffer (get : F -> assigned F) (b : list F) (ts : list F) : list F :=
    fold_left (fun b t => store F (get t) b) ts b.

  Lemma store_nth : forall (b : list F) w c,
    nth_error (store F w b) c =
    match nth_error b c with None => None | Some x => Some (match nth_error w c with Some (Some y) => y | _ => x end) end.
  Proof.
    induction b as [|x b IH]; intros w c; cbn [store].
    - destruct c, w; reflexivity.
    - destruct w as [|o w].
      + replace (nth_error (@nil (option F)) c) with (@None (option F)) by (destruct c; reflexivity).
        cbn [store]. destruct (nth_error (x :: b) c); reflexivity.
      + destruct c; cbn [store nth_error]; [destruct o; reflexivity | apply IH].
  Qed.
  Lemma store_length : forall (b : list F) w, length (store F w b) = length b.
  Proof. induction b as [|x b IH]; intros [|o w]; cbn; auto. Qed.
  Lemma last_length ts : forall get b, length (last_buffer get b ts) = length b.
  Proof. induction ts as [|t r IH]; intros; cbn; auto. unfold last_buffer in IH. rewrite IH. apply store_length. Qed.

  Lemma sample_length ts : forall get build b, length (sample get build b ts) = length ts.
  Proof. induction ts; intros; cbn; auto. Qed.
  Lemma sample_nth ts : forall get build b k item, nth_error (sample get build b ts) k = Some item ->
    item = build (last_buffer get b (firstn (S k) ts)).
  Proof.
    induction ts as [|t r IH]; intros get build b k item E.
    - destruct k; discriminate.
    - destruct k as [|k]; cbn in E.
      + injection E as <-. reflexivity.
      + apply IH in E. exact E.
  Qed.

  Lemma last_component get : forall ts b c d, nth_error b c = Some d ->
    exists x, nth_error (last_buffer get b ts) c = Some x /\ latest get ts c d x.
  Proof.
    intros ts b c d E. induction ts as [|t r IH] using rev_ind.
    - exists d. split; [exact E|]. right. split; [reflexivity|]. intros u [].
    - destruct IH as [x [E1 L]]. unfold last_buffer in *. rewrite fold_left_app. cbn. rewrite store_nth, E1.
      destruct (nth_error (get t) c) as [[y|]|] eqn:G; eexists; (split; [reflexivity|]).
      + left. exists r, t, []. split; [reflexivity|]. split; [exact G|]. intros u [].
      + destruct L as [(be & t' & af & -> & E2 & N) | [-> N]]; [left; exists be, t', (af ++ [t]) | right].
        * split; [rewrite <- app_assoc; reflexivity|]. split; [exact E2|]. intros u I y.
          apply in_app_or in I as [I | [<-|[]]]; [now apply N | congruence].
        * split; [reflexivity|]. intros u I y. apply in_app_or in I as [I | [<-|[]]]; [now apply N | congruence].
      + destruct L as [(be & t' & af & -> & E2 & N) | [-> N]]; [left; exists be, t', (af ++ [t]) | right].
        * split; [rewrite <- app_assoc; reflexivity|]. split; [exact E2|]. intros u I y.
          apply in_app_or in I as [I | [<-|[]]]; [now apply N | congruence].
        * split; [reflexivity|]. intros u I y. apply in_app_or in I as [I | [<-|[]]]; [now apply N | congruence].
  Qed.

  (** The buffer and the builder for a shape *)
  Definition buffer_of (garbage : F) (s : shape) : list F :=
    match s with
    | Scalar => [garbage] | Vector => fresh_vector F zero
    | Rows 3 => fresh_rts F zero one | Rows _ => fresh_matrix F zero one
    end.
  Definition build_of (s : shape) : list F -> pyval D :=
    match s with
    | Scalar => member F D wide zero 0 | Vector => BuildVector4 F D wide zero
    | Rows 3 => BuildRTS F D wide zero | Rows _ => BuildMatrix F D wide zero
    end.
  Definition proper (s : shape) : Prop := s = Scalar \/ s = Vector \/ s = Rows 3 \/ s = Rows 4.

  Lemma build_shaped s b : proper s -> length b = size s -> shaped s (map wide b) (build_of s b).
  Proof.
    intros P L. destruct P as [-> | [-> | [-> | ->]]]; cbn in L;
      repeat (destruct b as [|? b]; [discriminate L |]); (destruct b; [|discriminate L]).
    - constructor.
    - apply (@shaped_vector D [_; _; _; _] eq_refl).
    - apply (@shaped_rows D 3 [_; _; _; _; _; _; _; _; _; _; _; _] eq_refl).
    - apply (@shaped_rows D 4 [_; _; _; _; _; _; _; _; _; _; _; _; _; _; _; _] eq_refl).
  Qed.
  Lemma buffer_size garbage s : proper s -> length (buffer_of garbage s) = size s.
  Proof. intros [-> | [-> | [-> | ->]]]; reflexivity. Qed.

  Lemma initial_nth garbage s c d : initial zero one garbage s c d -> nth_error (buffer_of garbage s) c = Some d.
  Proof.
    intros I. destruct I as [n H|n H|n H| |n H| |r n H1 H2|]; unfold buffer_of, fresh_vector, fresh_rts, fresh_matrix.
    - do 4 (destruct n as [|n]; [reflexivity|]). lia.
    - do 4 (destruct n as [|n]; [reflexivity|]). lia.
    - do 4 (destruct n as [|n]; [lia|]). do 3 (destruct n as [|n]; [reflexivity|]). lia.
    - reflexivity.
    - do 8 (destruct n as [|n]; [lia|]). do 3 (destruct n as [|n]; [reflexivity|]). lia.
    - reflexivity.
    - do 4 (destruct r as [|r]; [do 4 (destruct n as [|n]; [reflexivity|]); lia|]). lia.
    - reflexivity.
  Qed.
  Lemma initial_total garbage s c : proper s -> (c < size s)%nat -> exists d, initial zero one garbage s c d.
  Proof.
    intros P L. destruct P as [-> | [-> | [-> | ->]]]; cbn in L.
    - replace c with 0%nat by lia. eexists. apply init_single.
    - eexists. constructor; lia.
    - destruct (Nat.ltb_spec c 4); [eexists; constructor; lia|].
      destruct (Nat.ltb_spec c 7); [eexists; apply init_rotation; lia|].
      destruct (Nat.eq_dec c 7) as [->|]; [eexists; apply init_rotation_w|].
      destruct (Nat.ltb_spec c 11); [eexists; apply init_scale; lia|].
      replace c with 11%nat by lia. eexists; apply init_scale_w.
    - rewrite (Nat.div_mod c 4) by lia. eexists. apply init_matrix; [apply Nat.div_lt_upper_bound; lia | apply Nat.mod_upper_bound; lia].
  Qed.

  Lemma gives_proper n s : gives n s -> proper s.
  Proof. unfold proper. intros []; auto. Qed.

  Lemma GetValues_gives garbage self l s get : gives (TrackType F self) s -> overrides self s get ->
    GetValues F D wide narrow zero one minus1 garbage self [AList D l] =
    sampled F D get (build_of s) (buffer_of garbage s) (fst (times F D narrow minus1 l)) (snd (times F D narrow minus1 l)).
  Proof.
    intros G O. unfold GetValues, times. cbn [fst snd].
    inversion G as [E1 E2|E1 E2|E1 E2|E1 E2|E1 E2|E1 E2]; subst s; inversion O; subst; reflexivity.
  Qed.

  Lemma numbers ds : times F D narrow minus1 (map (Number D) ds) = (map narrow ds, false).
  Proof.
    unfold times. rewrite map_map. cbn. f_equal. induction ds; cbn; auto.
  Qed.
End Values.

(** * Histories *)
Definition after (ps : list op) (w : world) : world := snd (play ps w).
Lemma after_app p q w : after (p ++ q) w = after q (after p w).
Proof.
  revert w. induction p as [|x p IH]; intros w; [reflexivity|].
  unfold after in *. cbn. destruct (step x w) as [o w1]. specialize (IH w1).
  destruct (play p w1), (play (p ++ q) w1). exact IH.
Qed.
Lemma after_one p w : after [p] w = snd (step p w).
Proof. unfold after. cbn. destruct (step p w). reflexivity. Qed.
Lemma play_last ps p w : fst (play (ps ++ [p]) w) = fst (play ps w) ++ [fst (step p (after ps w))].
Proof.
  revert w. induction ps as [|x r IH]; intros w; cbn.
  - unfold after. cbn. destruct (step p w). reflexivity.
  - unfold after in *. cbn. destruct (step x w) as [o w1]. specialize (IH w1).
    destruct (play r w1), (play (r ++ [p]) w1). cbn in *. rewrite IH. reflexivity.
Qed.

Lemma update_length {A} n (f : A -> A) l : length (update n f l) = length l.
Proof. revert n. induction l; intros [|n]; cbn; auto. Qed.
Lemma update_nth {A} n (f : A -> A) l : forall i, nth_error (update n f l) i =
  if Nat.eqb i n then option_map f (nth_error l i) else nth_error l i.
Proof.
  revert n. induction l as [|x l IH]; intros [|n] [|i]; cbn; try reflexivity.
  - destruct (Nat.eqb i n); reflexivity.
  - apply IH.
Qed.
Lemma member_of_In n l : member_of n l = true <-> In n l.
Proof.
  unfold member_of. rewrite existsb_exists. split.
  - intros (x & I & E). apply Nat.eqb_eq in E. now subst.
  - intros I. exists n. split; [exact I | apply Nat.eqb_refl].
Qed.

Lemma created_app p q : created (p ++ q) = (created p + created q)%nat.
Proof. induction p as [|[]]; cbn; auto; lia. Qed.
Lemma balance_app p q i : balance (p ++ q) i = balance p i + balance q i.
Proof. induction p as [|[]]; cbn; auto; lia. Qed.

Lemma legal_app p q : legal (p ++ q) -> legal p.
Proof.
  intros L b x a i -> H. apply (L b x (a ++ q) i); [rewrite <- app_assoc; reflexivity | exact H].
Qed.
Lemma legal_last p x i : legal (p ++ [x]) -> (x = Hold i \/ x = Drop i \/ x = Use i \/ exists own, x = Child i own) ->
  (i < created p)%nat /\ 0 < references p i.
Proof. intros L. apply (L p x [] i). reflexivity. Qed.

Record good (ps : list op) (w : world) : Prop := {
  g_len : length (objects w) = created ps;
  g_blocks : blocks w = created ps;
  g_count : forall i o, nth_error (objects w) i = Some o -> count o = references ps i /\ 0 <= count o;
  g_unborn : forall i, (created ps <= i)%nat -> balance ps i = 0;
  g_home : forall i o, nth_error (objects w) i = Some o ->
    (exists h, nth_error (objects w) (home o) = Some h /\ owns h = true) /\ (owns o = true -> home o = i);
  g_released : forall h, In h (released w) <-> exists o, nth_error (objects w) h = Some o /\ owns o = true /\ count o = 0 }.

Lemma references_last ps x i : references (ps ++ [x]) i =
  (if (i <? created ps + created [x])%nat then 1 else 0) + (balance ps i + balance [x] i).
Proof. unfold references. rewrite created_app, balance_app. reflexivity. Qed.

Lemma good_create ps w x o : good ps w -> created [x] = 1%nat -> (forall i, balance [x] i = 0) ->
  count o = 1 -> (owns o = true -> home o = length (objects w)) ->
  (owns o = true \/ exists h, nth_error (objects w) (home o) = Some h /\ owns h = true) ->
  good (ps ++ [x]) (create o w).
Proof.
  intros [GL GB GC GU GH GR] C B N O1 O2.
  assert (GL' := GL).
  assert (NE : forall i p, nth_error (objects w ++ [o]) i = Some p ->
    (nth_error (objects w) i = Some p /\ (i < created ps)%nat) \/ (p = o /\ i = created ps)).
  { intros i p E. destruct (Nat.ltb_spec i (length (objects w))) as [Lt|Ge].
    - left. rewrite nth_error_app1 in E by assumption. split; [exact E | lia].
    - right. rewrite nth_error_app2 in E by assumption.
      destruct (i - length (objects w))%nat as [|k] eqn:K; cbn in E; [injection E as <-; split; [reflexivity | lia] | destruct k; discriminate]. }
  assert (New : nth_error (objects w ++ [o]) (created ps) = Some o).
  { rewrite <- GL, nth_error_app2, Nat.sub_diag by lia. reflexivity. }
  assert (Old : forall i p, nth_error (objects w) i = Some p -> nth_error (objects w ++ [o]) i = Some p).
  { intros i p E. rewrite nth_error_app1; [exact E |]. apply nth_error_Some. congruence. }
  constructor; cbn [create objects released blocks].
  - rewrite app_length, created_app, C. cbn. lia.
  - rewrite created_app, C. lia.
  - intros i p E. rewrite references_last, B, C. apply NE in E as [[E Lt] | [-> ->]].
    + apply GC in E. unfold references in E. destruct (Nat.ltb_spec i (created ps)); [|lia].
      destruct (Nat.ltb_spec i (created ps + 1)); lia.
    + rewrite GU by lia. destruct (Nat.ltb_spec (created ps) (created ps + 1)); lia.
  - intros i Ge. rewrite created_app, C in Ge. rewrite balance_app, B, GU by lia. lia.
  - intros i p E. apply NE in E as [[E Lt] | [-> ->]].
    + destruct (GH i p E) as [(h & Eh & Oh) S]. split; [exists h; auto | exact S].
    + split; [| intros Oo; rewrite (O1 Oo); exact GL].
      destruct O2 as [Oo | (h & Eh & Oh)]; [exists o; rewrite (O1 Oo), GL; auto | exists h; auto].
  - intros h. rewrite GR. split.
    + intros (p & E & Op & Cp). exists p. auto.
    + intros (p & E & Op & Cp). apply NE in E as [[E Lt] | [-> ->]]; [exists p; auto | lia].
Qed.

Lemma good_after : forall ps, legal ps -> good ps (after ps start).
Proof.
  intros ps. induction ps as [|x ps IH] using rev_ind; intros L.
  - constructor; cbn; try reflexivity; intros; try (destruct i; discriminate).
    split; [intros [] | intros (o & E & _); destruct h; discriminate].
  - specialize (IH (legal_app _ _ L)). rewrite after_app, after_one. set (w := after ps start) in *.
    destruct x as [|k own|k|k|k]; cbn [step snd].
    + apply good_create; auto.
    + destruct (legal_last _ _ k L) as [Lt Pos]; [eauto 6|].
      assert (GH := g_home _ _ IH). assert (GL := g_len _ _ IH).
      destruct (nth_error (objects w) k) as [o|] eqn:E; [| apply nth_error_None in E; lia].
      apply good_create; auto; cbn.
      * intros ->. reflexivity.
      * destruct own; [left; reflexivity | right; destruct (GH k o E) as [H _]; exact H].
    + destruct (legal_last _ _ k L) as [Lt Pos]; [eauto 6|]. destruct IH as [GL GB GC GU GH GR].
      destruct (nth_error (objects w) k) as [o|] eqn:E; [| apply nth_error_None in E; lia].
      destruct (GC k o E) as [Ck _]. cbn [snd].
      constructor; cbn [objects released blocks].
      * rewrite update_length, created_app. cbn. lia.
      * rewrite created_app. cbn. lia.
      * intros i p Ep. rewrite update_nth in Ep. rewrite references_last. cbn [created balance].
        rewrite Nat.add_0_r, Z.add_0_r. unfold references in *.
        destruct (Nat.eqb_spec i k) as [->|Ne]; cbn [option_map] in Ep.
        -- rewrite E in Ep. cbn [option_map] in Ep. injection Ep as <-. cbn [count]. lia.
        -- apply GC in Ep. unfold references in Ep. lia.
      * intros i Ge. rewrite created_app in Ge. cbn in Ge. rewrite balance_app. cbn.
        destruct (Nat.eqb_spec i k); [lia|]. rewrite GU by lia. lia.
      * intros i p Ep. rewrite update_nth in Ep.
        assert (Q : exists q, nth_error (objects w) i = Some q /\ home q = home p /\ owns q = owns p).
        { destruct (Nat.eqb i k); [|eauto]. destruct (nth_error (objects w) i) as [q|]; [|discriminate].
          injection Ep as <-. exists q. auto. }
        destruct Q as (q & Eq & Hq & Oq). destruct (GH i q Eq) as [(h & Eh & Oh) S]. rewrite Hq in *. rewrite Oq in S. split; [|exact S].
        rewrite update_nth, Eh. destruct (Nat.eqb (home p) k); eexists; (split; [reflexivity | exact Oh]).
      * intros h. rewrite GR, update_nth. destruct (Nat.eqb_spec h k) as [->|Ne]; [|reflexivity].
        rewrite E. cbn [option_map]. split; intros (p & Ep & Op & Cp); injection Ep as <-; cbn in *; lia.
    + destruct (legal_last _ _ k L) as [Lt Pos]; [eauto 6|]. destruct IH as [GL GB GC GU GH GR].
      unfold drop.
      destruct (nth_error (objects w) k) as [o|] eqn:E; [| apply nth_error_None in E; lia].
      destruct (GC k o E) as [Ck _].
      constructor; cbn [objects released blocks].
      * rewrite update_length, created_app. cbn. lia.
      * rewrite created_app. cbn. lia.
      * intros i p Ep. rewrite update_nth in Ep. rewrite references_last. cbn [created balance].
        rewrite Nat.add_0_r, Z.add_0_r. unfold references in *.
        destruct (Nat.eqb_spec i k) as [->|Ne]; cbn [option_map] in Ep.
        -- rewrite E in Ep. cbn [option_map] in Ep. injection Ep as <-. cbn [count]. lia.
        -- apply GC in Ep. unfold references in Ep. lia.
      * intros i Ge. rewrite created_app in Ge. cbn in Ge. rewrite balance_app. cbn.
        destruct (Nat.eqb_spec i k); [lia|]. rewrite GU by lia. lia.
      * intros i p Ep. rewrite update_nth in Ep.
        assert (Q : exists q, nth_error (objects w) i = Some q /\ home q = home p /\ owns q = owns p).
        { destruct (Nat.eqb i k); [|eauto]. destruct (nth_error (objects w) i) as [q|]; [|discriminate].
          injection Ep as <-. exists q. auto. }
        destruct Q as (q & Eq & Hq & Oq). destruct (GH i q Eq) as [(h & Eh & Oh) S]. rewrite Hq in *. rewrite Oq in S. split; [|exact S].
        rewrite update_nth, Eh. destruct (Nat.eqb (home p) k); eexists; (split; [reflexivity | exact Oh]).
      * intros h. rewrite update_nth.
        assert (R : In h (if (count o - 1 =? 0) && owns o then home o :: released w else released w) <->
                    (h = k /\ count o - 1 = 0 /\ owns o = true) \/ In h (released w)).
        { destruct (GH k o E) as [_ S].
          destruct (Z.eqb_spec (count o - 1) 0), (owns o) eqn:Oo; cbn [andb]; try (rewrite (S eq_refl)); cbn [In]; intuition congruence. }
        rewrite R, GR. destruct (Nat.eqb_spec h k) as [->|Ne].
        -- rewrite E. cbn [option_map]. split.
           ++ intros [(_ & C0 & Oo) | (p & Ep & Op & Cp)]; [eexists; split; [reflexivity|]; cbn; auto | injection Ep as <-; lia].
           ++ intros (p & Ep & Op & Cp). injection Ep as <-. left. auto.
        -- split; [intros [[? _] | H]; [congruence | exact H] | auto].
    + destruct IH as [GL GB GC GU GH GR]. constructor; try rewrite created_app; cbn [created]; try lia.
      * intros i p Ep. rewrite references_last. cbn. rewrite Nat.add_0_r, Z.add_0_r. apply GC. exact Ep.
      * intros i Ge. rewrite balance_app. cbn. rewrite GU by lia. lia.
      * exact GH.
      * exact GR.
Qed.

(** What an object points into never changes *)
Lemma step_home p w i o : nth_error (objects w) i = Some o ->
  exists o', nth_error (objects (snd (step p w))) i = Some o' /\ home o' = home o.
Proof.
  intros E. assert (A : forall q, nth_error (objects w ++ [q]) i = Some o).
  { intros q. rewrite nth_error_app1; [exact E |]. apply nth_error_Some. congruence. }
  destruct p as [|k own|k|k|k]; cbn [step snd].
  - exists o. cbn. auto.
  - destruct (nth_error (objects w) k); exists o; cbn; auto.
  - destruct (nth_error (objects w) k); cbn [snd objects]; [|exists o; auto].
    rewrite update_nth, E. destruct (Nat.eqb i k); eexists; split; reflexivity.
  - unfold drop. destruct (nth_error (objects w) k); cbn [objects]; [|exists o; auto].
    rewrite update_nth, E. destruct (Nat.eqb i k); eexists; split; reflexivity.
  - exists o. auto.
Qed.
Lemma after_home ps : forall w i o, nth_error (objects w) i = Some o ->
  exists o', nth_error (objects (after ps w)) i = Some o' /\ home o' = home o.
Proof.
  induction ps as [|p r IH]; intros w i o E; [exists o; auto|].
  change (p :: r) with ([p] ++ r). rewrite after_app, after_one.
  destruct (step_home p w i o E) as (o1 & E1 & H1). destruct (IH _ _ _ E1) as (o2 & E2 & H2). exists o2. split; [exact E2 | congruence].
Qed.

Lemma origin_home ps i j : legal ps -> origin ps i j -> exists o, nth_error (objects (after ps start)) i = Some o /\ home o = j.
Proof.
  intros L O. induction O as [b a E | b k a E | b k a j E O IH].
  - assert (Lb : legal b) by (subst ps; exact (legal_app _ _ L)). assert (G := g_len _ _ (good_after b Lb)).
    subst ps. rewrite after_app. change (Root :: a) with ([Root] ++ a). rewrite after_app, after_one. cbn [step snd].
    set (w := after b start) in *.
    destruct (after_home a (create (Obj (length (objects w)) true 1) w) (created b) (Obj (length (objects w)) true 1)) as (o & Eo & Ho).
    { cbn. rewrite <- G, nth_error_app2, Nat.sub_diag by lia. reflexivity. }
    exists o. split; [exact Eo | rewrite Ho; exact G].
  - assert (Lb : legal b) by (subst ps; exact (legal_app _ _ L)). assert (G := g_len _ _ (good_after b Lb)).
    destruct (L b (Child k true) a k E ltac:(eauto 6)) as [Lt _].
    subst ps. rewrite after_app. change (Child k true :: a) with ([Child k true] ++ a). rewrite after_app, after_one. cbn [step snd].
    set (w := after b start) in *.
    destruct (nth_error (objects w) k) as [ok|] eqn:Ek; [| apply nth_error_None in Ek; lia].
    destruct (after_home a (create (Obj (length (objects w)) true 1) w) (created b) (Obj (length (objects w)) true 1)) as (o & Eo & Ho).
    { cbn. rewrite <- G, nth_error_app2, Nat.sub_diag by lia. reflexivity. }
    exists o. split; [exact Eo | rewrite Ho; exact G].
  - assert (Lb : legal b) by (subst ps; exact (legal_app _ _ L)). assert (G := g_len _ _ (good_after b Lb)).
    destruct (L b (Child k false) a k E ltac:(eauto 6)) as [Lt _].
    destruct IH as (ok' & Ek' & Hk').
    subst ps. rewrite after_app in Ek' |- *. set (w := after b start) in *.
    destruct (nth_error (objects w) k) as [ok|] eqn:Ek; [| apply nth_error_None in Ek; lia].
    destruct (after_home (Child k false :: a) w k ok Ek) as (ok2 & Ek2 & Hk2). assert (Hk : home ok = j) by congruence.
    change (Child k false :: a) with ([Child k false] ++ a). rewrite after_app, after_one. cbn [step snd]. rewrite Ek.
    destruct (after_home a (create (Obj (home ok) false 1) w) (created b) (Obj (home ok) false 1)) as (o & Eo & Ho).
    { cbn. rewrite <- G, nth_error_app2, Nat.sub_diag by lia. reflexivity. }
    exists o. split; [exact Eo | rewrite Ho; exact Hk].
Qed.

Lemma origin_app ps qs i j : origin ps i j -> origin (ps ++ qs) i j.
Proof.
  induction 1 as [b a E | b k a E | b k a j E O IH]; subst ps.
  - apply (origin_root _ b (a ++ qs)). rewrite <- app_assoc. reflexivity.
  - apply (origin_own _ b k (a ++ qs)). rewrite <- app_assoc. reflexivity.
  - apply (origin_part _ b k (a ++ qs)); [rewrite <- app_assoc; reflexivity | exact IH].
Qed.
Lemma origin_exists ps : legal ps -> forall i, (i < created ps)%nat -> exists j, origin ps i j.
Proof.
  induction ps as [|x ps IH] using rev_ind; intros L i Lt; [cbn in Lt; lia|].
  rewrite created_app in Lt. specialize (IH (legal_app _ _ L)).
  destruct (Nat.ltb_spec i (created ps)) as [A|A].
  - destruct (IH i A) as [j O]. exists j. now apply origin_app.
  - destruct x as [|k [|]|k|k|k]; cbn in Lt; try lia; replace i with (created ps) by lia.
    + eexists. apply (origin_root _ ps []). reflexivity.
    + eexists. apply (origin_own _ ps k []). reflexivity.
    + destruct (legal_last _ _ k L) as [B _]; [eauto 6|]. destruct (IH k B) as [j O]. exists j.
      apply (origin_part _ ps k []); [reflexivity | now apply origin_app].
Qed.

Lemma status_after ps i j : legal ps -> (i < created ps)%nat -> 0 < references ps i -> origin ps i j ->
  (status i (after ps start) = Ok <-> 0 < references ps j) /\ (status i (after ps start) = Dangling <-> references ps j = 0).
Proof.
  intros L Lt Pos O. destruct (origin_home ps i j L O) as (o & E & H). destruct (good_after ps L) as [GL GB GC GU GH GR].
  destruct (GH i o E) as [(h & Eh & Oh) _]. rewrite H in Eh. destruct (GC i o E) as [Ci _]. destruct (GC j h Eh) as [Cj Cj0].
  unfold status, held. rewrite E. destruct (Z.ltb_spec 0 (count o)); [|lia]. rewrite H.
  destruct (member_of j (released (after ps start))) eqn:M.
  - apply member_of_In, GR in M as (h' & Eh' & _ & C0). assert (h' = h) by congruence. subst h'. split; split; intros; try discriminate; try lia; try reflexivity.
  - assert (N : ~ In j (released (after ps start))) by (rewrite <- member_of_In; congruence). rewrite GR in N.
    assert (count h <> 0) by (intros C0; apply N; eauto). split; split; intros; try discriminate; try lia; try reflexivity.
Qed.
