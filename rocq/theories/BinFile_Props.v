(** C81: file readers and writers. *)
From Verif Require Import Base BinFile_Model BinFile_Spec.
Local Open Scope nat_scope.

Lemma put_len {A} i (x : A) l : length (put_at i x l) = length l.
Proof. revert i. induction l as [|y l IH]; intros [|i]; cbn [put_at length]; auto. Qed.
Lemma put_same {A} i (x : A) l : i < length l -> nth_error (put_at i x l) i = Some x.
Proof. revert i. induction l as [|y l IH]; intros [|i] H; cbn [put_at length nth_error] in *; try lia; auto. apply IH. lia. Qed.
Lemma put_other {A} i j (x : A) l : j <> i -> nth_error (put_at i x l) j = nth_error l j.
Proof. revert i j. induction l as [|y l IH]; intros [|i] [|j] H; cbn [put_at nth_error]; auto; try lia. Qed.
Lemma the_lt w i o : the w i = Some o -> i < length (objs w).
Proof. unfold the. intros H. destruct (nth_error (objs w) i) eqn:E; [|discriminate]. apply nth_error_Some. congruence. Qed.
Lemma the_out w i : length (objs w) <= i -> the w i = None.
Proof. intros H. unfold the. rewrite (proj2 (nth_error_None _ _) H). reflexivity. Qed.
Lemma the_put w i x fs j : i < length (objs w) -> the (World (put_at i x (objs w)) fs) j = if Nat.eqb j i then x else the w j.
Proof.
  intros H. unfold the. cbn [objs]. destruct (Nat.eqb_spec j i) as [->|N]; [rewrite put_same by exact H; reflexivity|].
  rewrite put_other by exact N. reflexivity.
Qed.
Lemma the_app w x fs j : the (World (objs w ++ [x]) fs) j = if Nat.eqb j (length (objs w)) then x else the w j.
Proof.
  unfold the. cbn [objs]. destruct (Nat.eqb_spec j (length (objs w))) as [->|N].
  - rewrite nth_error_app2, Nat.sub_diag by lia. reflexivity.
  - destruct (Nat.lt_ge_cases j (length (objs w))) as [L|G]; [rewrite nth_error_app1 by exact L; reflexivity|].
    rewrite (proj2 (nth_error_None (objs w) j)) by lia. rewrite (proj2 (nth_error_None _ j)); [reflexivity|].
    rewrite app_length. cbn [length]. lia.
Qed.
Lemma run_app k al w a b : run k al w (a ++ b) = run k al (run k al w a) b.
Proof. revert w. induction a as [|o a IH]; intros w; [reflexivity|]. cbn [app run]. apply IH. Qed.
Lemma sys_can k al fs n : (exists fs', sys_open k al fs n = Some fs') <-> can_open k al fs n.
Proof.
  unfold sys_open, can_open. destruct (al n); [|split; [intros [? H]; discriminate|intros [H _]; discriminate]].
  destruct k.
  - destruct (fs n) eqn:E; split.
    + intros _. split; [reflexivity|]. discriminate.
    + intros _. eexists. reflexivity.
    + intros [? H]. discriminate.
    + intros [_ H]. exfalso. apply H; reflexivity.
  - split; [intros _; split; [reflexivity|discriminate]|]. intros _. eexists. reflexivity.
Qed.

(** What the objects look like after a history without moves *)
Definition shape (i : nat) (o : obj) : Prop :=
  match file o with Some _ => base o = Some i | None => base o = None end.
Definition good (w : world) : Prop := forall i o, the w i = Some o -> shape i o.

Section P.
  Context (k : kind) (al : name -> bool).
  Local Notation step := (step k al).
  Local Notation run := (run k al).
  Lemma create_the w : the (World (objs w ++ [Some (Obj None false None)]) (files w)) (length (objs w)) = Some (Obj None false None).
  Proof. rewrite the_app, Nat.eqb_refl. reflexivity. Qed.

  Lemma OpenFile_cases i n w o : the w i = Some o ->
    (exists m, file o = Some m /\ OpenFile k al i n w = (Throws, World (put_at i (Some (Obj (Some m) true (base o))) (objs w)) (files w))) \/
    (file o = None /\ exists fs, sys_open k al (files w) n = Some fs /\ OpenFile k al i n w = (Ok, World (put_at i (Some (Obj (Some n) false (Some i))) (objs w)) fs)) \/
    (file o = None /\ sys_open k al (files w) n = None /\ OpenFile k al i n w = (Throws, World (put_at i (Some (Obj None true (base o))) (objs w)) (files w))).
  Proof.
    intros T. unfold OpenFile. rewrite T. destruct (file o) as [m|]; [left; exists m; auto|]. right.
    destruct (sys_open k al (files w) n) as [fs|]; [left|right]; split; auto. exists fs. auto.
  Qed.
  (** One call: what becomes of each object *)
  Lemma step_the w c j : good w -> (forall i, c <> MoveFrom i) ->
    the (snd (step w c)) j = match c with
      | Create => if Nat.eqb j (length (objs w)) then Some (Obj None false None) else the w j
      | CreateOpen n => if Nat.eqb j (length (objs w)) then match sys_open k al (files w) n with Some _ => Some (Obj (Some n) false (Some j)) | None => None end else the w j
      | Open i n => if Nat.eqb j i then match the w j with
            | Some o => match file o with Some m => Some (Obj (Some m) true (Some j))
                        | None => match sys_open k al (files w) n with Some _ => Some (Obj (Some n) false (Some j)) | None => Some (Obj None true None) end end
            | None => None end else the w j
      | MoveFrom _ => None
      | Destroy i => if Nat.eqb j i then None else the w j
      end.
  Proof.
    intros G N. destruct c as [|n|i n|i|i]; cbn [BinFile_Model.step].
    - cbn [snd]. apply the_app.
    - set (w1 := World (objs w ++ [Some (Obj None false None)]) (files w)).
      assert (L1 : length (objs w) < length (objs w1)) by (cbn [w1 objs]; rewrite app_length; cbn [length]; lia).
      destruct (OpenFile_cases (length (objs w)) n w1 _ (create_the w)) as [(m & F & _)|[(_ & fs & S1 & E)|(_ & S1 & E)]]; [discriminate F|..];
        change (files w1) with (files w) in S1; rewrite S1, E; cbn [snd].
      + rewrite the_put by exact L1. unfold w1. rewrite the_app. destruct (Nat.eqb_spec j (length (objs w))) as [->|]; reflexivity.
      + unfold destroy. rewrite the_put.
        2: { cbn [objs]. rewrite put_len. exact L1. }
        change (files w) with (files w1). rewrite (the_put w1) by exact L1. unfold w1. rewrite the_app. destruct (Nat.eqb j (length (objs w))); reflexivity.
    - destruct (the w i) as [o|] eqn:T.
      + pose proof (the_lt _ _ _ T) as L. pose proof (G i o T) as Sh. unfold shape in Sh.
        destruct (OpenFile_cases i n w o T) as [(m & F & E)|[(F & fs & S1 & E)|(F & S1 & E)]]; rewrite E; cbn [snd]; rewrite the_put by exact L;
          (destruct (Nat.eqb_spec j i) as [->|]; [|reflexivity]); rewrite T, F, ?S1; rewrite F in Sh; congruence.
      + unfold OpenFile. rewrite T. cbn [snd]. destruct (Nat.eqb_spec j i) as [->|]; [rewrite T|]; reflexivity.
    - exfalso. apply (N i). reflexivity.
    - destruct (the w i) as [o|] eqn:T.
      + cbn [snd]. unfold destroy. apply the_put. apply (the_lt _ _ _ T).
      + cbn [snd]. destruct (Nat.eqb_spec j i) as [->|]; [exact T|reflexivity].
  Qed.
  Lemma step_len w c : length (objs (snd (step w c))) = (match c with Create | CreateOpen _ => 1 | MoveFrom i => match the w i with Some _ => 1 | None => 0 end | _ => 0 end) + length (objs w).
  Proof.
    assert (O : forall i n w, length (objs (snd (OpenFile k al i n w))) = length (objs w)).
    { clear. intros i n w. unfold OpenFile. destruct (the w i) as [o|]; [|reflexivity]. destruct (file o); [cbn; apply put_len|].
      destruct (sys_open k al (files w) n); cbn; apply put_len. }
    destruct c as [|n|i n|i|i]; cbn [BinFile_Model.step].
    - cbn. rewrite app_length. cbn. lia.
    - specialize (O (length (objs w)) n (World (objs w ++ [Some (Obj None false None)]) (files w))). cbn [objs] in O. rewrite app_length in O. cbn [length] in O.
      destruct (OpenFile k al _ n _) as [[] w2]; cbn [snd] in *; unfold destroy; cbn [objs]; rewrite ?put_len; lia.
    - rewrite O. lia.
    - destruct (the w i); [|reflexivity]. cbn. rewrite app_length, put_len. cbn. lia.
    - destruct (the w i); [|reflexivity]. unfold destroy. cbn. rewrite put_len. reflexivity.
  Qed.
  Lemma good_step w c : good w -> (forall i, c <> MoveFrom i) -> good (snd (step w c)).
  Proof.
    intros G N j o. rewrite (step_the w c j G N). specialize (G j). destruct c as [|n|i n|i|i].
    - destruct (Nat.eqb j (length (objs w))); [intros E; injection E as <-; reflexivity|apply G].
    - destruct (Nat.eqb j (length (objs w))); [|apply G]. destruct (sys_open k al (files w) n); [|discriminate]. intros E; injection E as <-; reflexivity.
    - destruct (Nat.eqb j i); [|apply G]. destruct (the w j) as [p|]; [|discriminate].
      destruct (file p); [intros E; injection E as <-; reflexivity|]. destruct (sys_open k al (files w) n); intros E; injection E as <-; reflexivity.
    - discriminate.
    - destruct (Nat.eqb j i); [discriminate|apply G].
  Qed.
  Lemma good_run l : forall w, good w -> no_moves l -> good (run w l).
  Proof.
    induction l as [|c l IH]; intros w G N; [exact G|]. cbn [BinFile_Model.run]. apply IH.
    - apply good_step; [exact G|]. intros i E. apply (N i). left. exact E.
    - intros i I. apply (N i). right. exact I.
  Qed.
  Lemma good_after fs l : no_moves l -> good (after k al fs l).
  Proof. apply good_run. intros i o T. unfold the in T. cbn in T. destruct i; discriminate T. Qed.
  Lemma use_good w i : good w -> use w i = match the w i with None => Gone | Some o => match file o with None => Null | Some n => if failed o then Nowhere else To n end end.
  Proof.
    intros G. unfold use. destruct (the w i) as [o|] eqn:T; [|reflexivity]. pose proof (G i o T) as Sh. unfold shape in Sh.
    destruct (file o) as [n|] eqn:F; rewrite Sh; [|reflexivity]. rewrite T, F. reflexivity.
  Qed.
  Lemma opens_iff w c i n : good w -> (forall j, c <> MoveFrom j) -> opens k al w c i n <->
    ((c = Open i n /\ exists o, the w i = Some o /\ file o = None) \/ (c = CreateOpen n /\ i = length (objs w))) /\ can_open k al (files w) n.
  Proof.
    intros G N. unfold opens. split.
    - intros [[-> | [-> ->]] R]; cbn [BinFile_Model.step] in R.
      + destruct (the w i) as [o|] eqn:T; [|unfold OpenFile in R; rewrite T in R; discriminate R].
        destruct (OpenFile_cases i n w o T) as [(m & F & E)|[(F & fs & S1 & E)|(F & S1 & E)]]; rewrite E in R; try discriminate R.
        split; [left; split; eauto|]. apply sys_can. eauto.
      + destruct (OpenFile_cases (length (objs w)) n _ _ (create_the w)) as [(m & F & _)|[(_ & fs & S1 & E)|(_ & S1 & E)]]; [discriminate F|..];
          rewrite E in R; [|discriminate R]. split; [right; auto|]. apply sys_can. exists fs. exact S1.
    - intros [[[-> (o & T & F)]|[-> ->]] C]; apply sys_can in C; destruct C as [fs C]; (split; [auto|]); cbn [BinFile_Model.step].
      + destruct (OpenFile_cases i n w o T) as [(m & F' & E)|[(_ & fs' & S1 & E)|(_ & S1 & E)]]; [congruence|rewrite E; reflexivity|congruence].
      + destruct (OpenFile_cases (length (objs w)) n _ _ (create_the w)) as [(m & F' & E)|[(_ & fs' & S1 & E)|(_ & S1 & E)]]; [discriminate F'|rewrite E; reflexivity|].
        cbn [files] in S1. congruence.
  Qed.
  Lemma after_snoc fs l c : after k al fs (l ++ [c]) = snd (step (after k al fs l) c).
  Proof. unfold after. rewrite run_app. reflexivity. Qed.
  Lemma opens_lt fs a c b i n : no_moves (a ++ c :: b) -> opens k al (after k al fs a) c i n -> i < length (objs (after k al fs (a ++ c :: b))).
  Proof.
    intros N O. assert (M : forall l w, length (objs w) <= length (objs (run w l))).
    { clear. induction l as [|c l IH]; intros w; [cbn; lia|]. cbn [BinFile_Model.run]. etransitivity; [|apply IH]. rewrite step_len. lia. }
    unfold after. rewrite run_app. cbn [BinFile_Model.run]. eapply Nat.lt_le_trans; [|apply M].
    apply opens_iff in O; [|apply good_after; intros j J; apply (N j), in_or_app; auto|intros j J; apply (N j), in_or_app; right; left; exact J].
    rewrite step_len. fold (after k al fs a). destruct O as [[[-> (o & T & _)]|[-> ->]] _]; [apply the_lt in T; cbn; exact T|cbn; lia].
  Qed.
End P.

Lemma no_moves_app l l' : no_moves (l ++ l') -> no_moves l /\ no_moves l'.
Proof. intros N. split; intros i I; apply (N i), in_or_app; auto. Qed.
Lemma snoc_split {A} (l a b : list A) (x c : A) : l ++ [c] = a ++ x :: b -> (b = [] /\ a = l /\ x = c) \/ exists b', b = b' ++ [c] /\ l = a ++ x :: b'.
Proof.
  destruct (rev b) as [|y r] eqn:R.
  - intros E. left. rewrite <- (rev_involutive b), R in E |- *. cbn [rev] in *. apply app_inj_tail in E. destruct E. auto.
  - intros E. right. rewrite <- (rev_involutive b), R in E. cbn [rev] in E. rewrite app_comm_cons, app_assoc in E. apply app_inj_tail in E. destruct E as [-> <-].
    exists (rev r). split; [|reflexivity]. rewrite <- (rev_involutive b), R. reflexivity.
Qed.

(** Without moves: a use of an object reaches a file exactly if the object was opened with it, by the
    constructor or by Open, and since then neither Open was called on it nor was it destroyed. *)
Theorem C81_reaches : forall k al fs l i n, no_moves l ->
  (use (after k al fs l) i = To n <->
   exists a o b, l = a ++ o :: b /\ opens k al (after k al fs a) o i n /\ Forall (leaves i) b).
Proof.
  intros k al fs l i n. induction l as [|c l IH] using rev_ind; intros N.
  - split; [|intros (a & o & b & E & _); destruct a; discriminate E]. unfold after, use, the. cbn. destruct i; discriminate.
  - destruct (no_moves_app _ _ N) as [Nl Nc]. specialize (IH Nl). pose proof (good_after k al fs l Nl) as G.
    assert (C : forall j, c <> MoveFrom j) by (intros j J; apply (Nc j); left; exact J).
    rewrite use_good by (apply good_after; exact N). rewrite use_good in IH by exact G.
    rewrite after_snoc, step_the by assumption.
    assert (X : (exists a o b, l ++ [c] = a ++ o :: b /\ opens k al (after k al fs a) o i n /\ Forall (leaves i) b) <->
                opens k al (after k al fs l) c i n \/ (leaves i c /\ exists a o b, l = a ++ o :: b /\ opens k al (after k al fs a) o i n /\ Forall (leaves i) b)).
    { split.
      - intros (a & o & b & E & O & F). apply snoc_split in E. destruct E as [(-> & -> & ->)|(b' & -> & ->)]; [left; exact O|]. right.
        apply Forall_app in F. destruct F as [F1 F2]. inversion F2. split; [assumption|]. exists a, o, b'. auto.
      - intros [O|(Lv & a & o & b & -> & O & F)]; [exists l, c, []; auto|]. exists a, o, (b ++ [c]). split; [rewrite <- app_assoc; reflexivity|].
        split; [exact O|]. apply Forall_app. split; [exact F|]. constructor; [exact Lv|constructor]. }
    rewrite X. clear X. rewrite <- IH. clear IH. rewrite opens_iff by assumption. set (w := after k al fs l) in *. unfold leaves.
    destruct c as [|m|j m|j|j].
    + destruct (Nat.eqb_spec i (length (objs w))) as [->|Ni].
      * rewrite the_out by lia. cbn. split; [discriminate|]. intros [([[H _]|[H _]] & _)|[_ H]]; discriminate.
      * split; [|intros [([[H _]|[H _]] & _)|[_ H]]; [discriminate|discriminate|exact H]]. intros H. right. split; [split; discriminate|exact H].
    + destruct (Nat.eqb_spec i (length (objs w))) as [->|Ni].
      * rewrite (the_out w) by lia. split.
        -- destruct (sys_open k al (files w) m) as [fs'|] eqn:S1; [|discriminate]. cbn. intros H. injection H as <-. left. split; [auto|]. apply sys_can. eauto.
        -- intros [([[H _]|[H _]] & D)|[_ H]]; [discriminate| |discriminate]. injection H as <-. apply sys_can in D. destruct D as [fs' D]. rewrite D. reflexivity.
      * split; [|intros [([[H _]|[_ H]] & _)|[_ H]]; [discriminate|contradiction|exact H]]. intros H. right. split; [split; discriminate|exact H].
    + destruct (Nat.eqb_spec i j) as [<-|Ni].
      * destruct (the w i) as [o|]; [|split; [discriminate|]; intros [([[_ (o & H & _)]|[H _]] & _)|[_ H]]; discriminate].
        destruct (file o) as [m'|] eqn:Fo.
        -- cbn. split; [discriminate|]. intros [([[_ (o' & H & H')]|[H _]] & _)|[[_ H] _]]; [congruence|discriminate|]. exfalso. apply (H m). reflexivity.
        -- destruct (sys_open k al (files w) m) as [fs'|] eqn:S1; cbn [file failed].
           ++ split; [intros H; injection H as <-; left; split; [left; split; [reflexivity|exists o; auto]|apply sys_can; eauto]|].
              intros [([[H _]|[H _]] & _)|[_ H]]; [congruence|discriminate|discriminate].
           ++ split; [discriminate|]. intros [([[H _]|[H _]] & D)|[_ H]]; [|discriminate|discriminate]. injection H as <-. apply sys_can in D. destruct D. congruence.
      * split; [|intros [([[H _]|[H _]] & _)|[_ H]]; [congruence|discriminate|exact H]]. intros H. right. split; [split; [discriminate|intros m' E; congruence]|exact H].
    + exfalso. apply (C j). reflexivity.
    + destruct (Nat.eqb_spec i j) as [<-|Ni].
      * split; [discriminate|]. intros [([[H _]|[H _]] & _)|[[H _] _]]; [discriminate|discriminate|congruence].
      * split; [|intros [([[H _]|[H _]] & _)|[_ H]]; [discriminate|discriminate|exact H]]. intros H. right. split; [split; [congruence|discriminate]|exact H].
Qed.
Print Assumptions C81_reaches.

Lemma file_opened k al fs l i : no_moves l -> forall o, the (after k al fs l) i = Some o ->
  ((exists n, file o = Some n) <-> exists n, opened_before k al fs l i n).
Proof.
  induction l as [|c l IH] using rev_ind; intros N p.
  - unfold after, the. cbn. destruct i; discriminate.
  - destruct (no_moves_app _ _ N) as [Nl Nc]. specialize (IH Nl). pose proof (good_after k al fs l Nl) as G.
    assert (C : forall j, c <> MoveFrom j) by (intros j J; apply (Nc j); left; exact J).
    assert (X : (exists n, opened_before k al fs (l ++ [c]) i n) <-> (exists n, opens k al (after k al fs l) c i n) \/ exists n, opened_before k al fs l i n).
    { unfold opened_before. split.
      - intros (n & a & o & b & E & O). apply snoc_split in E. destruct E as [(-> & -> & ->)|(b' & -> & ->)]; [left; eauto|]. right. exists n, a, o, b'. auto.
      - intros [(n & O)|(n & a & o & b & -> & O)]; exists n; [exists l, c, []; auto|]. exists a, o, (b ++ [c]). rewrite <- app_assoc. auto. }
    rewrite X. clear X. rewrite after_snoc, step_the by assumption. set (w := after k al fs l) in *.
    assert (Y : forall n, opens k al w c i n <-> ((c = Open i n /\ exists o, the w i = Some o /\ file o = None) \/ (c = CreateOpen n /\ i = length (objs w))) /\ can_open k al (files w) n)
      by (intros n; apply opens_iff; assumption).
    assert (Z1 : length (objs w) <= i -> ~ exists n, opened_before k al fs l i n).
    { intros Hi (n & a & o & b & E & O). unfold w in Hi. rewrite E in Hi, Nl. pose proof (opens_lt k al fs a o b i n Nl O) as Lt. lia. }
    assert (Z2 : forall n, opens k al w c i n -> c = Open i n \/ (c = CreateOpen n /\ i = length (objs w))) by (intros n [Q _]; exact Q).
    destruct c as [|m|j m|j|j].
    + destruct (Nat.eqb_spec i (length (objs w))) as [->|Ni].
      * intros E. injection E as <-. cbn. split; [intros [? E]; discriminate E|]. intros [[n O]|O]; [destruct (Z2 n O) as [E|[E _]]; discriminate E|].
        exfalso. apply Z1; [lia|exact O].
      * intros E. rewrite IH by exact E. split; [auto|]. intros [[n O]|O]; [destruct (Z2 n O) as [E'|[E' _]]; discriminate E'|exact O].
    + destruct (Nat.eqb_spec i (length (objs w))) as [->|Ni].
      * destruct (sys_open k al (files w) m) as [fs'|] eqn:S1; [|discriminate]. intros E. injection E as <-. cbn. split; [|eauto]. intros _. left. exists m. apply Y.
        split; [auto|]. apply sys_can. eauto.
      * intros E. rewrite IH by exact E. split; [auto|]. intros [[n O]|O]; [destruct (Z2 n O) as [E'|[_ E']]; [discriminate E'|contradiction]|exact O].
    + destruct (Nat.eqb_spec i j) as [<-|Ni].
      * destruct (the w i) as [o|] eqn:T; [|discriminate]. specialize (IH o eq_refl). destruct (file o) as [m'|] eqn:Fo.
        -- intros E. injection E as <-. cbn [file]. rewrite <- IH. split; eauto.
        -- destruct (sys_open k al (files w) m) as [fs'|] eqn:S1; intros E; injection E as <-; cbn [file].
           ++ split; [|eauto]. intros _. left. exists m. apply Y. split; [left; split; [reflexivity|exists o; auto]|]. apply sys_can. eauto.
           ++ rewrite <- IH. split; [intros [? H]; discriminate H|]. intros [[n O]|H]; [|exact H]. apply Y in O. destruct O as [[[E _]|[E _]] D]; [|discriminate E].
              injection E as <-. apply sys_can in D. destruct D. congruence.
      * intros E. rewrite IH by exact E. split; [auto|]. intros [[n O]|O]; [destruct (Z2 n O) as [E'|[E' _]]; [congruence|discriminate E']|exact O].
    + exfalso. apply (C j). reflexivity.
    + destruct (Nat.eqb_spec i j) as [<-|Ni]; [discriminate|]. intros E. rewrite IH by exact E. split; [auto|].
      intros [[n O]|O]; [destruct (Z2 n O) as [E'|[E' _]]; discriminate E'|exact O].
Qed.

(** Opening: the constructor succeeds if the system can open the file; Open if moreover the object was
    never opened.  In every other case they throw; then the constructor leaves no object. *)
Theorem C81_open : forall k al fs l, no_moves l -> let w := after k al fs l in
  (forall i n, alive w i ->
     (can_open k al (files w) n /\ (~ exists m, opened_before k al fs l i m) -> fst (step k al w (Open i n)) = Ok) /\
     (~ can_open k al (files w) n \/ (exists m, opened_before k al fs l i m) -> fst (step k al w (Open i n)) = Throws)) /\
  (forall n, (can_open k al (files w) n -> fst (step k al w (CreateOpen n)) = Ok) /\
     (~ can_open k al (files w) n -> fst (step k al w (CreateOpen n)) = Throws /\ use (snd (step k al w (CreateOpen n))) (length (objs w)) = Gone)).
Proof.
  intros k al fs l N w. pose proof (good_after k al fs l N) as G. fold w in G. split.
  - intros i n A. unfold alive in A. destruct (the w i) as [o|] eqn:T; [|congruence]. clear A.
    pose proof (file_opened k al fs l i N o T) as Fo. cbn [step].
    destruct (OpenFile_cases k al i n w o T) as [(m & F & E)|[(F & fs' & S1 & E)|(F & S1 & E)]]; rewrite E; cbn [fst].
    + split; [|reflexivity]. intros [_ H]. exfalso. apply H. apply Fo. eauto.
    + split; [reflexivity|]. intros [H|H]; [exfalso; apply H, sys_can; eauto|]. apply Fo in H. destruct H. congruence.
    + split; [|reflexivity]. intros [H _]. apply sys_can in H. destruct H. congruence.
  - intros n. cbn [step]. destruct (OpenFile_cases k al (length (objs w)) n _ _ (create_the w)) as [(m & F & E)|[(_ & fs' & S1 & E)|(_ & S1 & E)]]; [discriminate F|..]; rewrite E; cbn [fst snd].
    + split; [reflexivity|]. intros H. exfalso. apply H, sys_can. exists fs'. exact S1.
    + split; [intros H; apply sys_can in H; destruct H as [? H]; cbn [files] in S1; congruence|]. intros _. split; [reflexivity|].
      unfold use, destroy. rewrite the_put, Nat.eqb_refl; [reflexivity|]. cbn [objs]. rewrite put_len, app_length. cbn [length]. lia.
Qed.
Print Assumptions C81_open.

(** The file system, in any state and for any call: a reader changes nothing, a writer only the file it opens, which becomes empty. *)
Theorem C81_files : forall k al w c,
  (k = Reader -> files (snd (step k al w c)) = files w) /\
  ((forall i n, ~ opens k al w c i n) -> files (snd (step k al w c)) = files w) /\
  (k = Writer -> forall i n, opens k al w c i n ->
     files (snd (step k al w c)) n = Some [] /\ forall m, m <> n -> files (snd (step k al w c)) m = files w m).
Proof.
  intros k al w c.
  assert (O : forall i n w, match OpenFile k al i n w with (Ok, w') => sys_open k al (files w) n = Some (files w') | (_, w') => files w' = files w end).
  { clear. intros i n w. unfold OpenFile. destruct (the w i) as [o|]; [|reflexivity]. destruct (file o); [reflexivity|].
    destruct (sys_open k al (files w) n) as [fs|]; reflexivity. }
  assert (R : forall fs n fs', k = Reader -> sys_open k al fs n = Some fs' -> fs' = fs).
  { intros fs0 n fs' -> H. unfold sys_open in H. destruct (al n); [|discriminate]. destruct (fs0 n); congruence. }
  assert (W : forall fs n fs', k = Writer -> sys_open k al fs n = Some fs' -> fs' n = Some [] /\ forall m, m <> n -> fs' m = fs m).
  { intros fs0 n fs' -> H. unfold sys_open in H. destruct (al n); [|discriminate]. injection H as <-. split.
    - destruct (list_eq_dec Z.eq_dec n n); congruence.
    - intros m M. destruct (list_eq_dec Z.eq_dec m n); congruence. }
  assert (K : (exists i n, opens k al w c i n /\ sys_open k al (files w) n = Some (files (snd (step k al w c)))) \/
    (files (snd (step k al w c)) = files w /\ forall i n, ~ opens k al w c i n)).
  { destruct c as [|n|i n|i|i]; unfold opens; cbn [step].
    - right. split; [reflexivity|]. intros i n [[H|[H _]] _]; discriminate.
    - specialize (O (length (objs w)) n (World (objs w ++ [Some (Obj None false None)]) (files w))).
      destruct (OpenFile k al _ n _) as [[] w'] eqn:E.
      + left. exists (length (objs w)), n. split; [split; [auto|reflexivity]|exact O].
      + right. split; [exact O|]. intros i m [_ H]. discriminate.
      + right. split; [exact O|]. intros i m [_ H]. discriminate.
    - specialize (O i n w). destruct (OpenFile k al i n w) as [[] w'] eqn:E.
      + left. exists i, n. split; [split; [auto|reflexivity]|exact O].
      + right. split; [exact O|]. intros i' m [_ H]. discriminate.
      + right. split; [exact O|]. intros i' m [_ H]. discriminate.
    - right. split; [destruct (the w i); reflexivity|]. intros i' n [[H|[H _]] _]; discriminate.
    - right. split; [destruct (the w i); reflexivity|]. intros i' n [[H|[H _]] _]; discriminate. }
  assert (U : forall i n i' n', opens k al w c i n -> opens k al w c i' n' -> n = n').
  { intros i n i' n' [[-> | [-> _]] _] [[H|[H _]] _]; congruence. }
  split; [|split].
  - intros Hk. destruct K as [(i & n & _ & S1)|[H _]]; [|exact H]. apply (R _ _ _ Hk S1).
  - intros H. destruct K as [(i & n & O1 & _)|[H1 _]]; [exfalso; apply (H i n O1)|exact H1].
  - intros Hk i n O1. destruct K as [(i' & n' & O2 & S1)|[_ H]]; [|exfalso; apply (H i n O1)].
    rewrite (U _ _ _ _ O1 O2). apply (W _ _ _ Hk S1).
Qed.
Print Assumptions C81_files.

(** Not so: that Open on an open object moves it to the other file.  It throws whatever the file, and the
    object reaches no file any more, neither the old nor a new one, until it is destroyed. *)
Theorem C81_reopen_refuted : forall k al fs l i n m, no_moves l -> use (after k al fs l) i = To n ->
  fst (step k al (after k al fs l) (Open i m)) = Throws /\
  forall l', no_moves l' -> ~ In (Destroy i) l' ->
    use (after k al fs (l ++ Open i m :: l')) i = Nowhere /\ IsValid (after k al fs (l ++ Open i m :: l')) i = Some false.
Proof.
  intros k al fs l i n m N U. pose proof (good_after k al fs l N) as G. rewrite use_good in U by exact G.
  destruct (the (after k al fs l) i) as [o|] eqn:T; [|discriminate U]. destruct (file o) as [n'|] eqn:F; [|discriminate U].
  assert (A : alive (after k al fs l) i) by (unfold alive; congruence).
  split.
  - destruct (C81_open k al fs l N) as [H _]. destruct (H i m A) as [_ H2]. apply H2. right. apply (file_opened k al fs l i N o T). eauto.
  - intros l' N' D.
    assert (K : no_moves (l ++ Open i m :: l') /\ exists o', the (after k al fs (l ++ Open i m :: l')) i = Some o' /\ failed o' = true /\ exists q, file o' = Some q).
    { clear U A. induction l' as [|c l' IH] using rev_ind.
      - assert (N1 : no_moves (l ++ [Open i m])).
        { intros j J. apply in_app_or in J. destruct J as [J|[J|[]]]; [apply (N j J)|discriminate J]. }
        split; [exact N1|]. rewrite after_snoc, step_the by (exact G || discriminate). rewrite Nat.eqb_refl, T, F. eexists. split; [reflexivity|]. cbn. eauto.
      - destruct (no_moves_app _ _ N') as [N1 N2]. destruct IH as [N3 (o' & T' & F' & q & Q)]; [exact N1|intros I; apply D, in_or_app; auto|].
        assert (C : forall j, c <> MoveFrom j) by (intros j J; apply (N2 j); left; exact J).
        split. { intros j J. rewrite app_comm_cons, app_assoc in J. apply in_app_or in J. destruct J as [J|[J|[]]]; [apply (N3 j J)|apply (C j J)]. }
        rewrite app_comm_cons, app_assoc, after_snoc. rewrite step_the; [|apply good_after; exact N3|exact C].
        pose proof (the_lt _ _ _ T') as Lt. destruct c as [|p|j p|j|j].
        + destruct (Nat.eqb_spec i (length (objs (after k al fs (l ++ Open i m :: l'))))); [lia|]. exists o'. eauto.
        + destruct (Nat.eqb_spec i (length (objs (after k al fs (l ++ Open i m :: l'))))); [lia|]. exists o'. eauto.
        + destruct (Nat.eqb_spec i j) as [<-|]; [|exists o'; eauto]. rewrite T', Q. eexists. split; [reflexivity|]. cbn. eauto.
        + exfalso. apply (C j). reflexivity.
        + destruct (Nat.eqb_spec i j) as [<-|]; [|exists o'; eauto]. exfalso. apply D, in_or_app. right. left. reflexivity. }
    destruct K as [N1 (o' & T' & F' & q & Q)]. rewrite use_good by (apply good_after; exact N1). unfold IsValid. rewrite T', Q, F'. split; [reflexivity|]. cbn. rewrite F'. reflexivity.
Qed.
Print Assumptions C81_reopen_refuted.

(** Not so: that a moved reader or writer still reads or writes its file.  It goes through the object it
    was made from: nowhere while that one is there, through a pointer to nothing when it is destroyed, and to
    the other's new file when that is opened again. *)
Theorem C81_move_refuted : forall k al fs l i n, no_moves l -> use (after k al fs l) i = To n ->
  let w := after k al fs l in let j := length (objs w) in let w' := after k al fs (l ++ [MoveFrom i]) in
  use w' j = Nowhere /\ IsValid w' j = Some true /\
  use (after k al fs (l ++ [MoveFrom i; Destroy i])) j = Dangling /\
  forall m, can_open k al (files w) m -> use (after k al fs (l ++ [MoveFrom i; Open i m])) j = To m.
Proof.
  intros k al fs l i n N U w j w'. pose proof (good_after k al fs l N) as G. rewrite use_good in U by exact G. fold w in G, U.
  destruct (the w i) as [o|] eqn:T; [|discriminate U]. destruct (file o) as [n'|] eqn:F; [|discriminate U].
  destruct (failed o) eqn:Fl; [discriminate U|]. injection U as ->. pose proof (G i o T) as Sh. unfold shape in Sh. rewrite F in Sh.
  pose proof (the_lt _ _ _ T) as Lt. fold j in Lt.
  set (w1 := World (put_at i (Some (Obj None false (Some i))) (objs w)) (files w)).
  assert (Ew : w' = World (objs w1 ++ [Some (Obj (Some n) false (Some i))]) (files w)).
  { unfold w'. rewrite after_snoc. fold w. cbn [step]. rewrite T, F, Fl, Sh. reflexivity. }
  assert (Lw : length (objs w1) = j) by (unfold w1; cbn [objs]; apply put_len).
  assert (Tj : the w' j = Some (Obj (Some n) false (Some i))).
  { rewrite Ew, the_app, Lw, Nat.eqb_refl. reflexivity. }
  assert (Ti : the w' i = Some (Obj None false (Some i))).
  { rewrite Ew, the_app, Lw. destruct (Nat.eqb_spec i j); [lia|]. unfold w1. rewrite the_put, Nat.eqb_refl by exact Lt. reflexivity. }
  pose proof (the_lt _ _ _ Ti) as Lt'.
  split; [unfold use; rewrite Tj; cbn [base]; rewrite Ti; reflexivity|]. split; [unfold IsValid; rewrite Tj; reflexivity|].
  change [MoveFrom i; Destroy i] with ([MoveFrom i] ++ [Destroy i]). rewrite app_assoc, after_snoc. fold w'. cbn [step]. rewrite Ti. cbn [snd].
  assert (P : forall x fs', the (World (put_at i x (objs w')) fs') j = Some (Obj (Some n) false (Some i)) /\ the (World (put_at i x (objs w')) fs') i = x).
  { intros x fs'. rewrite !the_put by exact Lt'. rewrite Nat.eqb_refl. destruct (Nat.eqb_spec j i); [lia|]. auto. }
  split.
  - unfold use, destroy. destruct (P None (files w')) as [-> P2]. cbn [base]. rewrite P2. reflexivity.
  - intros m C. apply sys_can in C. destruct C as [fs' C]. change [MoveFrom i; Open i m] with ([MoveFrom i] ++ [Open i m]).
    rewrite app_assoc, after_snoc. fold w'. cbn [step]. unfold OpenFile. rewrite Ti. cbn [file].
    replace (files w') with (files w) by (rewrite Ew; reflexivity). rewrite C. cbn [snd]. unfold use.
    destruct (P (Some (Obj (Some m) false (Some i))) fs') as [-> P2]. cbn [base]. rewrite P2. reflexivity.
Qed.
Print Assumptions C81_move_refuted.

Definition C81_fs (n : name) : option (list Z) := if list_eq_dec Z.eq_dec n [97%Z] then Some [1%Z] else None.
Example C81_example :
  let w l := after Reader (fun _ => true) C81_fs l in
  use (w [CreateOpen [98%Z]; Create; Open 1 [98%Z]; Open 1 [97%Z]]) 1 = To [97%Z] /\
  use (w [CreateOpen [98%Z]; Create; Open 1 [98%Z]; Open 1 [97%Z]]) 0 = Gone /\
  use (w [Create; Open 0 [98%Z]]) 0 = Null /\
  use (w [CreateOpen [97%Z]; Open 0 [97%Z]]) 0 = Nowhere /\
  files (after Writer (fun _ => true) C81_fs [CreateOpen [97%Z]]) [97%Z] = Some [] /\
  no_moves [CreateOpen [97%Z]] /\ can_open Reader (fun _ => true) C81_fs [97%Z].
Proof.
  cbv zeta. do 5 (split; [vm_compute; reflexivity|]). split; [intros i [H|[]]; discriminate H|]. split; [reflexivity|]. intros _. vm_compute. discriminate.
Qed.
