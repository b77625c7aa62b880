From Verif Require Import Base Supercore_Model Stream_Model Stream_Spec Stream_Proof ZipWrite_Model ZipWrite_Spec.

Definition piece_bytes (swap : bool) (m : list Z) (p : piece) : list Z :=
  match p with
  | Buffer o n => part o n m
  | Member o n => if swap then rev (part o n m) else part o n m
  end.
Definition wire (swap : bool) (ps : list piece) (m : list Z) : list Z := flat_map (piece_bytes swap m) ps.
Definition piece_ok (m : list Z) (p : piece) : Prop :=
  match p with
  | Buffer o n => (o + n <= length m)%nat
  | Member o n => (o + n <= length m)%nat /\ scalar_size n
  end.
Definition copy_piece (m : list Z) (p : piece) (m' : list Z) : list Z :=
  match p with Buffer o n | Member o n => put o (part o n m) m' end.

Lemma part_length o n m : (o + n <= length m)%nat -> length (part o n m) = n.
Proof. intros H. unfold part. rewrite firstn_length, skipn_length. lia. Qed.
Lemma part_ok o n m : bytes_ok m -> bytes_ok (part o n m).
Proof.
  intros H. unfold part, bytes_ok in *. rewrite Forall_forall in *. intros x Hx. apply H.
  assert (Q : forall k (l : list Z), In x (firstn k l) -> In x l) by (intros k l Hk; rewrite <- (firstn_skipn k l); apply in_or_app; auto).
  apply Q in Hx. rewrite <- (firstn_skipn o m). apply in_or_app. auto.
Qed.
Lemma part_value o n m : bytes_ok m -> (o + n <= length m)%nat ->
  le_bytes n (le_value (part o n m)) = part o n m /\ fits n (le_value (part o n m)).
Proof.
  intros Hb Hl. pose proof (part_ok o n m Hb) as Hp. pose proof (part_length o n m Hl) as L. split.
  - rewrite <- L at 1. apply le_bytes_value. exact Hp.
  - unfold fits. pose proof (le_value_bound _ Hp) as V. rewrite L in V. exact V.
Qed.
Lemma put_length o bs m : (o + length bs <= length m)%nat -> length (put o bs m) = length m.
Proof. intros H. unfold put. rewrite !app_length, firstn_length, skipn_length. lia. Qed.

Lemma write_pieces_eq ps m : bytes_ok m -> Forall (piece_ok m) ps -> forall w, usable w ->
  write_pieces ps m w = Some (WriteBuffer (wire (swapEndian w) ps m) w) \/ (ps = [] /\ write_pieces ps m w = Some w).
Proof.
  intros Hb F. induction F as [|p ps Hp F IH]; intros w U; [right; auto|]. left.
  assert (E : write_pieces (p :: ps) m w = write_pieces ps m (WriteBuffer (piece_bytes (swapEndian w) m p) w)).
  { destruct p as [o n|o n]; cbn [write_pieces piece_bytes]; [reflexivity|]. destruct Hp as [Hl Hs].
    destruct (part_value o n m Hb Hl) as [E1 E2]. rewrite (Write_eq n _ w Hs E2). unfold encoding. rewrite E1. reflexivity. }
  rewrite E. clear E.
  assert (Es : forall b, swapEndian (WriteBuffer b w) = swapEndian w) by reflexivity.
  destruct (IH (WriteBuffer (piece_bytes (swapEndian w) m p) w) (WriteBuffer_usable _ _ U)) as [->|[-> ->]].
  - rewrite Es, WriteBuffer_app by exact U. reflexivity.
  - cbn [wire flat_map]. rewrite app_nil_r. reflexivity.
Qed.

Lemma read_pieces_eq ps m : bytes_ok m -> Forall (piece_ok m) ps -> forall m' r rest, length m' = length m -> bytes_ok m' ->
  at_bytes r (wire (swapEndian r) ps m ++ rest) ->
  exists r', read_pieces ps m' r = Some (fold_left (fun x p => copy_piece m p x) ps m', r') /\
    pos (st r') = (pos (st r) + length (wire (swapEndian r) ps m))%nat /\ at_bytes r' rest /\ swapEndian r' = swapEndian r.
Proof.
  intros Hb F. induction F as [|p ps Hp F IH]; intros m' r rest L Hb' A.
  - exists r. cbn [read_pieces fold_left wire flat_map length]. split; [reflexivity|]. split; [lia|]. split; [exact A|reflexivity].
  - cbn [wire flat_map] in A. rewrite <- app_assoc in A.
    assert (Hlen : (length (piece_bytes (swapEndian r) m p) = match p with Buffer _ n | Member _ n => n end)%nat).
    { destruct p as [o n|o n]; cbn [piece_bytes piece_ok] in *; [apply part_length; exact Hp|]. destruct Hp as [Hp _].
      destruct (swapEndian r); [rewrite rev_length|]; apply part_length; exact Hp. }
    set (n := match p with Buffer _ n | Member _ n => n end) in *.
    assert (E : exists r1, read_pieces (p :: ps) m' r = read_pieces ps (copy_piece m p m') r1 /\
      pos (st r1) = (pos (st r) + n)%nat /\ at_bytes r1 (flat_map (piece_bytes (swapEndian r) m) ps ++ rest) /\ swapEndian r1 = swapEndian r).
    { exists (moved r (pos (st r) + n)). destruct p as [o k|o k]; cbn [read_pieces piece_bytes copy_piece piece_ok] in *.
      - assert (Lo : length (part o k m') = k) by (apply part_length; lia).
        destruct (ReadBuffer_eq r _ _ (part o k m') k A (eq_sym Hlen) Lo) as [-> A']. unfold n. split; [reflexivity|]. split; [reflexivity|].
        split; [exact A'|reflexivity].
      - destruct Hp as [Hl Hs]. destruct (part_value o k m Hb Hl) as [E1 E2].
        assert (A2 : at_bytes r (encoding (swapEndian r) k (le_value (part o k m)) ++ flat_map (piece_bytes (swapEndian r) m) ps ++ rest))
          by (unfold encoding; rewrite E1; exact A).
        destruct (Read_eq r (swapEndian r) k _ _ (le_value (part o k m')) Hs E2 A2) as [-> A']. rewrite eqb_reflx, E1.
        unfold n. split; [reflexivity|]. split; [reflexivity|]. split; [exact A'|reflexivity]. }
    destruct E as (r1 & -> & P1 & A1 & S1).
    assert (Hpk : length (copy_piece m p m') = length m' /\ bytes_ok (copy_piece m p m')).
    { assert (Hl : exists o k, p = Buffer o k \/ p = Member o k) by (destruct p as [o k|o k]; exists o, k; auto).
      destruct Hl as (o & k & Hp'). assert (Hok : (o + k <= length m)%nat) by (destruct Hp' as [-> | ->]; cbn [piece_ok] in Hp; tauto).
      assert (Ec : copy_piece m p m' = put o (part o k m) m') by (destruct Hp' as [-> | ->]; reflexivity). rewrite Ec. split.
      - apply put_length. rewrite part_length; lia.
      - unfold put, bytes_ok. apply Forall_app. split; [|apply Forall_app; split; [apply part_ok; exact Hb|]].
        + unfold bytes_ok in Hb'. rewrite Forall_forall in *. intros x Hx. apply Hb'. rewrite <- (firstn_skipn o m'). apply in_or_app. auto.
        + unfold bytes_ok in Hb'. rewrite Forall_forall in *. intros x Hx. apply Hb'. rewrite <- (firstn_skipn (o + length (part o k m)) m'). apply in_or_app. auto. }
    destruct Hpk as [L2 B2].
    destruct (IH (copy_piece m p m') r1 rest ltac:(congruence) B2) as (r' & E' & P' & A' & S'); [rewrite S1; exact A1|].
    exists r'. split; [exact E'|]. split; [|split; [exact A'|congruence]].
    rewrite P', P1, S1. cbn [wire flat_map]. rewrite app_length. fold (wire (swapEndian r) ps m). lia.
Qed.

Definition piece_okb (len : nat) (p : piece) : bool :=
  match p with
  | Buffer o n => (o + n <=? len)%nat
  | Member o n => (o + n <=? len)%nat && existsb (Nat.eqb n) [1; 2; 4; 8]%nat
  end.
Lemma piece_okb_ok m p : piece_okb (length m) p = true -> piece_ok m p.
Proof.
  destruct p as [o n|o n]; cbn [piece_okb piece_ok].
  - intros H. apply Nat.leb_le in H. exact H.
  - intros H. apply andb_prop in H. destruct H as [H1 H2]. apply Nat.leb_le in H1. split; [exact H1|].
    apply existsb_exists in H2. destruct H2 as (x & Hx & E). apply Nat.eqb_eq in E. subst x. unfold scalar_size. cbn [In] in Hx.
    intuition auto.
Qed.
Lemma pieces_ok h m : length m = sizeof (members h) -> Forall (piece_ok m) (pieces h).
Proof.
  intros L. apply Forall_forall. intros p Hp. apply piece_okb_ok. rewrite L. revert p Hp. apply forallb_forall.
  destruct h; vm_compute; reflexivity.
Qed.

Lemma part_cat o a b m : part o (a + b) m = part o a m ++ part (o + a) b m.
Proof.
  unfold part. rewrite Nat.add_comm with (n := o), <- skipn_skipn. remember (skipn o m) as l.
  rewrite <- (firstn_skipn a l) at 1. rewrite firstn_app. rewrite firstn_firstn, Nat.min_r by lia. f_equal.
  destruct (le_dec a (length l)) as [H|H].
  - rewrite firstn_length, Nat.min_l by lia. f_equal. lia.
  - rewrite (skipn_all2 l) by lia. rewrite !firstn_nil. reflexivity.
Qed.
Fixpoint run (o : nat) (ns : list nat) (m : list Z) : list Z :=
  match ns with [] => [] | n :: r => part o n m ++ run (o + n) r m end.
Lemma part_run ns : forall o m, part o (list_sum ns) m = run o ns m.
Proof.
  induction ns as [|n ns IH]; intros o m; [reflexivity|]. change (list_sum (n :: ns)) with (n + list_sum ns)%nat.
  cbn [run]. rewrite part_cat, IH. reflexivity.
Qed.
Fixpoint valued (o : nat) (ns : list nat) (m : list Z) : list Z :=
  match ns with [] => [] | n :: r => le_bytes n (le_value (part o n m)) ++ valued (o + n) r m end.
Lemma part_valued ns o m : bytes_ok m -> (o + list_sum ns <= length m)%nat -> part o (list_sum ns) m = valued o ns m.
Proof.
  intros B H. rewrite part_run. revert o H. induction ns as [|n ns IH]; intros o H; [reflexivity|].
  change (list_sum (n :: ns)) with (n + list_sum ns)%nat in H. cbn [run valued].
  rewrite (proj1 (part_value o n m B ltac:(lia))), IH by lia. reflexivity.
Qed.

Ltac opened H L B :=
  destruct H as (L & B & H); unfold holds in H;
  match type of H with map ?f ?l = ?v =>
    let x := eval cbv [map seq length ZIPLocalFile ZIPFile ZIPSignature ZIPCentralDir ZIP64CentralDir ZIP64CentralDirLocator nth offsets
                       Nat.add Nat.sub Nat.div Nat.divmod fst Nat.mul] in (map f l) in
    change (x = v) in H end.
Ltac chunk ns := rewrite (part_valued ns) by (first [assumption | match goal with L : length _ = _ |- _ => rewrite L end; vm_compute; lia]).

Lemma wire_local m sw a b c d e f g h i j k l : holds ZIPLocalFile m [a; b; c; d; e; f; g; h; i; j; k; l] ->
  wire sw pieces_LocalFile m = layout [w4 a; w2 b; w2 c; w2 d; w2 e; w2 f; w4 h; w4 i; w4 j; w2 k; w2 l].
Proof.
  intros H. opened H L B. injection H as <- <- <- <- <- <- <- <- <- <- <- <-.
  change (wire sw pieces_LocalFile m) with (part 0 (list_sum [4; 2; 2; 2; 2; 2]%nat) m ++ part 16 (list_sum [4; 4; 4; 2; 2]%nat) m ++ []).
  rewrite !part_valued by (first [assumption | rewrite L; vm_compute; lia]).
  unfold layout. cbn [flat_map fst snd w2 w4 w8 valued Nat.add]. rewrite !app_nil_r. rewrite <- !app_assoc. reflexivity.
Qed.
Lemma wire_file m sw a b c d e f g h i j k l n o p q r : holds ZIPFile m [a; b; c; d; e; f; g; h; i; j; k; l; n; o; p; q; r] ->
  wire sw pieces_File m =
  layout [w4 a; w2 b; w2 c; w2 d; w2 e; w2 f; w2 g; w4 h; w4 i; w4 j; w2 k; w2 l; w2 n; w2 o; w2 p; w4 q; w4 r].
Proof.
  intros H. opened H L B. injection H as <- <- <- <- <- <- <- <- <- <- <- <- <- <- <- <- <-.
  change (wire sw pieces_File m) with (part 0 (list_sum [4; 2; 2; 2; 2; 2; 2; 4; 4; 4; 2; 2; 2; 2; 2]%nat) m ++ part 40 (list_sum [4; 4]%nat) m ++ []).
  rewrite !part_valued by (first [assumption | rewrite L; vm_compute; lia]).
  unfold layout. cbn [flat_map fst snd w2 w4 w8 valued Nat.add]. rewrite !app_nil_r. rewrite <- !app_assoc. reflexivity.
Qed.
Lemma wire_signature m sw a b : holds ZIPSignature m [a; b] -> wire sw pieces_Signature m = layout [w4 a; w2 b].
Proof.
  intros H. opened H L B. injection H as <- <-.
  change (wire sw pieces_Signature m) with (part 0 (list_sum [4; 2]%nat) m ++ []).
  rewrite !part_valued by (first [assumption | rewrite L; vm_compute; lia]).
  unfold layout. cbn [flat_map fst snd w2 w4 w8 valued Nat.add]. rewrite !app_nil_r. reflexivity.
Qed.
Lemma wire_end m sw a b c d e f g h : holds ZIPCentralDir m [a; b; c; d; e; f; g; h] ->
  wire sw pieces_CentralDir m = layout [w4 a; w2 b; w2 c; w2 d; w2 e; w4 f; w4 g; w2 h].
Proof.
  intros H. opened H L B. injection H as <- <- <- <- <- <- <- <-.
  change (wire sw pieces_CentralDir m) with (part 0 (list_sum [4; 2; 2; 2; 2; 4; 4; 2]%nat) m ++ []).
  rewrite !part_valued by (first [assumption | rewrite L; vm_compute; lia]).
  unfold layout. cbn [flat_map fst snd w2 w4 w8 valued Nat.add]. rewrite !app_nil_r. rewrite <- ?app_assoc. reflexivity.
Qed.
Lemma wire_end64 m a b c d e f g h i j : holds ZIP64CentralDir m [a; b; c; d; e; f; g; h; i; j] -> forall sw : bool,
  wire sw pieces_CentralDir64 m =
  (if sw then rev (le_bytes 4 a) else le_bytes 4 a) ++ layout [w8 b; w2 c; w2 d; w4 e] ++
  (if sw then rev (le_bytes 4 f) else le_bytes 4 f) ++ layout [w8 g; w8 h; w8 i; w8 j].
Proof.
  intros H sw. opened H L B. injection H as <- <- <- <- <- <- <- <- <- <-.
  change (wire sw pieces_CentralDir64 m) with
    ((if sw then rev (part 0 (list_sum [4]%nat) m) else part 0 (list_sum [4]%nat) m) ++
     part 8 (list_sum [8; 2; 2; 4]%nat) m ++
     (if sw then rev (part 24 (list_sum [4]%nat) m) else part 24 (list_sum [4]%nat) m) ++
     part 32 (list_sum [8; 8; 8; 8]%nat) m ++ []).
  rewrite !part_valued by (first [assumption | rewrite L; vm_compute; lia]).
  unfold layout. cbn [flat_map fst snd w2 w4 w8 valued Nat.add]. rewrite !app_nil_r. rewrite <- ?app_assoc. reflexivity.
Qed.
Lemma wire_locator m sw a b c d : holds ZIP64CentralDirLocator m [a; b; c; d] ->
  wire sw pieces_Locator m = layout [w4 a; w4 b; w8 c; w4 d].
Proof.
  intros H. opened H L B. injection H as <- <- <- <-.
  change (wire sw pieces_Locator m) with (part 0 (list_sum [4; 4; 8; 4]%nat) m ++ []).
  rewrite !part_valued by (first [assumption | rewrite L; vm_compute; lia]).
  unfold layout. cbn [flat_map fst snd w2 w4 w8 valued Nat.add]. rewrite !app_nil_r. rewrite <- ?app_assoc. reflexivity.
Qed.

Lemma write_header h m w : length m = sizeof (members h) -> bytes_ok m -> usable w ->
  exists w', write_pieces (pieces h) m w = Some w' /\ w' = WriteBuffer (wire (swapEndian w) (pieces h) m) w.
Proof.
  intros L B U. destruct (write_pieces_eq (pieces h) m B (pieces_ok h m L) w U) as [E|[E _]]; [eauto|].
  destruct h; discriminate E.
Qed.

(** Reading *)
Definition span (p : piece) : nat * nat := match p with Buffer o n | Member o n => (o, n) end.
Definition covered (ps : list piece) (i : nat) : bool :=
  existsb (fun p => (fst (span p) <=? i)%nat && (i <? fst (span p) + snd (span p))%nat) ps.
Lemma nth_part o n m i : (i < n)%nat -> nth_error (part o n m) i = nth_error m (o + i).
Proof.
  intros H. unfold part. revert i n H. induction o as [|o IH] in m |- *; intros i n H.
  - cbn [skipn Nat.add]. revert n m H. induction i as [|i IH]; intros [|n] [|x m] H; try lia; try reflexivity. cbn. apply IH. lia.
  - destruct m as [|x m]; [|apply IH; exact H]. cbn [skipn]. rewrite firstn_nil. destruct i; reflexivity.
Qed.
Lemma nth_put o bs m i : (o + length bs <= length m)%nat -> nth_error (put o bs m) i =
  if ((o <=? i) && (i <? o + length bs))%nat then nth_error bs (i - o) else nth_error m i.
Proof.
  intros H. unfold put. destruct (Nat.leb_spec o i) as [A|A]; cbn [andb].
  - rewrite nth_error_app2 by (rewrite firstn_length; lia). rewrite firstn_length, Nat.min_l by lia.
    destruct (Nat.ltb_spec i (o + length bs)) as [B|B].
    + apply nth_error_app1. lia.
    + rewrite nth_error_app2 by lia.
      assert (Q : forall k (l : list Z) j, nth_error (skipn k l) j = nth_error l (k + j)).
      { clear. induction k as [|k IH]; intros l j; [reflexivity|]. destruct l as [|x l]; [cbn; destruct j; reflexivity|]. apply IH. }
      rewrite Q. f_equal. lia.
  - rewrite nth_error_app1 by (rewrite firstn_length; lia).
    rewrite <- (firstn_skipn o m) at 2. rewrite nth_error_app1 by (rewrite firstn_length; lia). reflexivity.
Qed.
Lemma copied ps m : Forall (piece_ok m) ps -> forall m', length m' = length m ->
  length (fold_left (fun x p => copy_piece m p x) ps m') = length m /\
  forall i, nth_error (fold_left (fun x p => copy_piece m p x) ps m') i = if covered ps i then nth_error m i else nth_error m' i.
Proof.
  intros F. induction F as [|p ps Hp F IH]; intros m' L; [split; [exact L|reflexivity]|].
  cbn [fold_left covered existsb].
  assert (Hs : (fst (span p) + snd (span p) <= length m)%nat) by (destruct p; cbn in *; lia).
  assert (Ec : copy_piece m p m' = put (fst (span p)) (part (fst (span p)) (snd (span p)) m) m') by (destruct p; reflexivity).
  remember (fst (span p)) as o. remember (snd (span p)) as n.
  assert (Lp : length (part o n m) = n) by (apply part_length; exact Hs).
  destruct (IH (copy_piece m p m')) as [L1 N1]; [rewrite Ec, put_length by (rewrite Lp; lia); exact L|].
  split; [exact L1|]. intros i. rewrite N1. fold (covered ps i). rewrite Ec, nth_put by (rewrite Lp; lia). rewrite Lp.
  destruct ((o <=? i) && (i <? o + n))%nat eqn:E; cbn [orb]; [|reflexivity].
  apply andb_prop in E. destruct E as [E1 E2]. apply Nat.leb_le in E1. apply Nat.ltb_lt in E2.
  rewrite nth_part by lia. replace (o + (i - o))%nat with i by lia. destruct (covered ps i); reflexivity.
Qed.
Lemma nth_error_ext (l l' : list Z) : (forall i, nth_error l i = nth_error l' i) -> l = l'.
Proof.
  revert l'. induction l as [|x l IH]; intros [|y l'] H; [reflexivity|discriminate (H 0%nat)|discriminate (H 0%nat)|].
  pose proof (H 0%nat) as E. injection E as ->. f_equal. apply IH. intros i. exact (H (S i)).
Qed.
Lemma part_ext o n m m' : (o + n <= length m)%nat -> (o + n <= length m')%nat ->
  (forall i, (o <= i < o + n)%nat -> nth_error m i = nth_error m' i) -> part o n m = part o n m'.
Proof.
  intros L L' H. apply nth_error_ext. intros i. destruct (le_lt_dec n i) as [A|A].
  - rewrite (proj2 (nth_error_None (part o n m) i)) by (rewrite part_length; lia). symmetry. apply nth_error_None. rewrite part_length; lia.
  - rewrite !nth_part by exact A. apply H. lia.
Qed.

Definition stored_b (h : header) (k : nat) : bool := negb (match h with LocalFile => (k =? 6)%nat | _ => false end).
Lemma cover_table h : forallb (fun k =>
    (nth k (offsets 0 (members h)) 0 + nth k (members h) 0 <=? sizeof (members h))%nat &&
    forallb (fun i => Bool.eqb (covered (pieces h) i) (stored_b h k)) (seq (nth k (offsets 0 (members h)) 0%nat) (nth k (members h) 0%nat)))
  (seq 0 (length (members h))) = true.
Proof. destruct h; vm_compute; reflexivity. Qed.
Lemma gap_table h : forallb (fun i => negb (covered (pieces h) i) ||
    existsb (fun k => stored_b h k && (nth k (offsets 0 (members h)) 0 <=? i)%nat &&
      (i <? nth k (offsets 0 (members h)) 0 + nth k (members h) 0)%nat) (seq 0 (length (members h))))
  (seq 0 (sizeof (members h))) = true.
Proof. destruct h; vm_compute; reflexivity. Qed.
Lemma stored_b_ok h k : stored_b h k = true <-> ~ not_stored h k.
Proof.
  unfold stored_b, not_stored. destruct h; cbn [negb]; try (split; [intros _ [A _]; discriminate A|reflexivity]).
  destruct (Nat.eqb_spec k 6) as [E|E]; cbn [negb]; split; [discriminate|intros H; exfalso; apply H; auto|intros _ [_ A]; contradiction|reflexivity].
Qed.
Lemma covered_member h k i : (k < length (members h))%nat ->
  (nth k (offsets 0 (members h)) 0 <= i < nth k (offsets 0 (members h)) 0 + nth k (members h) 0)%nat ->
  covered (pieces h) i = stored_b h k.
Proof.
  intros Hk Hi. pose proof (cover_table h) as T. rewrite forallb_forall in T. specialize (T k ltac:(apply in_seq; lia)).
  apply andb_prop in T. destruct T as [_ T]. rewrite forallb_forall in T. specialize (T i ltac:(apply in_seq; lia)).
  apply eqb_prop in T. exact T.
Qed.
Lemma member_fits h k : (k < length (members h))%nat ->
  (nth k (offsets 0 (members h)) 0 + nth k (members h) 0 <= sizeof (members h))%nat.
Proof.
  intros Hk. pose proof (cover_table h) as T. rewrite forallb_forall in T. specialize (T k ltac:(apply in_seq; lia)).
  apply andb_prop in T. destruct T as [T _]. apply Nat.leb_le in T. exact T.
Qed.
Lemma covered_gap h i : covered (pieces h) i = true -> (i < sizeof (members h))%nat ->
  exists k, (k < length (members h))%nat /\ ~ not_stored h k /\
    (nth k (offsets 0 (members h)) 0 <= i < nth k (offsets 0 (members h)) 0 + nth k (members h) 0)%nat.
Proof.
  intros C Hi. pose proof (gap_table h) as T. rewrite forallb_forall in T. specialize (T i ltac:(apply in_seq; lia)).
  rewrite C in T. cbn [negb orb] in T. apply existsb_exists in T. destruct T as (k & Hk & T). apply in_seq in Hk.
  apply andb_prop in T. destruct T as [T T3]. apply andb_prop in T. destruct T as [T1 T2].
  apply Nat.leb_le in T2. apply Nat.ltb_lt in T3. apply stored_b_ok in T1. exists k. split; [lia|]. split; [exact T1|lia].
Qed.

Lemma read_header_ok h m m' r rest : length m = sizeof (members h) -> bytes_ok m -> length m' = sizeof (members h) -> bytes_ok m' ->
  at_bytes r (wire (swapEndian r) (pieces h) m ++ rest) ->
  exists m2 r', read_pieces (pieces h) m' r = Some (m2, r') /\ at_bytes r' rest /\
    pos (st r') = (pos (st r) + length (wire (swapEndian r) (pieces h) m))%nat /\
    length m2 = sizeof (members h) /\
    (forall k, (k < length (members h))%nat -> ~ not_stored h k -> member_of h k m2 = member_of h k m) /\
    (forall i, (forall k, (k < length (members h))%nat -> ~ not_stored h k ->
        (i < nth k (offsets 0 (members h)) 0 \/ nth k (offsets 0 (members h)) 0 + nth k (members h) 0 <= i)%nat) ->
      nth_error m2 i = nth_error m' i).
Proof.
  intros L B L' B' A. pose proof (pieces_ok h m L) as F.
  destruct (read_pieces_eq (pieces h) m B F m' r rest ltac:(congruence) B' A) as (r' & E & P & A' & _).
  destruct (copied (pieces h) m F m' ltac:(congruence)) as [L2 N].
  eexists _, r'. split; [exact E|]. split; [exact A'|]. split; [exact P|]. split; [congruence|]. split.
  - intros k Hk S. unfold member_of. f_equal. pose proof (member_fits h k Hk).
    apply part_ext; [rewrite L2, L; lia|lia|]. intros i Hi. rewrite N, (covered_member h k i Hk Hi).
    rewrite (proj2 (stored_b_ok h k) S). reflexivity.
  - intros i Hi. rewrite N. destruct (covered (pieces h) i) eqn:C; [|reflexivity].
    destruct (le_lt_dec (sizeof (members h)) i) as [G|G].
    + rewrite (proj2 (nth_error_None m i)) by lia. symmetry. apply nth_error_None. lia.
    + destruct (covered_gap h i C G) as (k & Hk & S & R). specialize (Hi k Hk S). lia.
Qed.
Lemma wire_length h m sw : length m = sizeof (members h) -> length (wire sw (pieces h) m) = file_size h.
Proof.
  intros L. pose proof (pieces_ok h m L) as F.
  assert (G : forall ps, Forall (piece_ok m) ps -> length (wire sw ps m) = list_sum (map (fun p => snd (span p)) ps)).
  { induction 1 as [|p ps Hp _ IH]; [reflexivity|]. cbn [wire flat_map map list_sum fold_right]. rewrite app_length.
    change (flat_map (piece_bytes sw m) ps) with (wire sw ps m). rewrite IH. unfold list_sum. cbn [fold_right]. f_equal.
    destruct p as [o n|o n]; cbn [piece_bytes piece_ok span snd] in *; [apply part_length; exact Hp|].
    destruct Hp as [Hp _]. destruct sw; [rewrite rev_length|]; apply part_length; exact Hp. }
  rewrite (G _ F). destruct h; reflexivity.
Qed.
