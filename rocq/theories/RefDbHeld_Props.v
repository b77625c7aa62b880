(** C65: loading into an object that is not empty. *)
From Coq Require Import String Ascii.
From Verif Require Import Base Dds_Model RefDb_Model RefDb_Proof RefDb_Load_Proof RefDb_Spec RefDb_Props RefDbHeld_Model.
Local Open Scope Z_scope.

Lemma number_inside size m n a v : number size m n a = Some v -> 0 <= a /\ a + Z.of_nat n <= size /\ v = le_value (peek m a n).
Proof.
  unfold number, bytes. destruct (Z.leb_spec 0 a); [|discriminate]. destruct (Z.leb_spec (a + Z.of_nat n) size); [|discriminate].
  cbn [andb]. intros E. split; [assumption | split; [assumption|]]. unfold peek. congruence.
Qed.
Lemma number_of size m n a : 0 <= a -> a + Z.of_nat n <= size -> number size m n a = Some (le_value (peek m a n)).
Proof.
  intros A B. unfold number, bytes. destruct (Z.leb_spec 0 a); [|lia]. destruct (Z.leb_spec (a + Z.of_nat n) size); [|lia]. reflexivity.
Qed.
Lemma target_null {A} size m base a (f : Z -> option A) : target base size m a f = Some None -> number size m 8 a = Some 0.
Proof.
  unfold target. destruct (number size m 8 a) as [p|]; [|discriminate]. destruct (Z.eqb_spec p 0); [now subst|].
  destruct (f (p - base)); discriminate.
Qed.
Lemma null_target {A} size m base a (f : Z -> option A) : number size m 8 a = Some 0 -> target base size m a f = Some None.
Proof. intros E. unfold target. rewrite E. reflexivity. Qed.

Definition byte_memory (m : mem) : Prop := forall x, 0 <= m x < 256.
Lemma zero_bytes m a : byte_memory m -> le_value (peek m a 8) = 0 -> forall x, a <= x < a + 8 -> m x = 0.
Proof.
  intros B E x Hx. unfold peek in E. cbn [seq map le_value] in E.
  pose proof (B (a + 0)); pose proof (B (a + 1)); pose proof (B (a + 2)); pose proof (B (a + 3));
  pose proof (B (a + 4)); pose proof (B (a + 5)); pose proof (B (a + 6)); pose proof (B (a + 7)).
  change (Z.of_nat 0) with 0 in E. change (Z.of_nat 1) with 1 in E. change (Z.of_nat 2) with 2 in E. change (Z.of_nat 3) with 3 in E.
  change (Z.of_nat 4) with 4 in E. change (Z.of_nat 5) with 5 in E. change (Z.of_nat 6) with 6 in E. change (Z.of_nat 7) with 7 in E.
  assert (C : x = a + 0 \/ x = a + 1 \/ x = a + 2 \/ x = a + 3 \/ x = a + 4 \/ x = a + 5 \/ x = a + 6 \/ x = a + 7) by lia.
  decompose [or] C; subst x; lia.
Qed.
Lemma peek4_zero m a : (forall x, a <= x < a + 4 -> m x = 0) -> le_value (peek m a 4) = 0.
Proof.
  intros H. unfold peek. cbn [seq map le_value]. rewrite !H by lia. reflexivity.
Qed.
Lemma rd_of n s m a : 0 <= a -> a + Z.of_nat n <= s -> rd n s m a = Some (le_value (peek m a n)).
Proof. intros A B. unfold rd, inside. destruct (Z.leb_spec 0 a); [|lia]. destruct (Z.leb_spec (a + Z.of_nat n) s); [|lia]. reflexivity. Qed.
Lemma wr_of n s m a v : 0 <= a -> a + Z.of_nat n <= s -> wr n s m a v = Some (poke m a (le_bytes n v)).
Proof. intros A B. unfold wr, inside. destruct (Z.leb_spec 0 a); [|lia]. destruct (Z.leb_spec (a + Z.of_nat n) s); [|lia]. reflexivity. Qed.

(** One record whose last three pointers are null *)
Definition emptied (base : Z) (m m' : mem) (q : Z) : Prop :=
  (forall x, ~ (q + 8 <= x < q + 56) -> m' x = m x) /\ peek m' (q + 8) 8 = le_bytes 8 (u64 base) /\
  (forall x, q + 16 <= x < q + 56 -> m' x = 0).
Lemma le8_zero : le_bytes 8 0 = repeat 0 8. Proof. reflexivity. Qed.
Lemma poke_zero m a x : a <= x < a + 8 -> poke m a (le_bytes 8 0) x = 0.
Proof. intros H. rewrite le8_zero, poke_in by (cbn; lia). change 0 with (nth 0 [0] 0) at 2. apply nth_repeat. Qed.
Lemma record_emptied base s q m : 0 <= q -> q + 56 <= s -> (forall x, q + 32 <= x < q + 56 -> m x = 0) ->
  exists m', load_class base s q m = Some m' /\ emptied base m m' q.
Proof.
  intros A B Z0.
  assert (R : forall mm a, (forall x, a <= x < a + 4 -> mm x = 0) -> q <= a -> a + 4 <= q + 56 -> rd 4 s mm a = Some 0).
  { intros mm a H H1 H2. rewrite rd_of by lia. now rewrite peek4_zero. }
  unfold load_class.
  rewrite R by (intros; try apply Z0; lia). rewrite wr_of by lia.
  set (m1 := poke m (q + 8) (le_bytes 8 (ptr base 0))).
  assert (Z1 : forall x, ~ (q + 8 <= x < q + 16) -> m1 x = m x) by (intros; unfold m1; apply poke8_out; lia).
  rewrite R by (intros; try (rewrite Z1 by lia; apply Z0); lia). cbn [Z.eqb negb]. rewrite wr_of by lia.
  set (m2 := poke m1 (q + 16) (le_bytes 8 0)).
  assert (Z2 : forall x, ~ (q + 16 <= x < q + 24) -> m2 x = m1 x) by (intros; unfold m2; apply poke8_out; lia).
  assert (Y2 : forall x, q + 32 <= x < q + 56 -> m2 x = 0) by (intros; rewrite Z2, Z1 by lia; apply Z0; lia).
  rewrite R by (intros; try apply Y2; lia). change (ptr0 base 0) with 0. rewrite wr_of by lia.
  set (m3 := poke m2 (q + 24) (le_bytes 8 0)).
  assert (Z3 : forall x, ~ (q + 24 <= x < q + 32) -> m3 x = m2 x) by (intros; unfold m3; apply poke8_out; lia).
  assert (Y3 : forall x, q + 32 <= x < q + 56 -> m3 x = 0) by (intros; rewrite Z3 by lia; apply Y2; lia).
  rewrite R by (intros; try apply Y3; lia). cbn [Z.eqb negb]. rewrite wr_of by lia.
  set (m4 := poke m3 (q + 32) (le_bytes 8 0)).
  assert (Z4 : forall x, ~ (q + 32 <= x < q + 40) -> m4 x = m3 x) by (intros; unfold m4; apply poke8_out; lia).
  assert (Y4 : forall x, q + 32 <= x < q + 56 -> m4 x = 0).
  { intros x Hx. destruct (Z.ltb_spec x (q + 40)); [unfold m4; apply poke_zero; lia | rewrite Z4 by lia; apply Y3; lia]. }
  rewrite R by (intros; try apply Y4; lia). cbn [Z.eqb negb]. rewrite wr_of by lia.
  set (m5 := poke m4 (q + 40) (le_bytes 8 0)).
  assert (Z5 : forall x, ~ (q + 40 <= x < q + 48) -> m5 x = m4 x) by (intros; unfold m5; apply poke8_out; lia).
  assert (Y5 : forall x, q + 32 <= x < q + 56 -> m5 x = 0).
  { intros x Hx. destruct (Z.ltb_spec x (q + 40)); [rewrite Z5 by lia; apply Y4; lia |].
    destruct (Z.ltb_spec x (q + 48)); [unfold m5; apply poke_zero; lia | rewrite Z5 by lia; apply Y4; lia]. }
  rewrite R by (intros; try apply Y5; lia). cbn [Z.eqb negb]. rewrite wr_of by lia.
  eexists. split; [reflexivity|]. repeat split.
  - intros x Hx. rewrite poke8_out, Z5, Z4, Z3, Z2, Z1 by lia. reflexivity.
  - assert (P : forall k a mm mm', (forall x, a <= x < a + Z.of_nat k -> mm x = mm' x) -> peek mm a k = peek mm' a k).
    { intros k a mm mm' H. unfold peek. apply map_ext_in. intros i Hi. apply in_seq in Hi. apply H. lia. }
    rewrite (P 8%nat _ _ m1) by (intros x Hx; rewrite poke8_out, Z5, Z4, Z3, Z2 by lia; reflexivity).
    pose proof (holds_peek _ _ _ (holds_poke m (q + 8) (le_bytes 8 (ptr base 0)))) as Q. rewrite le_length in Q. fold m1 in Q. rewrite Q.
    unfold ptr. now rewrite Z.add_0_r.
  - intros x Hx. destruct (Z.ltb_spec x (q + 48)).
    + rewrite poke8_out by lia. destruct (Z.ltb_spec x (q + 32)); [|apply Y5; lia].
      rewrite Z5, Z4 by lia. destruct (Z.ltb_spec x (q + 24)); [|unfold m3; apply poke_zero; lia].
      rewrite Z3 by lia. unfold m2. apply poke_zero. lia.
    + apply poke_zero. lia.
Qed.

Fixpoint apart (qs : list Z) : Prop :=
  match qs with [] => True | q :: r => Forall (fun p => p + 56 <= q \/ q + 56 <= p) r /\ apart r end.
Lemma held_emptied base s : forall qs m, apart qs -> Forall (fun q => 0 <= q /\ q + 56 <= s /\ forall x, q + 32 <= x < q + 56 -> m x = 0) qs ->
  exists m', load_held base s qs m = Some m' /\
    (forall x, Forall (fun q => ~ (q <= x < q + 56)) qs -> m' x = m x) /\
    forall q, In q qs -> peek m' q 8 = peek m q 8 /\ peek m' (q + 8) 8 = le_bytes 8 (u64 base) /\ forall x, q + 16 <= x < q + 56 -> m' x = 0.
Proof.
  assert (P : forall k a mm mm', (forall x, a <= x < a + Z.of_nat k -> mm x = mm' x) -> peek mm a k = peek mm' a k).
  { intros k a mm mm' H. unfold peek. apply map_ext_in. intros i Hi. apply in_seq in Hi. apply H. lia. }
  induction qs as [|q r IH]; intros m Ap F; cbn [load_held].
  - exists m. repeat split; try reflexivity; intros; contradiction.
  - apply Forall_cons_iff in F as [(A & B & Z0) F]. destruct Ap as [Ap1 Ap].
    destruct (record_emptied base s q m A B Z0) as (m1 & E1 & O1 & P1 & N1). rewrite E1.
    destruct (IH m1 Ap) as (m' & E & O & H).
    { rewrite Forall_forall in *. intros p Ip. destruct (F p Ip) as (Fa & Fb & Fz). split; [assumption | split; [assumption|]].
      intros x Hx. rewrite O1; [now apply Fz|]. specialize (Ap1 p Ip). cbn in Ap1. lia. }
    exists m'. split; [exact E|]. split.
    + intros x Hx. apply Forall_cons_iff in Hx as [Hx Hr]. rewrite O by assumption. apply O1. lia.
    + intros p [<- | Ip].
      * assert (K : forall x, q <= x < q + 56 -> m' x = m1 x).
        { intros x Hx. apply O. rewrite Forall_forall in *. intros p Ip. specialize (Ap1 p Ip). cbn in Ap1. lia. }
        split; [|split].
        -- rewrite (P 8%nat q m' m1) by (intros; apply K; lia). apply P. intros; apply O1; lia.
        -- rewrite (P 8%nat (q + 8) m' m1) by (intros; apply K; lia). exact P1.
        -- intros x Hx. rewrite K by lia. now apply N1.
      * destruct (H p Ip) as (H1 & H2 & H3). split; [|split; assumption].
        rewrite H1. apply P. intros x Hx. apply O1. rewrite Forall_forall in Ap1. specialize (Ap1 p Ip). cbn in Ap1. lia.
Qed.

(** Refuted: that a Load leaves the classes alone that the object already holds.  Whatever a held class without aliases, alias
    hashes and descriptions was: afterwards it has its hash and number of types still, but neither names nor a class name, and its types are the
    bytes at the start of the buffer. *)
Theorem C65_held_class_refuted : forall base size qs m,
  0 < base < 2 ^ 64 -> byte_memory m -> apart qs ->
  Forall (fun q => exists c, class_at base size m q = Some c /\ aliases c = None /\ ahashes c = None /\ descs c = None) qs ->
  exists m', load_held base size qs m = Some m' /\
    (forall x, Forall (fun q => ~ (q <= x < q + 56)) qs -> m' x = m x) /\
    forall q c c', In q qs -> class_at base size m q = Some c -> class_at base size m' q = Some c' ->
      chash c' = chash c /\ length (types c') = length (types c) /\
      names c' = None /\ cname c' = None /\ aliases c' = None /\ ahashes c' = None /\ descs c' = None /\
      each (length (types c')) 16 0 (bytes size m' 16) = Some (types c').
Proof.
  intros base size qs m Hb Bm Ap F.
  assert (EL : forall A n w a (f : Z -> option A) l, each n w a f = Some l -> length l = n).
  { intros A n. induction n as [|n IH]; intros w a f l E; cbn [each] in E; [injection E as <-; reflexivity|].
    destruct (f a); [|discriminate]. destruct (each n w (a + w) f) eqn:E1; [|discriminate]. apply IH in E1.
    injection E as <-. cbn. now f_equal. }
  destruct (held_emptied base size qs m Ap) as (m' & E & O & H).
  { rewrite Forall_forall in *. intros q Iq. destruct (F q Iq) as (c & Ec & A1 & A2 & A3). unfold class_at in Ec.
    destruct (number size m 4 q) as [h|] eqn:Eh; [|discriminate]. apply number_inside in Eh as (Q0 & _ & _).
    destruct (number size m 4 (q + 4)) as [n|]; [|discriminate]. cbv zeta in Ec.
    destruct (must _) as [ts|]; [|discriminate]. destruct (target base size m (q + 16) _) as [ns|]; [|discriminate].
    destruct (target base size m (q + 24) _) as [cn|]; [|discriminate].
    destruct (target base size m (q + 32) _) as [al|] eqn:Ea; [|discriminate].
    destruct (target base size m (q + 40) _) as [ah|] eqn:Eah; [|discriminate].
    destruct (target base size m (q + 48) _) as [ds|] eqn:Ed; [|discriminate].
    injection Ec as <-. cbn [aliases ahashes descs] in A1, A2, A3. subst al ah ds.
    apply target_null, number_inside in Ea, Eah, Ed. destruct Ea as (_ & _ & Za), Eah as (_ & _ & Zh), Ed as (_ & Le & Zd).
    split; [exact Q0|]. split; [lia|]. intros x Hx.
    destruct (Z.ltb_spec x (q + 40)); [apply (zero_bytes m (q + 32) Bm (eq_sym Za)); lia|].
    destruct (Z.ltb_spec x (q + 48)); [apply (zero_bytes m (q + 40) Bm (eq_sym Zh)); lia|].
    apply (zero_bytes m (q + 48) Bm (eq_sym Zd)); lia. }
  exists m'. split; [exact E|]. split; [exact O|]. intros q c c' Iq Ec Ec'.
  destruct (H q Iq) as (H1 & H2 & H3).
  assert (P4 : forall a, (forall x, a <= x < a + 8 -> m' x = 0) -> le_value (peek m' a 8) = 0).
  { intros a Ha. unfold peek. cbn [seq map le_value]. rewrite !Ha by lia. reflexivity. }
  assert (S4 : le_value (peek m' q 4) = le_value (peek m q 4) /\ le_value (peek m' (q + 4) 4) = le_value (peek m (q + 4) 4)).
  { assert (K : forall x, q <= x < q + 8 -> m' x = m x).
    { intros x Hx. replace x with (q + Z.of_nat (Z.to_nat (x - q))) by lia.
      rewrite <- !(peek_nth _ q 8) by lia. now rewrite H1. }
    split; f_equal; unfold peek; apply map_ext_in; intros i Hi; apply in_seq in Hi; apply K; lia. }
  unfold class_at in Ec, Ec'.
  destruct (number size m 4 q) as [h|] eqn:Eh; [|discriminate]. destruct (number size m 4 (q + 4)) as [n|] eqn:En; [|discriminate].
  destruct (number size m' 4 q) as [h'|] eqn:Eh'; [|discriminate]. destruct (number size m' 4 (q + 4)) as [n'|] eqn:En'; [|discriminate].
  apply number_inside in Eh as (_ & _ & Vh), En as (_ & _ & Vn), Eh' as (Q0 & _ & Vh'), En' as (_ & _ & Vn').
  assert (Hh : h' = h) by (rewrite Vh, Vh'; apply S4). assert (Hn : n' = n) by (rewrite Vn, Vn'; apply S4). clear Vh' Vn'; subst h' n'.
  cbv zeta in Ec, Ec'.
  assert (Sz : q + 56 <= size).
  { rewrite Forall_forall in F. clear Ec'. destruct (must _) as [ts|]; [|discriminate]. destruct (target base size m (q + 16) _) as [ns|]; [|discriminate].
    destruct (target base size m (q + 24) _) as [cn|]; [|discriminate]. destruct (target base size m (q + 32) _) as [al|]; [|discriminate].
    destruct (target base size m (q + 40) _) as [ah|]; [|discriminate].
    unfold target in Ec. destruct (number size m 8 (q + 48)) as [p|] eqn:Ep; [|discriminate]. apply number_inside in Ep. lia. }
  rewrite (null_target size m' base (q + 16)) in Ec' by (rewrite number_of by lia; rewrite P4 by (intros; apply H3; lia); reflexivity).
  rewrite (null_target size m' base (q + 24)) in Ec' by (rewrite number_of by lia; rewrite P4 by (intros; apply H3; lia); reflexivity).
  rewrite (null_target size m' base (q + 32)) in Ec' by (rewrite number_of by lia; rewrite P4 by (intros; apply H3; lia); reflexivity).
  rewrite (null_target size m' base (q + 40)) in Ec' by (rewrite number_of by lia; rewrite P4 by (intros; apply H3; lia); reflexivity).
  rewrite (null_target size m' base (q + 48)) in Ec' by (rewrite number_of by lia; rewrite P4 by (intros; apply H3; lia); reflexivity).
  unfold target at 1 in Ec'. rewrite number_of, H2 in Ec' by lia.
  rewrite le_value_bytes in Ec'. unfold u64, wrap in Ec'. change (256 ^ Z.of_nat 8) with (2 ^ 64) in Ec'.
  rewrite Z.mod_mod, Z.mod_small in Ec' by lia. destruct (Z.eqb_spec base 0); [lia|]. rewrite Z.sub_diag in Ec'.
  destruct (each (Z.to_nat n) 16 0 (bytes size m' 16)) as [ts'|] eqn:Et'; [|discriminate]. cbn [must] in Ec'. injection Ec' as <-.
  cbn [chash types names cname aliases ahashes descs].
  assert (Lt : length (types c) = Z.to_nat n).
  { unfold target at 1 in Ec. destruct (number size m 8 (q + 8)) as [p|]; [|discriminate]. destruct (p =? 0); [discriminate|].
    destruct (each (Z.to_nat n) 16 (p - base) (bytes size m 16)) as [ts|] eqn:Et; [|discriminate]. cbn [must] in Ec.
    destruct (target base size m (q + 16) _) as [ns|]; [|discriminate].
    destruct (target base size m (q + 24) _) as [cn|]; [|discriminate]. destruct (target base size m (q + 32) _) as [al|]; [|discriminate].
    destruct (target base size m (q + 40) _) as [ah|]; [|discriminate]. destruct (target base size m (q + 48) _) as [ds|]; [|discriminate].
    injection Ec as <-. exact (EL _ _ _ _ _ _ Et). }
  assert (Hc : chash c = h).
  { destruct (must _) as [ts|] in Ec; [|discriminate].
    destruct (target base size m (q + 16) _) as [ns|]; [|discriminate].
    destruct (target base size m (q + 24) _) as [cn|]; [|discriminate]. destruct (target base size m (q + 32) _) as [al|]; [|discriminate].
    destruct (target base size m (q + 40) _) as [ah|]; [|discriminate]. destruct (target base size m (q + 48) _) as [ds|]; [|discriminate].
    injection Ec as <-. reflexivity. }
  assert (Lt' := EL _ _ _ _ _ _ Et').
  repeat split; auto; congruence.
Qed.
Print Assumptions C65_held_class_refuted.

Lemma byte_le n v : Forall (fun b => 0 <= b < 256) (le_bytes n v).
Proof. revert v. induction n; intros v; cbn [le_bytes]; constructor; auto. apply Z.mod_pos_bound. reflexivity. Qed.
Lemma byte_wr k s m a v m' : byte_memory m -> wr k s m a v = Some m' -> byte_memory m'.
Proof.
  intros B E. unfold wr in E. destruct inside; [|discriminate]. injection E as <-. intros x. unfold poke.
  destruct (_ && _); [|apply B]. pose proof (byte_le k v) as F. rewrite Forall_forall in F.
  destruct (nth_in_or_default (Z.to_nat (x - a)) (le_bytes k v) 0) as [I | ->]; [now apply F | lia].
Qed.
Lemma byte_expand f s q n : forall k t m m', byte_memory m -> expand f s q n k t m = Some m' -> byte_memory m'.
Proof.
  induction k as [|k IH]; intros t m m' B E; cbn [expand] in E; [injection E as <-; exact B|].
  destruct rd as [v|]; [|discriminate]. destruct (wr 8 s m _ _) as [m1|] eqn:E1; [|discriminate].
  exact (IH _ _ _ (byte_wr _ _ _ _ _ _ B E1) E).
Qed.
Lemma byte_descs base s : forall k p o m m', byte_memory m -> expand_descs base s k p o m = Some m' -> byte_memory m'.
Proof.
  induction k as [|k IH]; intros p o m m' B E; cbn [expand_descs] in E; [injection E as <-; exact B|].
  destruct (rd 4 s m o) as [v|]; [|discriminate]. destruct (negb (v =? 0)).
  - destruct (wr 8 s m p _) as [m1|] eqn:E1; [|discriminate]. destruct (rd 4 s m1 _); [|discriminate].
    destruct (wr 8 s m1 _ _) as [m2|] eqn:E2; [|discriminate]. eauto using byte_wr.
  - destruct (wr 8 s m p _) as [m0|] eqn:E0; [|discriminate]. destruct (wr 4 s m0 _ _) as [m1|] eqn:E1; [|discriminate].
    destruct (rd 4 s m1 _); [|discriminate].
    destruct (wr 8 s m1 _ _) as [m2|] eqn:E2; [|discriminate]. eauto 6 using byte_wr.
Qed.
Lemma byte_class base s q m m' : byte_memory m -> load_class base s q m = Some m' -> byte_memory m'.
Proof.
  intros B E. unfold load_class in E.
  destruct (rd 4 s m _); [|discriminate]. destruct (wr 8 s m _ _) as [m1|] eqn:E1; [|discriminate]. apply (byte_wr _ _ _ _ _ _ B) in E1. clear m B.
  destruct (rd 4 s m1 (q + 36)) as [np|]; [|discriminate].
  destruct (if negb (np =? 0) then _ else _) as [m2|] eqn:E2 in E; [|discriminate].
  assert (B2 : byte_memory m2).
  { destruct (negb (np =? 0)); [|eauto using byte_wr]. destruct (wr 8 s m1 _ _) as [mm|] eqn:W; [|discriminate]. destruct (rd 4 s mm _); [|discriminate].
    eauto using byte_wr, byte_expand. }
  clear E1 E2. destruct (rd 4 s m2 _); [|discriminate]. destruct (wr 8 s m2 _ _) as [m3|] eqn:E3; [|discriminate]. apply (byte_wr _ _ _ _ _ _ B2) in E3. clear m1 m2 B2.
  destruct (rd 4 s m3 (q + 44)) as [ap|]; [|discriminate].
  destruct (if negb (ap =? 0) then _ else _) as [m4|] eqn:E4 in E; [|discriminate].
  assert (B4 : byte_memory m4).
  { destruct (negb (ap =? 0)); [|eauto using byte_wr]. destruct (wr 8 s m3 _ _) as [mm|] eqn:W; [|discriminate]. destruct (rd 4 s mm _); [|discriminate].
    eauto using byte_wr, byte_expand. }
  clear E3 E4. destruct (rd 4 s m4 (q + 48)) as [hp|]; [|discriminate].
  destruct (if negb (hp =? 0) then _ else _) as [m5|] eqn:E5 in E; [|discriminate].
  assert (B5 : byte_memory m5) by (destruct (negb (hp =? 0)); eauto using byte_wr).
  destruct (rd 4 s m5 (q + 52)) as [dp|]; [|discriminate].
  destruct (negb (dp =? 0)); [|eauto using byte_wr]. destruct (wr 8 s m5 _ _) as [mm|] eqn:W; [|discriminate]. destruct (rd 4 s mm _); [|discriminate].
  eauto using byte_wr, byte_descs.
Qed.
Lemma byte_classes base s : forall k q m m', byte_memory m -> load_classes base s k q m = Some m' -> byte_memory m'.
Proof.
  induction k as [|k IH]; intros q m m' B E; cbn [load_classes] in E; [injection E as <-; exact B|].
  destruct (load_class base s q m) as [m1|] eqn:E1; [|discriminate]. exact (IH _ _ _ (byte_class _ _ _ _ _ B E1) E).
Qed.
Lemma byte_to_mem l : Forall (fun b => 0 <= b < 256) l -> byte_memory (to_mem l).
Proof.
  intros F x. unfold to_mem. destruct (x <? 0); [lia|]. rewrite Forall_forall in F.
  destruct (nth_in_or_default (Z.to_nat x) l 0) as [I | ->]; [now apply F | lia].
Qed.
Lemma first_enum s m k it h n v l z : byte_memory m -> load_enums s m k it = Some ((h, n, v) :: l, z) -> 0 <= n.
Proof.
  intros B E. destruct k; cbn [load_enums] in E; [discriminate|]. destruct (rd 4 s m it); [|discriminate].
  destruct (rd 4 s m (it + 4)) as [n'|] eqn:En; [|discriminate]. destruct (load_enums s m k _); [|discriminate].
  assert (n' = n) by congruence. subst n'. clear E. unfold rd in En. destruct inside; [|discriminate].
  assert (V : n = le_value (peek m (it + 4) 4)) by congruence. rewrite V. apply le_value_bound. apply Forall_forall. intros b I. unfold peek in I. apply in_map_iff in I as (i & <- & _). apply B.
Qed.

(** Refuted: that a Load leaves the enumerations alone that the object already holds.  A held one with as many names as the first one of
    the file is given the names, and the name, of that one; it keeps its own hash and values. *)
Theorem C65_held_enum_refuted : forall base file s m n h0 ns0 v0 nm0 es h v r, Forall (fun b => 0 <= b < 256) file ->
  Load base file = Some (Loaded s m n ((h0, ns0, v0, nm0) :: es)) ->
  LoadIntoEnums base [(h, Z.of_nat (length ns0), v)] file = Some r ->
  exists es', r = Loaded s m n ((h, ns0, v, nm0) :: es').
Proof.
  intros base file s m n h0 ns0 v0 nm0 es h v r Fb E1 E2. unfold Load in E1. unfold LoadIntoEnums in E2.
  destruct (length file <? 32)%nat; [discriminate|]. destruct (negb (field file 0 =? ID)); [discriminate|].
  destruct (VERSION <? field file 1); [discriminate|]. cbv zeta in E1, E2.
  destruct (load_classes base (field file 6) _ 0 _) as [m1|] eqn:Em; [|discriminate].
  apply byte_classes in Em; [| apply byte_to_mem; apply Forall_forall; intros b I; rewrite Forall_forall in Fb; apply Fb;
    rewrite <- (firstn_skipn 32 file); apply in_or_app; right; rewrite <- (firstn_skipn (Z.to_nat (field file 6)) (skipn 32 file)); apply in_or_app; now left].
  destruct (load_enums (field file 6) m1 _ _) as [[l it]|] eqn:El; [|discriminate]. cbn [fst snd] in E1, E2.
  destruct (expand _ _ it _ _ 0 m1) as [m2|]; [|discriminate].
  destruct (name_enums base (field file 6) m2 l it) as [es1|] eqn:En; [|discriminate].
  injection E1 as <- <- <- ->.
  destruct l as [|[[hh nn] vv] l]; [discriminate|]. pose proof (first_enum _ _ _ _ _ _ _ _ _ Em El) as Nn.
  cbn [name_enums] in En. cbn [app name_enums] in E2.
  rewrite Nat2Z.id in E2.
  destruct (take_names base (field file 6) m2 (Z.to_nat nn) it) as [ns|] eqn:Et; [|discriminate].
  assert (TL : forall k a l', take_names base (field file 6) m2 k a = Some l' -> length l' = k).
  { clear. induction k as [|k IH]; intros a l' E; cbn [take_names] in E; [injection E as <-; reflexivity|].
    destruct (rd 8 _ m2 a) as [p|]; [|discriminate]. destruct (at_ptr _ _ m2 p); [|discriminate].
    destruct (take_names _ _ m2 k (a + 8)) eqn:E1; [|discriminate]. apply IH in E1. injection E as <-. cbn. now f_equal. }
  destruct (rd 8 (field file 6) m2 (it + 8 * nn)) as [p|] eqn:Ep; [|discriminate].
  destruct (at_ptr base (field file 6) m2 p) as [e|] eqn:Ee; [|discriminate].
  destruct (name_enums base (field file 6) m2 l _) as [es2|]; [|discriminate]. injection En as -> -> -> -> ->.
  assert (L := TL _ _ _ Et). rewrite L, Et, Z2Nat.id, Ep, Ee in E2 by assumption.
  match type of E2 with match ?X with Some _ => _ | None => None end = _ => destruct X as [es3|] eqn:Ex; [|discriminate] end.
  match type of Ex with match ?X with Some _ => _ | None => None end = _ => destruct X as [es4|]; [|discriminate] end.
  assert (H3 : es3 = (h, ns0, v, nm0) :: es4) by congruence. exists es4. rewrite <- H3. congruence.
Qed.
Print Assumptions C65_held_enum_refuted.

(** Refuted: that Save can put a database behind something else.  The first 32 bytes of the stream are replaced by the header; where the database
    begins there is a header without counts, which Load does not survive when the members not set are zero. *)
Theorem C65_save_elsewhere_refuted : forall d file before base, Save d = Some file ->
  0 < Z.of_nat (length (classes d)) < 2 ^ 32 -> (32 <= length before)%nat ->
  exists stream, SaveAt before (repeat 0 12) d = Some stream /\
    firstn 32 stream = firstn 32 file /\ firstn (length before - 32) (skipn 32 stream) = skipn 32 before /\
    Load base (skipn (length before) stream) = None.
Proof.
  intros d file before base E N L. unfold SaveAt. rewrite E. eexists. split; [reflexivity|].
  assert (L32 : length (firstn 32 file) = 32%nat).
  { apply firstn_length_le. unfold Save in E. destruct (exec (class_ops d) empty_writer) as [w1|]; [|discriminate].
    destruct (exec (enum_ops d) w1) as [w2|]; [|discriminate]. cbv zeta in E.
    match type of E with Some ?X = Some _ => assert (H : file = X) by congruence; rewrite H end.
    rewrite app_length. match goal with |- context [length (header ?a ?b ?c ?e ?f)] => change (length (header a b c e f)) with 32%nat end. lia. }
  set (first := flat_map u32b _ ++ repeat 0 12 ++ u32b 0).
  split; [|split].
  - rewrite <- L32 at 1. rewrite firstn_app, Nat.sub_diag, firstn_all, app_nil_r. reflexivity.
  - assert (S : forall Y : list Z, skipn 32 (firstn 32 file ++ Y) = Y)
      by (intros Y; rewrite skipn_app, L32, Nat.sub_diag, (skipn_all2 (firstn 32 file)) by lia; reflexivity).
    rewrite S, skipn_app. replace (32 - length before)%nat with 0%nat by lia. cbn [skipn].
    replace (length before - 32)%nat with (length (skipn 32 before)) by (rewrite skipn_length; reflexivity).
    rewrite firstn_app, Nat.sub_diag, firstn_all. apply app_nil_r.
  - assert (K : skipn (length before) (firstn 32 file ++ skipn 32 (before ++ first ++ skipn 32 file)) = first ++ skipn 32 file).
    { rewrite skipn_app, L32, (skipn_all2 (firstn 32 file)) by lia. cbn [app].
      rewrite (skipn_app 32 before). replace (32 - length before)%nat with 0%nat by lia.
      replace (length before - 32)%nat with (length (skipn 32 before)) by (rewrite skipn_length; reflexivity).
      rewrite skipn_app, skipn_all, Nat.sub_diag. reflexivity. }
    rewrite K. clear K. set (rest := skipn 32 file). destruct (Load base (first ++ rest)) as [r|] eqn:El; [exfalso|reflexivity].
    assert (F2 : le_value (firstn 4 (skipn 8 (first ++ rest))) = Z.of_nat (length (classes d))).
    { unfold first, u32b. cbn [flat_map]. rewrite <- !app_assoc. 
      change (skipn 8 _) with (le_bytes 4 (u32 (Z.of_nat (length (classes d)))) ++ le_bytes 4 (u32 (Z.of_nat (length (enums d)))) ++ repeat 0 12 ++ le_bytes 4 (u32 0) ++ rest).
      change (firstn 4 _) with (le_bytes 4 (u32 (Z.of_nat (length (classes d))))). rewrite le_value_bytes. unfold u32, wrap.
      change (256 ^ Z.of_nat 4) with (2 ^ 32). rewrite Z.mod_mod, Z.mod_small by lia. reflexivity. }
    assert (F6 : le_value (firstn 4 (skipn 24 (first ++ rest))) = 0).
    { unfold first, u32b. cbn [flat_map]. rewrite <- !app_assoc. reflexivity. }
    pose proof (C65_counts_believed base (first ++ rest) r El) as B. rewrite F2, F6 in B.
    assert (NR : forall code, r <> Refused code).
    { intros code ->. unfold Load in El. destruct (length (first ++ rest) <? 32)%nat; [discriminate|].
      assert (F0 : field (first ++ rest) 0 = ID) by (unfold field, first, u32b; cbn [flat_map]; rewrite <- !app_assoc; reflexivity).
      assert (F1 : field (first ++ rest) 1 = VERSION) by (unfold field, first, u32b; cbn [flat_map]; rewrite <- !app_assoc; reflexivity).
      rewrite F0, F1, Z.eqb_refl, Z.ltb_irrefl in El. cbn [negb] in El. cbv zeta in El.
      destruct (load_classes base _ _ 0 _) as [m1|]; [|discriminate]. destruct (load_enums _ m1 _ _) as [[l it]|]; [|discriminate].
      destruct (expand _ _ _ _ _ 0 m1) as [m2|]; [|discriminate]. destruct (name_enums _ _ m2 _ _); discriminate. }
    specialize (B NR). lia.
Qed.
Print Assumptions C65_save_elsewhere_refuted.
(** at the start of a stream nothing goes wrong *)
Theorem C65_save_at_start : forall d file garbage, Save d = Some file -> length garbage = 12%nat -> SaveAt [] garbage d = Some file.
Proof.
  intros d file garbage E G. unfold SaveAt. rewrite E. cbv zeta. rewrite app_nil_l.
  set (first := flat_map u32b _ ++ garbage ++ u32b 0).
  assert (L : length first = 32%nat).
  { unfold first. rewrite !app_length, G. reflexivity. }
  rewrite (skipn_app 32), (skipn_all2 first), L, Nat.sub_diag by lia.
  cbn [skipn app]. f_equal. apply firstn_skipn.
Qed.
Print Assumptions C65_save_at_start.

(** * The hypotheses are met *)
(** a buffer of 256 bytes, behind it a held class of one type at 300: its type at 360, its name at 380 *)
Definition ex_outer : mem := to_mem (repeat 0 300 ++ flat_map (le_bytes 4) [77; 1] ++ le_bytes 8 4456 ++ le_bytes 8 0 ++ le_bytes 8 4476 ++ repeat 0 24 ++
  repeat 0 4 ++ repeat 9 16 ++ repeat 0 4 ++ [65; 66; 0]).
Example h_held_before : class_at 4096 400 ex_outer 300 = Some (Cls 77 [repeat 9 16] None (Some [65; 66]) None None None).
Proof. vm_compute. reflexivity. Qed.
Example h_held_after : match load_held 4096 400 [300] ex_outer with
  | Some m => class_at 4096 400 m 300 = Some (Cls 77 [repeat 0 16] None None None None None) | None => False end.
Proof. vm_compute. reflexivity. Qed.
(** the file of a database with one enumeration, loaded into an object holding another: the held one gets its names, the loaded one
    gets what the characters behind the pointers lead to *)
Definition ex_enums := Db [] [Enm 9 [repeat 65 16] [3] [69]].
Definition ex_base : Z := le_value (repeat 65 8) - 16.
Example h_enum : match Save ex_enums with
  | Some file =>
    match Load ex_base file with Some (Loaded _ _ _ es) => es = [(9, [repeat 65 16], 8, [69])] | _ => False end /\
    match LoadIntoEnums ex_base [(7, 1, 1000)] file with
    | Some (Loaded _ _ _ [(h, ns, v, nm); (h', ns', _, nm')]) =>
        (h, ns, v, nm) = (7, [repeat 65 16], 1000, [69]) /\ h' = 9 /\ ns' <> [repeat 65 16] /\ nm' <> [69]
    | _ => False
    end
  | None => False end.
Proof. vm_compute. repeat split; discriminate. Qed.
Example h_elsewhere : match SaveAt (repeat 1 40) (repeat 0 12) ex_db with
  | Some stream => firstn 4 stream = [82; 70; 68; 66] /\ firstn 8 (skipn 32 stream) = repeat 1 8 | None => False end.
Proof. vm_compute. split; reflexivity. Qed.
