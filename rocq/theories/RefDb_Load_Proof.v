(** Load on a buffer: offsets are turned into pointers in place without disturbing what is still needed. *)
From Coq Require Import String Ascii Sorting.Sorted.
From Verif Require Import Base Dds_Model RefDb_Model RefDb_Proof RefDb_Slots_Proof RefDb_Layout_Proof RefDb_Facts_Proof.
Local Open Scope Z_scope.

Definition quad (m : mem) (a v : Z) : Prop := holds m a (le_bytes 8 v).
Lemma le_back k v : 0 <= v < 2 ^ (8 * Z.of_nat k) -> le_value (le_bytes k v) = v.
Proof.
  revert v. induction k as [|k IH]; intros v Hv; [cbn in *; lia|]. cbn [le_bytes le_value].
  rewrite IH; [lia|]. replace (8 * Z.of_nat (S k)) with (8 + 8 * Z.of_nat k) in Hv by lia. rewrite Z.pow_add_r in Hv by lia.
  change (2 ^ 8) with 256 in Hv. split; [apply Z.div_pos; lia|]. apply Z.div_lt_upper_bound; lia.
Qed.
Lemma inside_ok s a k : 0 <= a -> a + k <= s -> inside s a k = true.
Proof. intros. unfold inside. lia. Qed.
Lemma rd_word s m a v : word m a v -> 0 <= v < 2 ^ 32 -> 0 <= a -> a + 4 <= s -> rd 4 s m a = Some v.
Proof.
  intros W Hv Ha Hs. unfold rd. rewrite inside_ok by (cbn; lia). apply holds_peek in W. rewrite le_length in W. rewrite W, le_back; [reflexivity|exact Hv].
Qed.
Lemma rd_quad s m a v : quad m a v -> 0 <= v < 2 ^ 64 -> 0 <= a -> a + 8 <= s -> rd 8 s m a = Some v.
Proof.
  intros W Hv Ha Hs. unfold rd. rewrite inside_ok by (cbn; lia). apply holds_peek in W. rewrite le_length in W. rewrite W, le_back; [reflexivity|exact Hv].
Qed.
Lemma wr_ok k s m a v : 0 <= a -> a + Z.of_nat k <= s -> wr k s m a v = Some (poke m a (le_bytes k v)).
Proof. intros. unfold wr. rewrite inside_ok by lia. reflexivity. Qed.
Lemma word_ext m m' a v : (forall x, a <= x < a + 4 -> m' x = m x) -> word m a v -> word m' a v.
Proof. intros H W. eapply holds_ext; [|exact W]. rewrite le_len. exact H. Qed.
Lemma quad_ext m m' a v : (forall x, a <= x < a + 8 -> m' x = m x) -> quad m a v -> quad m' a v.
Proof. intros H W. eapply holds_ext; [|exact W]. rewrite le_len. exact H. Qed.
Lemma poke8_out m a v x : ~ (a <= x < a + 8) -> poke m a (le_bytes 8 v) x = m x.
Proof. intros. apply poke_out. rewrite le_len. lia. Qed.
Lemma poke4_out m a v x : ~ (a <= x < a + 4) -> poke m a (le_bytes 4 v) x = m x.
Proof. intros. apply poke_out. rewrite le_len. lia. Qed.
Lemma poke8_quad m a v : quad (poke m a (le_bytes 8 v)) a v. Proof. apply holds_poke. Qed.

Section Load.
Variable base : Z.

Lemma expand_spec f s q n (v : Z -> Z) : forall k t m, t + Z.of_nat k = n -> 0 <= t -> 0 <= q -> q + 8 * n <= s ->
  (forall r, t <= r < n -> word m (q + 4 * n + 4 * r) (v r) /\ 0 <= v r < 2 ^ 32) ->
  exists m', expand f s q n k t m = Some m' /\
    (forall x, ~ (q + 8 * t <= x < q + 8 * n) -> m' x = m x) /\
    (forall r, t <= r < n -> quad m' (q + 8 * r) (f (v r))).
Proof.
  induction k as [|k IH]; intros t m Et Ht Hq Hs Hw.
  - exists m. split; [reflexivity|]. split; [reflexivity|]. intros; lia.
  - cbn [expand]. destruct (Hw t ltac:(lia)) as [W V]. rewrite (rd_word _ _ _ _ W V) by lia. rewrite wr_ok by lia.
    set (m1 := poke m (q + 8 * t) (le_bytes 8 (f (v t)))).
    destruct (IH (t + 1) m1) as (m' & E & O & Q); try lia.
    + intros r Hr. destruct (Hw r ltac:(lia)) as [W1 V1]. split; [|exact V1]. eapply word_ext; [|exact W1].
      intros x Hx. apply poke8_out. lia.
    + exists m'. split; [exact E|]. split.
      * intros x Hx. rewrite O by lia. apply poke8_out. lia.
      * intros r Hr. destruct (Z.eq_dec r t) as [->|Hne]; [|apply Q; lia].
        eapply quad_ext; [|apply poke8_quad]. intros x Hx. apply O. lia.
Qed.

Lemma expand_descs_spec s dd n (v z : Z -> Z) : forall k t m, t + Z.of_nat k = 2 * n -> 0 <= t -> 0 <= dd -> dd + 32 * n <= s ->
  (forall r, t <= r < 2 * n -> word m (dd + 16 * n + 8 * r) (v r) /\ 0 <= v r < 2 ^ 32 /\ word m (dd + 16 * n + 8 * r + 4) (z r) /\ 0 <= z r < 2 ^ 32) ->
  exists m', expand_descs base s k (dd + 16 * t) (dd + 16 * n + 8 * t) m = Some m' /\
    (forall x, ~ (dd + 16 * t <= x < dd + 32 * n) -> m' x = m x) /\
    (forall r, t <= r < 2 * n -> quad m' (dd + 16 * r) (ptr0 base (v r)) /\ quad m' (dd + 16 * r + 8) (z r)).
Proof.
  induction k as [|k IH]; intros t m Et Ht Hq Hs Hw.
  - exists m. split; [reflexivity|]. split; [reflexivity|]. intros; lia.
  - cbn [expand_descs]. destruct (Hw t ltac:(lia)) as (W & V & W2 & V2). rewrite (rd_word _ _ _ _ W V) by lia.
    assert (M1 : exists m1, (if negb (v t =? 0) then wr 8 s m (dd + 16 * t) (ptr base (v t))
        else m' <- wr 8 s m (dd + 16 * t) 0 ;; wr 4 s m' (dd + 16 * n + 8 * t) 0) = Some m1 /\
      (forall x, ~ (dd + 16 * t <= x < dd + 16 * t + 8) -> ~ (dd + 16 * n + 8 * t <= x < dd + 16 * n + 8 * t + 4) -> m1 x = m x) /\
      quad m1 (dd + 16 * t) (ptr0 base (v t))).
    { unfold ptr0. destruct (Z.eqb_spec (v t) 0) as [E0|E0]; cbn [negb].
      - rewrite wr_ok by lia. rewrite wr_ok by lia. eexists. split; [reflexivity|]. split.
        + intros x H1 H2. rewrite poke4_out by lia. apply poke8_out. lia.
        + eapply quad_ext; [|apply poke8_quad]. intros x Hx. apply poke4_out. lia.
      - rewrite wr_ok by lia. eexists. split; [reflexivity|]. split; [intros x H1 _; apply poke8_out; lia|apply poke8_quad]. }
    destruct M1 as (m1 & E1 & O1 & Q1). rewrite E1.
    assert (W3 : word m1 (dd + 16 * n + 8 * t + 4) (z t)) by (eapply word_ext; [|exact W2]; intros x Hx; apply O1; lia).
    rewrite (rd_word _ _ _ _ W3 V2) by lia. rewrite wr_ok by lia.
    set (m2 := poke m1 (dd + 16 * t + 8) (le_bytes 8 (z t))).
    destruct (IH (t + 1) m2) as (m' & E & O & Q); try lia.
    + intros r Hr. destruct (Hw r ltac:(lia)) as (W1 & V1 & W1' & V1'). split; [|split; [exact V1|split; [|exact V1']]].
      * eapply word_ext; [|exact W1]. intros x Hx. unfold m2. rewrite poke8_out by lia. apply O1; lia.
      * eapply word_ext; [|exact W1']. intros x Hx. unfold m2. rewrite poke8_out by lia. apply O1; lia.
    + exists m'. split; [replace (dd + 16 * t + 16) with (dd + 16 * (t + 1)) by lia; replace (dd + 16 * n + 8 * t + 8) with (dd + 16 * n + 8 * (t + 1)) by lia; exact E|]. split.
      * intros x Hx. rewrite O by lia. unfold m2. rewrite poke8_out by lia. apply O1; lia.
      * intros r Hr. destruct (Z.eq_dec r t) as [->|Hne]; [|apply Q; lia]. split.
        -- eapply quad_ext; [|exact Q1]. intros x Hx. rewrite O by lia. apply poke8_out. lia.
        -- eapply quad_ext; [|apply poke8_quad]. intros x Hx. apply O. lia.
Qed.

(** an area, if there is one *)
Definition area (p len x : Z) : Prop := p <> 0 /\ p <= x < p + len.
Ltac away := try first [ reflexivity | lia | assumption
  | match goal with H : forall x, _ -> ~ area ?p ?l x |- ~ area ?p ?l _ => apply H; lia end ].

Lemma load_class_spec s q m n tp np cp ap dp (nv av dv dz : Z -> Z) :
  0 <= q -> q + 56 <= s -> 0 <= n < 2 ^ 27 -> s < 2 ^ 31 ->
  word m (q + 4) n -> word m (q + 32) tp -> word m (q + 36) np -> word m (q + 40) cp -> word m (q + 44) ap -> word m (q + 48) 0 -> word m (q + 52) dp ->
  0 <= tp < 2 ^ 31 -> 0 <= np < 2 ^ 31 -> 0 <= cp < 2 ^ 31 -> 0 <= ap < 2 ^ 31 -> 0 <= dp < 2 ^ 31 ->
  (np <> 0 -> q + 56 <= np /\ np + 8 * n <= s /\ forall r, 0 <= r < n -> word m (np + 4 * n + 4 * r) (nv r) /\ 0 <= nv r < 2 ^ 32) ->
  (ap <> 0 -> q + 56 <= ap /\ ap + 8 * n <= s /\ (np <> 0 -> np + 8 * n <= ap) /\ forall r, 0 <= r < n -> word m (ap + 4 * n + 4 * r) (av r) /\ 0 <= av r < 2 ^ 32) ->
  (dp <> 0 -> q + 56 <= dp /\ dp + 32 * n <= s /\ (np <> 0 -> np + 8 * n <= dp) /\ (ap <> 0 -> ap + 8 * n <= dp) /\
     forall r, 0 <= r < 2 * n -> word m (dp + 16 * n + 8 * r) (dv r) /\ 0 <= dv r < 2 ^ 32 /\ word m (dp + 16 * n + 8 * r + 4) (dz r) /\ 0 <= dz r < 2 ^ 32) ->
  exists m', load_class base s q m = Some m' /\
    (forall x, ~ (q + 8 <= x < q + 56) -> ~ area np (8 * n) x -> ~ area ap (8 * n) x -> ~ area dp (32 * n) x -> m' x = m x) /\
    quad m' (q + 8) (ptr base tp) /\ quad m' (q + 16) (ptr0 base np) /\ quad m' (q + 24) (ptr0 base cp) /\
    quad m' (q + 32) (ptr0 base ap) /\ quad m' (q + 40) 0 /\ quad m' (q + 48) (ptr0 base dp) /\
    (np <> 0 -> forall r, 0 <= r < n -> quad m' (np + 8 * r) (ptr base (nv r))) /\
    (ap <> 0 -> forall r, 0 <= r < n -> quad m' (ap + 8 * r) (ptr0 base (av r))) /\
    (dp <> 0 -> forall r, 0 <= r < 2 * n -> quad m' (dp + 16 * r) (ptr0 base (dv r)) /\ quad m' (dp + 16 * r + 8) (dz r)).
Proof.
  intros Hq Hs Hn Hs31 Wn Wt Wnp Wc Wa Wh Wd Vt Vn Vc Va Vd HN HA HD.
  assert (P31 : 2 ^ 32 = 2 * 2 ^ 31) by reflexivity.
  unfold load_class. rewrite (rd_word _ _ _ _ Wt) by lia. rewrite wr_ok by lia.
  set (m1 := poke m (q + 8) (le_bytes 8 (ptr base tp))).
  assert (O1 : forall x, ~ (q + 8 <= x < q + 16) -> m1 x = m x) by (intros; apply poke8_out; lia).
  assert (Q1 : quad m1 (q + 8) (ptr base tp)) by apply poke8_quad. clearbody m1.
  rewrite (rd_word s m1 (q + 36) np) by (first [lia | eapply word_ext; [|exact Wnp]; intros; apply O1; lia]).
  assert (S2 : exists m2, (if negb (np =? 0) then m <- wr 8 s m1 (q + 16) (ptr base np) ;; n <- rd 4 s m (q + 4) ;; expand (ptr base) s np n (Z.to_nat n) 0 m
     else wr 8 s m1 (q + 16) 0) = Some m2 /\ (forall x, ~ (q + 16 <= x < q + 24) -> ~ area np (8 * n) x -> m2 x = m1 x) /\
     quad m2 (q + 16) (ptr0 base np) /\ (np <> 0 -> forall r, 0 <= r < n -> quad m2 (np + 8 * r) (ptr base (nv r)))).
  { unfold ptr0. destruct (Z.eqb_spec np 0) as [E0|E0]; cbn [negb].
    - rewrite wr_ok by lia. eexists. split; [reflexivity|]. split; [intros x H1 _; apply poke8_out; lia|]. split; [apply poke8_quad|contradiction].
    - destruct (HN E0) as (L1 & L2 & HW). rewrite wr_ok by lia. set (m1' := poke m1 (q + 16) (le_bytes 8 (ptr base np))).
      rewrite (rd_word s m1' (q + 4) n) by (first [lia | eapply word_ext; [|exact Wn]; intros; unfold m1'; rewrite poke8_out by lia; apply O1; lia]).
      destruct (expand_spec (ptr base) s np n nv (Z.to_nat n) 0 m1') as (m2 & E & O & Q); try lia.
      { intros r Hr. destruct (HW r ltac:(lia)) as [W V]. split; [|exact V]. eapply word_ext; [|exact W]. intros x Hx. unfold m1'. rewrite poke8_out by lia. apply O1. lia. }
      exists m2. split; [exact E|]. split; [|split; [|intros _ r Hr; apply Q; lia]].
      + intros x H1 H2. unfold area in H2. rewrite O by lia. apply poke8_out. lia.
      + eapply quad_ext; [|apply poke8_quad]. intros x Hx. apply O. lia. }
  destruct S2 as (m2 & -> & O2 & Q2 & R2).
  assert (NA : forall x, q <= x < q + 56 -> ~ area np (8 * n) x) by (intros x Hx [Ha Hb]; destruct (HN Ha) as (L & _); lia).
  assert (AA : forall x, q <= x < q + 56 -> ~ area ap (8 * n) x) by (intros x Hx [Ha Hb]; destruct (HA Ha) as (L & _); lia).
  assert (DA : forall x, q <= x < q + 56 -> ~ area dp (32 * n) x) by (intros x Hx [Ha Hb]; destruct (HD Ha) as (L & _); lia).
  rewrite (rd_word s m2 (q + 40) cp) by (first [lia | eapply word_ext; [|exact Wc]; intros; rewrite O2, O1; away]).
  rewrite wr_ok by lia. set (m3 := poke m2 (q + 24) (le_bytes 8 (ptr0 base cp))).
  assert (O3 : forall x, ~ (q + 24 <= x < q + 32) -> m3 x = m2 x) by (intros; apply poke8_out; lia).
  assert (Q3 : quad m3 (q + 24) (ptr0 base cp)) by apply poke8_quad. clearbody m3.
  rewrite (rd_word s m3 (q + 44) ap) by (first [lia | eapply word_ext; [|exact Wa]; intros; rewrite O3, O2, O1; away]).
  assert (S4 : exists m4, (if negb (ap =? 0) then m <- wr 8 s m3 (q + 32) (ptr base ap) ;; n <- rd 4 s m (q + 4) ;; expand (ptr0 base) s ap n (Z.to_nat n) 0 m
     else wr 8 s m3 (q + 32) 0) = Some m4 /\ (forall x, ~ (q + 32 <= x < q + 40) -> ~ area ap (8 * n) x -> m4 x = m3 x) /\
     quad m4 (q + 32) (ptr0 base ap) /\ (ap <> 0 -> forall r, 0 <= r < n -> quad m4 (ap + 8 * r) (ptr0 base (av r)))).
  { unfold ptr0 at 2. destruct (Z.eqb_spec ap 0) as [E0|E0]; cbn [negb].
    - rewrite wr_ok by lia. eexists. split; [reflexivity|]. split; [intros x H1 _; apply poke8_out; lia|]. split; [apply poke8_quad|contradiction].
    - destruct (HA E0) as (L1 & L2 & L3 & HW). rewrite wr_ok by lia. set (m3' := poke m3 (q + 32) (le_bytes 8 (ptr base ap))).
      rewrite (rd_word s m3' (q + 4) n) by (first [lia | eapply word_ext; [|exact Wn]; intros; unfold m3'; rewrite poke8_out by lia; rewrite O3, O2, O1; away]).
      destruct (expand_spec (ptr0 base) s ap n av (Z.to_nat n) 0 m3') as (m4 & E & O & Q); try lia.
      { intros r Hr. destruct (HW r ltac:(lia)) as [W V]. split; [|exact V]. eapply word_ext; [|exact W]. intros x Hx. unfold m3'. rewrite poke8_out by lia.
        rewrite O3, O2, O1; away. intros [Ha Hb]. specialize (L3 Ha). lia. }
      exists m4. split; [exact E|]. split; [|split; [|intros _ r Hr; apply Q; lia]].
      + intros x H1 H2. unfold area in H2. rewrite O by lia. apply poke8_out. lia.
      + eapply quad_ext; [|apply poke8_quad]. intros x Hx. apply O. lia. }
  destruct S4 as (m4 & -> & O4 & Q4 & R4).
  rewrite (rd_word s m4 (q + 48) 0) by (first [lia | eapply word_ext; [|exact Wh]; intros; rewrite O4, O3, O2, O1; away]).
  cbn [Z.eqb negb]. rewrite wr_ok by lia. set (m5 := poke m4 (q + 40) (le_bytes 8 0)).
  assert (O5 : forall x, ~ (q + 40 <= x < q + 48) -> m5 x = m4 x) by (intros; apply poke8_out; lia).
  assert (Q5 : quad m5 (q + 40) 0) by apply poke8_quad. clearbody m5.
  rewrite (rd_word s m5 (q + 52) dp) by (first [lia | eapply word_ext; [|exact Wd]; intros; rewrite O5, O4, O3, O2, O1; away]).
  assert (S6 : exists m6, (if negb (dp =? 0) then m <- wr 8 s m5 (q + 48) (ptr base dp) ;; n <- rd 4 s m (q + 4) ;;
       expand_descs base s (Z.to_nat (u32 (n * 2))) dp (dp + 4 * u32 (n * 4)) m
     else wr 8 s m5 (q + 48) 0) = Some m6 /\ (forall x, ~ (q + 48 <= x < q + 56) -> ~ area dp (32 * n) x -> m6 x = m5 x) /\
     quad m6 (q + 48) (ptr0 base dp) /\ (dp <> 0 -> forall r, 0 <= r < 2 * n -> quad m6 (dp + 16 * r) (ptr0 base (dv r)) /\ quad m6 (dp + 16 * r + 8) (dz r))).
  { unfold ptr0 at 1. destruct (Z.eqb_spec dp 0) as [E0|E0]; cbn [negb].
    - rewrite wr_ok by lia. eexists. split; [reflexivity|]. split; [intros x H1 _; apply poke8_out; lia|]. split; [apply poke8_quad|contradiction].
    - destruct (HD E0) as (L1 & L2 & L3 & L4 & HW). rewrite wr_ok by lia. set (m5' := poke m5 (q + 48) (le_bytes 8 (ptr base dp))).
      rewrite (rd_word s m5' (q + 4) n) by (first [lia | eapply word_ext; [|exact Wn]; intros; unfold m5'; rewrite poke8_out by lia; rewrite O5, O4, O3, O2, O1; away]).
      assert (P27 : 2 ^ 32 = 32 * 2 ^ 27) by reflexivity.
      replace (u32 (n * 2)) with (2 * n) by (unfold u32; rewrite wrap_small; lia). replace (u32 (n * 4)) with (4 * n) by (unfold u32; rewrite wrap_small; lia).
      destruct (expand_descs_spec s dp n dv dz (Z.to_nat (2 * n)) 0 m5') as (m6 & E & O & Q); try lia.
      { intros r Hr. destruct (HW r ltac:(lia)) as (W & V & W' & V').
        assert (X : forall x, dp + 16 * n + 8 * r <= x < dp + 16 * n + 8 * r + 8 -> m5' x = m x).
        { intros x Hx. unfold m5'. rewrite poke8_out by lia.
          rewrite O5, O4, O3, O2, O1; away; intros [Ha Hb]; [specialize (L3 Ha)|specialize (L4 Ha)]; lia. }
        split; [|split; [exact V|split; [|exact V']]]; (eapply word_ext; [|eassumption]); intros x Hx; apply X; lia. }
      exists m6. split; [|split; [|split; [|intros _ r Hr; apply Q; lia]]].
      + replace (dp + 4 * (4 * n)) with (dp + 16 * n + 8 * 0) by lia. replace dp with (dp + 16 * 0) at 1 by lia. exact E.
      + intros x H1 H2. unfold area in H2. rewrite O by lia. apply poke8_out. lia.
      + eapply quad_ext; [|apply poke8_quad]. intros x Hx. apply O. lia. }
  destruct S6 as (m6 & E6 & O6 & Q6 & R6). exists m6. split; [exact E6|].
  split.
  { intros x H1 H2 H3 H4. rewrite O6, O5, O4, O3, O2, O1; away. }
  assert (K : forall a v, q <= a -> a + 8 <= q + 56 -> forall mm, quad mm a v -> (forall x, a <= x < a + 8 -> m6 x = mm x) -> quad m6 a v) by (intros; eapply quad_ext; eauto).
  split. { eapply quad_ext; [|exact Q1]. intros x Hx. rewrite O6, O5, O4, O3, O2; away. }
  split. { eapply quad_ext; [|exact Q2]. intros x Hx. rewrite O6, O5, O4, O3; away. }
  split. { eapply quad_ext; [|exact Q3]. intros x Hx. rewrite O6, O5, O4; away. }
  split. { eapply quad_ext; [|exact Q4]. intros x Hx. rewrite O6, O5; away. }
  split. { eapply quad_ext; [|exact Q5]. intros x Hx. rewrite O6; away. }
  split; [exact Q6|]. split; [|split].
  - intros H0 r Hr. destruct (HN H0) as (L1 & L2 & _). eapply quad_ext; [|apply (R2 H0 r Hr)]. intros x Hx.
    rewrite O6, O5, O4, O3; away.
    + intros [Ha Hb]. destruct (HA Ha) as (_ & _ & L3 & _). specialize (L3 H0). lia.
    + intros [Ha Hb]. destruct (HD Ha) as (_ & _ & L3 & _). specialize (L3 H0). lia.
  - intros H0 r Hr. destruct (HA H0) as (L1 & L2 & _). eapply quad_ext; [|apply (R4 H0 r Hr)]. intros x Hx.
    rewrite O6, O5; away.
    intros [Ha Hb]. destruct (HD Ha) as (_ & _ & _ & L3 & _). specialize (L3 H0). lia.
  - exact R6.
Qed.
End Load.
