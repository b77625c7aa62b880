(** Proofs about the writer of RefDb_Model: what a sequence of calls leaves in the file. *)
From Coq Require Import String Ascii Sorting.Sorted.
From Verif Require Import Base Dds_Model RefDb_Model.
Local Open Scope Z_scope.

Lemma zlen_app {A} (x y : list A) : Z.of_nat (length (x ++ y)) = Z.of_nat (length x) + Z.of_nat (length y).
Proof. rewrite app_length. lia. Qed.
Definition zlen {A} (l : list A) : Z := Z.of_nat (length l).
Lemma zlen_nonneg {A} (l : list A) : 0 <= zlen l. Proof. unfold zlen. lia. Qed.
Lemma zlen_zeros n : 0 <= n -> zlen (zeros n) = n.
Proof. intros. unfold zlen, zeros. rewrite repeat_length. lia. Qed.

(* ---------- contents ---------- *)
Definition obytes (p : Z) (o : op) : list Z :=
  match o with Wr bs => bs | Sk n => zeros n | Pad8 => zeros ((- p) mod 8) | _ => [] end.
Fixpoint content (p : Z) (ops : list op) : list Z :=
  match ops with [] => [] | o :: r => obytes p o ++ content (p + zlen (obytes p o)) r end.
Lemma content_app p a b : content p (a ++ b) = content p a ++ content (p + zlen (content p a)) b.
Proof.
  revert p. induction a as [|o a IH]; intros p; cbn [app content].
  - change (zlen (@nil Z)) with 0. rewrite Z.add_0_r. reflexivity.
  - rewrite IH, <- app_assoc. do 2 f_equal. unfold zlen. rewrite zlen_app. f_equal. lia.
Qed.
Definition pos (ops : list op) : Z := zlen (content 0 ops).
Lemma pos_nonneg o : 0 <= pos o. Proof. apply zlen_nonneg. Qed.
Lemma pos_app a b : pos (a ++ b) = pos a + zlen (content (pos a) b).
Proof. unfold pos. rewrite content_app. unfold zlen at 1. rewrite zlen_app. reflexivity. Qed.
Lemma pos_le a b : pos a <= pos (a ++ b).
Proof. rewrite pos_app. pose proof (zlen_nonneg (content (pos a) b)). lia. Qed.

Definition op_ok (o : op) : Prop := match o with Sk n => 0 <= n < 2 ^ 31 | _ => True end.

(* ---------- pointers and destinations ---------- *)
Fixpoint ptrs (k : kind) (p : Z) (ops : list op) : list Z :=
  match ops with
  | [] => []
  | o :: r => (match o with AddP k' => if kind_eqb k k' then [p] else [] | _ => [] end) ++ ptrs k (p + zlen (obytes p o)) r
  end.
Fixpoint dests (k : kind) (p : Z) (ops : list op) : list Z :=
  match ops with
  | [] => []
  | o :: r => (match o with FixD k' => if kind_eqb k k' then [p] else [] | _ => [] end) ++ dests k (p + zlen (obytes p o)) r
  end.
Lemma ptrs_app k p a b : ptrs k p (a ++ b) = ptrs k p a ++ ptrs k (p + zlen (content p a)) b.
Proof.
  revert p. induction a as [|o a IH]; intros p; cbn [app content ptrs].
  - change (zlen (@nil Z)) with 0. rewrite Z.add_0_r. reflexivity.
  - rewrite IH, <- app_assoc. do 2 f_equal. unfold zlen. rewrite zlen_app. f_equal. lia.
Qed.
Lemma dests_app k p a b : dests k p (a ++ b) = dests k p a ++ dests k (p + zlen (content p a)) b.
Proof.
  revert p. induction a as [|o a IH]; intros p; cbn [app content dests].
  - change (zlen (@nil Z)) with 0. rewrite Z.add_0_r. reflexivity.
  - rewrite IH, <- app_assoc. do 2 f_equal. unfold zlen. rewrite zlen_app. f_equal. lia.
Qed.
(** how many there are *)
Fixpoint np (k : kind) (ops : list op) : Z :=
  match ops with [] => 0 | o :: r => (match o with AddP k' => if kind_eqb k k' then 1 else 0 | _ => 0 end) + np k r end.
Fixpoint nd (k : kind) (ops : list op) : Z :=
  match ops with [] => 0 | o :: r => (match o with FixD k' => if kind_eqb k k' then 1 else 0 | _ => 0 end) + nd k r end.
Lemma np_len k ops : forall p, zlen (ptrs k p ops) = np k ops.
Proof.
  induction ops as [|o r IH]; intros p; [reflexivity|]. cbn [ptrs np]. unfold zlen in *. rewrite zlen_app, IH.
  destruct o; try reflexivity. destruct (kind_eqb k k0); reflexivity.
Qed.
Lemma nd_len k ops : forall p, zlen (dests k p ops) = nd k ops.
Proof.
  induction ops as [|o r IH]; intros p; [reflexivity|]. cbn [dests nd]. unfold zlen in *. rewrite zlen_app, IH.
  destruct o; try reflexivity. destruct (kind_eqb k k0); reflexivity.
Qed.
Lemma np_app k a b : np k (a ++ b) = np k a + np k b.
Proof. induction a as [|o a IH]; cbn [app np]; [reflexivity|]. rewrite IH. lia. Qed.
Lemma nd_app k a b : nd k (a ++ b) = nd k a + nd k b.
Proof. induction a as [|o a IH]; cbn [app nd]; [reflexivity|]. rewrite IH. lia. Qed.
Lemma np_nonneg k a : 0 <= np k a.
Proof. rewrite <- (np_len k a 0). apply zlen_nonneg. Qed.
Lemma nd_nonneg k a : 0 <= nd k a.
Proof. rewrite <- (nd_len k a 0). apply zlen_nonneg. Qed.

Lemma kind_eqb_eq a b : kind_eqb a b = true <-> a = b.
Proof. destruct a, b; cbn; split; congruence. Qed.
Lemma kind_eqb_refl a : kind_eqb a a = true. Proof. now destruct a. Qed.

(** pointers with the destinations given so far *)
Fixpoint fill (ps ds : list Z) : list (Z * Z) :=
  match ps, ds with
  | [], _ => []
  | p :: ps', [] => (p, 0) :: fill ps' []
  | p :: ps', d :: ds' => (p, d) :: fill ps' ds'
  end.
Lemma fill_length ps : forall ds, length (fill ps ds) = length ps.
Proof. induction ps; intros [|d ds]; cbn; auto. Qed.
Lemma fill_snoc ps : forall ds p, (length ds <= length ps)%nat -> fill (ps ++ [p]) ds = fill ps ds ++ [(p, 0)].
Proof.
  induction ps as [|a ps IH]; intros ds p H; destruct ds as [|d ds]; cbn in *; try reflexivity; try lia.
  - f_equal. apply IH. cbn. lia.
  - f_equal. apply IH. lia.
Qed.
Lemma set_dest_fill ps : forall ds d, (length ds < length ps)%nat -> set_dest (fill ps ds) (length ds) d = fill ps (ds ++ [d]).
Proof.
  induction ps as [|a ps IH]; intros ds d H; destruct ds as [|e ds]; cbn in *; try lia; [reflexivity|].
  f_equal. apply IH. lia.
Qed.
Definition has (f : Fixups) (ps ds : list Z) : Prop := f = Fx (fill ps ds) (length ds) /\ (length ds <= length ps)%nat.

Lemma mod8 t : (if t mod 8 =? 0 then 0 else 8 - t mod 8) = (- t) mod 8.
Proof. destruct (Z.eqb_spec (t mod 8) 0); lia. Qed.
Lemma sgn_id n : 0 <= n < 2 ^ 31 -> sgn 32 n = n.
Proof. intros. apply sgn_small; [lia|]. unfold is_sword. change (2 ^ (32 - 1)) with (2 ^ 31). lia. Qed.
Lemma skip_ok n w : 0 <= n < 2 ^ 31 -> skip n w = Some (put (zeros n) w).
Proof. intros H. unfold skip. rewrite sgn_id by assumption. destruct (Z.ltb_spec n 0); [lia|reflexivity]. Qed.

Lemma tell_put bs w : tell (put bs w) = tell w + zlen bs.
Proof. unfold tell, put, zlen. cbn [out]. rewrite zlen_app. reflexivity. Qed.

(** one call *)
Lemma step_spec o w P D : op_ok o -> tell w < 2 ^ 31 ->
  (forall k, has (fx w k) (P k) (D k)) ->
  (forall k, o = FixD k -> (length (D k) < length (P k))%nat) ->
  exists w', step o w = Some w' /\ out w' = out w ++ obytes (tell w) o /\
    (forall k, has (fx w' k) (P k ++ ptrs k (tell w) [o]) (D k ++ dests k (tell w) [o])).
Proof.
  intros Hok Ht Hh Hd.
  assert (Hu : u32 (tell w) = tell w).
  { apply wrap_small. split; [unfold tell; lia|]. change (2 ^ 32) with (2 * 2 ^ 31). lia. }
  destruct o as [bs|n| |k|k].
  - exists (put bs w). split; [reflexivity|]. split; [reflexivity|].
    intros k. cbn [ptrs dests app]. rewrite !app_nil_r. apply Hh.
  - exists (put (zeros n) w). cbn [step op_ok] in *. split; [now apply skip_ok|]. split; [reflexivity|].
    intros k. cbn [ptrs dests app]. rewrite !app_nil_r. apply Hh.
  - cbn [step]. cbn [obytes]. pose proof (mod8 (tell w)) as M.
    destruct (Z.eqb_spec (tell w mod 8) 0) as [E|E].
    + exists w. split; [reflexivity|]. rewrite <- M. cbn [zeros]. split; [cbn; now rewrite app_nil_r|].
      intros k. cbn [ptrs dests app]. rewrite !app_nil_r. apply Hh.
    + exists (put (zeros (8 - tell w mod 8)) w). split; [apply skip_ok; lia|]. rewrite <- M. split; [reflexivity|].
      intros k. cbn [ptrs dests app]. rewrite !app_nil_r. apply Hh.
  - cbn [step]. eexists. split; [reflexivity|]. cbn [out obytes]. split; [now rewrite app_nil_r|].
    intros k'. cbn [fx]. unfold set_fx. cbn [ptrs dests app]. rewrite !app_nil_r.
    destruct (kind_eqb k k') eqn:E.
    + apply kind_eqb_eq in E. subst k'. rewrite kind_eqb_refl. destruct (Hh k) as [E1 L1].
      split; [|rewrite app_length; cbn; lia]. rewrite E1. cbn [fixups fixupIter]. rewrite Hu, fill_snoc by assumption. reflexivity.
    + assert (E' : kind_eqb k' k = false) by (destruct k, k'; cbn in *; congruence). rewrite E'. rewrite app_nil_r. apply Hh.
  - cbn [step]. destruct (Hh k) as [E1 L1]. rewrite E1. cbn [fixups fixupIter]. rewrite fill_length.
    specialize (Hd k eq_refl). destruct (Nat.ltb_spec (length (D k)) (length (P k))); [|lia].
    eexists. split; [reflexivity|]. cbn [out obytes]. split; [now rewrite app_nil_r|].
    intros k'. cbn [fx]. unfold set_fx. cbn [ptrs dests app]. rewrite !app_nil_r.
    destruct (kind_eqb k k') eqn:E.
    + apply kind_eqb_eq in E. subst k'. rewrite kind_eqb_refl.
      split; [|rewrite app_length; cbn; lia]. rewrite Hu, set_dest_fill by assumption. rewrite app_length. cbn [length].
      f_equal. lia.
    + assert (E' : kind_eqb k' k = false) by (destruct k, k'; cbn in *; congruence). rewrite E'. rewrite app_nil_r. apply Hh.
Qed.

(** a sequence of calls, which asks for no more destinations than there are open pointers at its start *)
Lemma exec_spec ops : forall w P D, Forall op_ok ops -> tell w + zlen (content (tell w) ops) < 2 ^ 31 ->
  (forall k, has (fx w k) (P k) (D k)) ->
  (forall k, zlen (D k) + nd k ops <= zlen (P k)) ->
  exists w', exec ops w = Some w' /\ out w' = out w ++ content (tell w) ops /\
    (forall k, has (fx w' k) (P k ++ ptrs k (tell w) ops) (D k ++ dests k (tell w) ops)).
Proof.
  induction ops as [|o r IH]; intros w P D Hok Ht Hh Hd.
  - exists w. cbn [exec content ptrs dests]. split; [reflexivity|]. split; [now rewrite app_nil_r|].
    intros k. rewrite !app_nil_r. apply Hh.
  - inversion Hok as [|? ? Ho Hr]; subst. cbn [content] in Ht. unfold zlen in Ht at 1. rewrite zlen_app in Ht.
    destruct (step_spec o w P D Ho) as (w1 & E1 & O1 & H1).
    + lia.
    + exact Hh.
    + intros k ->. specialize (Hd k). cbn [nd] in Hd. rewrite kind_eqb_refl in Hd. pose proof (nd_nonneg k r).
      unfold zlen in Hd. lia.
    + assert (T1 : tell w1 = tell w + zlen (obytes (tell w) o)).
      { unfold tell. rewrite O1, zlen_app. reflexivity. }
      destruct (IH w1 (fun k => P k ++ ptrs k (tell w) [o]) (fun k => D k ++ dests k (tell w) [o]) Hr) as (w2 & E2 & O2 & H2).
      * rewrite T1. unfold zlen in *. lia.
      * exact H1.
      * intros k. specialize (Hd k). cbn [nd] in Hd. pose proof (np_len k [o] (tell w)). pose proof (np_nonneg k [o]).
        pose proof (nd_len k [o] (tell w)) as N. cbn [nd] in N. unfold zlen in *. rewrite !zlen_app. lia.
      * exists w2. cbn [exec]. rewrite E1. split; [exact E2|]. cbn [content ptrs dests]. split.
        -- rewrite O2, O1, T1, <- app_assoc. reflexivity.
        -- intros k. specialize (H2 k). rewrite T1 in H2. cbn [ptrs dests] in H2. rewrite !app_nil_r in H2.
           rewrite <- !app_assoc in H2. exact H2.
Qed.

(* ---------- memory ---------- *)
Definition holds (m : mem) (a : Z) (bs : list Z) : Prop :=
  forall i, (i < length bs)%nat -> m (a + Z.of_nat i) = nth i bs 0.
Lemma peek_length m a n : length (peek m a n) = n.
Proof. unfold peek. rewrite map_length, seq_length. reflexivity. Qed.
Lemma peek_nth m a n i : (i < n)%nat -> nth i (peek m a n) 0 = m (a + Z.of_nat i).
Proof.
  intros H. unfold peek. rewrite (nth_indep _ 0 (m (a + Z.of_nat 0))) by (rewrite map_length, seq_length; lia).
  rewrite (map_nth (fun i => m (a + Z.of_nat i))), seq_nth by lia. reflexivity.
Qed.
Lemma list_eq_nth (x y : list Z) : length x = length y -> (forall i, (i < length x)%nat -> nth i x 0 = nth i y 0) -> x = y.
Proof. intros. now apply (nth_ext _ _ 0 0). Qed.
Lemma holds_peek m a bs : holds m a bs -> peek m a (length bs) = bs.
Proof.
  intros H. apply list_eq_nth; [apply peek_length|]. intros i Hi. rewrite peek_length in Hi. rewrite peek_nth by assumption. now apply H.
Qed.
Lemma peek_holds m a n : holds m a (peek m a n).
Proof. intros i Hi. rewrite peek_length in Hi. now rewrite peek_nth. Qed.
Lemma holds_ext m m' a bs : (forall x, a <= x < a + zlen bs -> m' x = m x) -> holds m a bs -> holds m' a bs.
Proof. intros H Hh i Hi. rewrite H by (unfold zlen; lia). now apply Hh. Qed.
Lemma holds_app m a x y : holds m a (x ++ y) <-> holds m a x /\ holds m (a + zlen x) y.
Proof.
  unfold holds. split.
  - intros H. split.
    + intros i Hi. rewrite H by (rewrite app_length; lia). now rewrite app_nth1.
    + intros i Hi. unfold zlen. replace (a + Z.of_nat (length x) + Z.of_nat i) with (a + Z.of_nat (length x + i)) by lia.
      rewrite H by (rewrite app_length; lia). rewrite app_nth2 by lia. f_equal. lia.
  - intros [H1 H2] i Hi. rewrite app_length in Hi. destruct (Nat.lt_ge_cases i (length x)).
    + rewrite H1 by assumption. now rewrite app_nth1.
    + rewrite app_nth2 by lia. rewrite <- H2 by lia. f_equal. unfold zlen. lia.
Qed.
Lemma poke_in m a bs x : a <= x < a + zlen bs -> poke m a bs x = nth (Z.to_nat (x - a)) bs 0.
Proof. intros H. unfold poke, zlen in *. destruct (Z.leb_spec a x); [|lia]. destruct (Z.ltb_spec x (a + Z.of_nat (length bs))); [reflexivity|lia]. Qed.
Lemma poke_out m a bs x : ~ (a <= x < a + zlen bs) -> poke m a bs x = m x.
Proof. intros H. unfold poke, zlen in *. destruct (Z.leb_spec a x); [|reflexivity]. destruct (Z.ltb_spec x (a + Z.of_nat (length bs))); [lia|reflexivity]. Qed.
Lemma holds_poke m a bs : holds (poke m a bs) a bs.
Proof. intros i Hi. rewrite poke_in by (unfold zlen; lia). f_equal. lia. Qed.
Lemma to_mem_holds l : holds (to_mem l) 0 l.
Proof. intros i Hi. unfold to_mem. destruct (Z.ltb_spec (0 + Z.of_nat i) 0); [lia|]. f_equal. lia. Qed.
Lemma le_len n v : zlen (le_bytes n v) = Z.of_nat n.
Proof. unfold zlen. f_equal. revert v. induction n; intros v; cbn; auto. Qed.
Lemma le_length n v : length (le_bytes n v) = n.
Proof. revert v. induction n; intros v; cbn; auto. Qed.

(* ---------- slots ---------- *)
(** every pointer is followed at once by the four bytes left for it *)
Fixpoint slots_ok (ops : list op) : Prop :=
  match ops with
  | [] => True
  | AddP _ :: r => match r with Sk 4 :: r' => slots_ok r' | _ => False end
  | _ :: r => slots_ok r
  end.
Lemma slots_ok_ind (Q : list op -> Prop) :
  Q [] -> (forall k r, slots_ok r -> Q r -> Q (AddP k :: Sk 4 :: r)) ->
  (forall o r, (forall k, o <> AddP k) -> slots_ok r -> Q r -> Q (o :: r)) -> forall ops, slots_ok ops -> Q ops.
Proof.
  intros H0 H1 H2 ops. remember (length ops) as n. revert ops Heqn.
  induction n as [n IH] using lt_wf_ind. intros ops -> H. destruct ops as [|o r]; [exact H0|].
  destruct o as [bs|n| |k|k]; try (cbn [slots_ok] in H; apply H2; [intros; discriminate|exact H|]; eapply IH; [|reflexivity|exact H]; cbn; lia).
  cbn [slots_ok] in H. destruct r as [|o' r']; [contradiction|]. destruct o' as [|n| | |]; try contradiction.
  destruct (Z.eq_dec n 4) as [->|Hn].
  - apply H1; [exact H|]. eapply IH; [|reflexivity|exact H]. cbn. lia.
  - exfalso. destruct n as [|[[]|[[]|[]|]|]|]; try contradiction; lia.
Qed.
Lemma slots_ok_app a b : slots_ok a -> slots_ok b -> slots_ok (a ++ b).
Proof.
  intros Ha Hb. pattern a. apply slots_ok_ind; [exact Hb| | |exact Ha].
  - intros k r _ H. exact H.
  - intros o r Ho _ H. destruct o; cbn; try exact H. exfalso. now apply (Ho k).
Qed.
Lemma slots_ok_flat {A} (f : A -> list op) l : (forall x, slots_ok (f x)) -> slots_ok (flat_map f l).
Proof. intros H. induction l; [exact I|]. cbn. now apply slots_ok_app. Qed.

Lemma slots_after ops : slots_ok ops -> forall A k B, ops = A ++ AddP k :: B -> exists B', B = Sk 4 :: B'.
Proof.
  intros H. pattern ops. apply slots_ok_ind; [..|exact H].
  - intros A k B E. destruct A; discriminate.
  - intros k r _ IH A k' B E. destruct A as [|x [|y A]].
    + injection E as -> <-. eauto.
    + discriminate.
    + injection E as <- <- E. eauto.
  - intros o r Ho _ IH A k B E. destruct A as [|x A].
    + injection E as -> _. exfalso. now apply (Ho k).
    + injection E as <- E. eauto.
Qed.

Lemma ptrs_ge k ops : forall p, Forall (fun x => p <= x) (ptrs k p ops).
Proof.
  induction ops as [|o r IH]; intros p; [constructor|]. cbn [ptrs]. apply Forall_app. split.
  - destruct o; try constructor. destruct (kind_eqb k k0); constructor; [lia|constructor].
  - eapply Forall_impl; [|apply IH]. intros x Hx. cbn beta in *. pose proof (zlen_nonneg (obytes p o)). lia.
Qed.
Lemma ptrs_spaced k ops : slots_ok ops -> forall p, StronglySorted (fun a b => a + 4 <= b) (ptrs k p ops).
Proof.
  intros H. pattern ops. apply slots_ok_ind; [..|exact H].
  - constructor.
  - intros k' r _ IH p. cbn [ptrs obytes]. change (zlen (@nil Z)) with 0. rewrite Z.add_0_r. change (zlen (zeros 4)) with 4.
    cbn [app]. destruct (kind_eqb k k'); [|apply IH]. cbn [app]. constructor; [apply IH|]. apply ptrs_ge.
  - intros o r Ho _ IH p. cbn [ptrs]. destruct o; try apply IH. exfalso. now apply (Ho k0).
Qed.
Lemma ptrs_split k ops : forall p x, In x (ptrs k p ops) ->
  exists A B, ops = A ++ AddP k :: B /\ x = p + zlen (content p A).
Proof.
  induction ops as [|o r IH]; intros p x Hi; [contradiction|]. cbn [ptrs] in Hi. apply in_app_iff in Hi as [Hi|Hi].
  - destruct o; try contradiction. destruct (kind_eqb k k0) eqn:E; [|contradiction]. apply kind_eqb_eq in E. subst k0.
    destruct Hi as [<-|[]]. exists [], r. split; [reflexivity|]. cbn. lia.
  - destruct (IH _ _ Hi) as (A & B & E & Ex). exists (o :: A), B. split; [now rewrite E|]. cbn [content].
    unfold zlen at 1. rewrite zlen_app. unfold zlen in *. lia.
Qed.
Lemma ptrs_at k A B : nth_error (ptrs k 0 (A ++ AddP k :: B)) (Z.to_nat (np k A)) = Some (pos A).
Proof.
  rewrite ptrs_app. rewrite nth_error_app2; rewrite <- (np_len k A 0); unfold zlen; [|lia].
  rewrite Nat2Z.id, Nat.sub_diag. cbn [ptrs]. rewrite kind_eqb_refl. cbn. reflexivity.
Qed.
Lemma dests_at k A B : nth_error (dests k 0 (A ++ FixD k :: B)) (Z.to_nat (nd k A)) = Some (pos A).
Proof.
  rewrite dests_app. rewrite nth_error_app2; rewrite <- (nd_len k A 0); unfold zlen; [|lia].
  rewrite Nat2Z.id, Nat.sub_diag. cbn [dests]. rewrite kind_eqb_refl. cbn. reflexivity.
Qed.

(** writing the fixups *)
Lemma write_other ps : forall ds m x it, (forall p, In p ps -> ~ (p <= x < p + 4)) -> write_fixups (Fx (fill ps ds) it) m x = m x.
Proof.
  unfold write_fixups. cbn [fixups]. induction ps as [|p ps IH]; intros ds m x it H; [reflexivity|].
  assert (Hp : ~ (p <= x < p + 4)) by (apply H; now left).
  assert (Hr : forall q, In q ps -> ~ (q <= x < q + 4)) by (intros; apply H; now right).
  destruct ds as [|d ds]; cbn [fill fold_left fst snd]; rewrite IH by auto; rewrite poke_out; try reflexivity; rewrite le_len; lia.
Qed.
Lemma write_at ps : forall ds m i p d it, StronglySorted (fun a b => a + 4 <= b) ps ->
  nth_error ps i = Some p -> nth_error ds i = Some d -> holds (write_fixups (Fx (fill ps ds) it) m) p (le_bytes 4 d).
Proof.
  induction ps as [|q ps IH]; intros ds m i p d it Hs Hp Hd; [destruct i; discriminate|].
  destruct ds as [|e ds]; [destruct i; discriminate|]. inversion Hs as [|? ? Hs' Hf]; subst.
  destruct i as [|i]; cbn [nth_error] in Hp, Hd.
  - injection Hp as ->. injection Hd as ->. eapply holds_ext; [|apply holds_poke].
    intros x Hx. rewrite le_len in Hx. unfold write_fixups. cbn [fixups fill fold_left fst snd].
    apply (write_other ps ds _ x it). intros r Hr. rewrite Forall_forall in Hf. specialize (Hf _ Hr). lia.
  - apply (IH ds (poke m q (le_bytes 4 e)) i p d it Hs' Hp Hd).
Qed.
