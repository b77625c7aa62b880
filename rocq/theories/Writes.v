(** Sequences of stores into a buffer (a list of bytes); nothing here models project code. *)
From Verif Require Import Base Reflector_Model Reflector_Spec Reflector_Proof.

(** a store: address and the bytes put there *)
Definition write : Type := nat * list Z.
Fixpoint writes (ws : list write) (buf : list Z) : option (list Z) :=
  match ws with
  | [] => Some buf
  | (a, bs) :: r => match store bs a buf with Some b' => writes r b' | None => None end
  end.

(** byte i of the store *)
Definition at_write (w : write) (i : nat) : option Z :=
  if (fst w <=? i)%nat then nth_error (snd w) (i - fst w) else None.
(** the last of the stores that touches address i *)
Fixpoint last_write (ws : list write) (i : nat) : option Z :=
  match ws with
  | [] => None
  | w :: r => match last_write r i with Some v => Some v | None => at_write w i end
  end.

Lemma store_nth bs a buf buf' i : store bs a buf = Some buf' ->
  nth_error buf' i = match at_write (a, bs) i with Some v => Some v | None => nth_error buf i end.
Proof.
  intros H. apply store_inv in H as (Hin & (u & m & z & -> & Hu & Hm & ->)). subst a.
  unfold at_write. cbn [fst snd]. destruct (Nat.leb_spec (length u) i).
  - rewrite nth_error_app2 by lia. destruct (Nat.lt_ge_cases (i - length u) (length bs)).
    + rewrite nth_error_app1 by lia. destruct (nth_error bs (i - length u)) eqn:E; [reflexivity|].
      apply nth_error_None in E. lia.
    + rewrite nth_error_app2 by lia. destruct (nth_error bs (i - length u)) eqn:E.
      * assert (nth_error bs (i - length u) <> None) by congruence. apply nth_error_Some in H1. lia.
      * rewrite (nth_error_app2 u) by lia. rewrite nth_error_app2 by lia. f_equal. lia.
  - rewrite !nth_error_app1 by lia. reflexivity.
Qed.

Lemma store_len bs a buf buf' : store bs a buf = Some buf' -> length buf' = length buf.
Proof. intros H. apply store_inv in H as (_ & R). now apply replaced_length in R. Qed.

Lemma writes_ok ws : forall buf, Forall (fun w => inside (fst w) (length (snd w)) buf) ws ->
  exists buf', writes ws buf = Some buf' /\ length buf' = length buf /\
    forall i, nth_error buf' i = match last_write ws i with Some v => Some v | None => nth_error buf i end.
Proof.
  induction ws as [|[a bs] r IH]; intros buf H.
  - exists buf. repeat split; auto.
  - inversion H as [|? ? H1 H2]; subst. cbn [fst snd] in H1.
    destruct (store_ok bs a buf H1) as (b1 & E & R). cbn [writes]. rewrite E.
    pose proof (store_len _ _ _ _ E) as L.
    destruct (IH b1) as (b2 & E2 & L2 & N2).
    { eapply Forall_impl; [|exact H2]. intros w. unfold inside. now rewrite L. }
    exists b2. split; [exact E2|]. split; [congruence|]. intros i. rewrite N2.
    cbn [last_write]. destruct (last_write r i); [reflexivity|].
    now apply store_nth.
Qed.

Definition touches (w : write) (i : nat) : Prop := (fst w <= i < fst w + length (snd w))%nat.
Lemma at_write_none w i : at_write w i = None <-> ~ touches w i.
Proof.
  unfold at_write, touches. destruct (Nat.leb_spec (fst w) i).
  - rewrite nth_error_None. lia.
  - split; [lia|reflexivity].
Qed.
Lemma last_write_none ws i : (forall w, In w ws -> ~ touches w i) -> last_write ws i = None.
Proof.
  induction ws as [|w r IH]; intros H; [reflexivity|]. cbn. rewrite IH by (intros v Hv; apply H; now right).
  apply at_write_none. apply H. now left.
Qed.
(** if every store that touches i puts the same byte there, that byte results *)
Lemma last_write_some ws i v : (exists w, In w ws /\ touches w i) ->
  (forall w, In w ws -> touches w i -> at_write w i = Some v) -> last_write ws i = Some v.
Proof.
  induction ws as [|w r IH]; intros (u & Hu & Tu) H; [destruct Hu|]. cbn.
  destruct (last_write r i) as [x|] eqn:E.
  - f_equal. assert (X : exists u', In u' r /\ touches u' i).
    { destruct (Exists_dec (fun u' => touches u' i) r) as [X|X].
      - intros u'. unfold touches. destruct (le_dec (fst u') i), (lt_dec i (fst u' + length (snd u'))); [left|right|right|right]; lia.
      - apply Exists_exists in X. exact X.
      - exfalso. rewrite last_write_none in E; [discriminate|]. intros u' Hu' T. apply X. apply Exists_exists. eauto. }
    specialize (IH X). assert (Some x = Some v) by (apply IH; intros; apply H; auto; now right). congruence.
  - destruct Hu as [-> | Hu].
    + apply H; auto. now left.
    + exfalso. enough (None = Some v) by discriminate. apply IH; [eauto|intros; apply H; auto; now right].
Qed.
