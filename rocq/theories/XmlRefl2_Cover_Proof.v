(** Elements that each copy a part of the object. *)
From Verif Require Import Base Jenkins_Model FileInfo_Model StringView_Model Reflector_Model Reflector_Spec
  Reflector_Proof RefAccess_Model XmlRefl_Model XmlRefl_Spec XmlRefl_Leaf_Proof
  XmlRefl_Bits_Proof XmlRefl_Names_Proof XmlRefl_Proof XmlRefl2_Model XmlRefl2_Spec XmlRefl2_Leaf_Proof.

Definition covers {A} (a : list Z) (f : A -> list Z -> option (list Z)) (l : list A) (P : nat -> Prop) : Prop :=
  exists items : list (A * (nat -> Prop)), map fst items = l /\ Forall (fun p => moves a (snd p) (f (fst p))) items /\
    forall k, P k <-> exists p, In p items /\ snd p k.
Lemma covers_ext {A} a f (l : list A) (P Q : nat -> Prop) : (forall k, P k <-> Q k) -> covers a f l P -> covers a f l Q.
Proof. intros E (it & E1 & F & H). exists it. split; [exact E1|]. split; [exact F|]. intros k. rewrite <- E. apply H. Qed.
Lemma covers_nil {A} a (f : A -> _) : covers a f [] (fun _ => False).
Proof. exists []. split; [reflexivity|]. split; [constructor|]. intros k. split; [tauto|]. intros (p & [] & _). Qed.
Lemma covers_one {A} a f (x : A) P : moves a P (f x) -> covers a f [x] P.
Proof.
  intros H. exists [(x, P)]. split; [reflexivity|]. split; [constructor; [exact H|constructor]|]. intros k. split.
  - intros Hk. exists (x, P). split; [left; reflexivity|exact Hk].
  - intros (p & [<-|[]] & Hk). exact Hk.
Qed.
Lemma covers_app {A} a f (l m : list A) P Q : covers a f l P -> covers a f m Q -> covers a f (l ++ m) (fun k => P k \/ Q k).
Proof.
  intros (i1 & E1 & F1 & H1) (i2 & E2 & F2 & H2). exists (i1 ++ i2). split; [rewrite map_app; congruence|].
  split; [apply Forall_app; split; assumption|]. intros k. rewrite H1, H2. split.
  - intros [(p & Hp & Hk)|(p & Hp & Hk)]; exists p; (split; [apply in_or_app; auto|exact Hk]).
  - intros (p & Hp & Hk). apply in_app_or in Hp. destruct Hp as [Hp|Hp]; [left|right]; exists p; auto.
Qed.
Lemma covers_seq {A} a f (g : nat -> A) (R : nat -> nat -> Prop) n : (forall i, (i < n)%nat -> moves a (R i) (f (g i))) ->
  covers a f (map g (seq 0 n)) (fun k => exists i, (i < n)%nat /\ R i k).
Proof.
  intros H. exists (map (fun i => (g i, R i)) (seq 0 n)). split; [rewrite map_map; reflexivity|]. split.
  - apply Forall_forall. intros p Hp. apply in_map_iff in Hp. destruct Hp as (i & <- & Hi). apply in_seq in Hi. apply H. lia.
  - intros k. split.
    + intros (i & Hi & Hk). exists (g i, R i). split; [|exact Hk]. apply in_map_iff. exists i. split; [reflexivity|]. apply in_seq. lia.
    + intros (p & Hp & Hk). apply in_map_iff in Hp. destruct Hp as (i & <- & Hi). apply in_seq in Hi. exists i. split; [lia|exact Hk].
Qed.
Lemma covers_moves {A} a f (l : list A) P : covers a f l P -> moves a P (fold_mem f l).
Proof.
  intros (it & <- & F & H). eapply moves_ext; [intros k; symmetry; apply H|]. clear H P.
  induction F as [|p it Hp F IH]; intros b L B.
  - exists b. split; [reflexivity|]. split; [exact B|]. apply copied_none. intros k (p & [] & _).
  - destruct (Hp b L B) as (b1 & E1 & B1 & C1). destruct (IH b1 ltac:(destruct C1; congruence) B1) as (b2 & E2 & B2 & C2).
    exists b2. cbn [map fold_mem]. rewrite E1. split; [exact E2|]. split; [exact B2|].
    eapply copied_ext; [|apply (copied_seq _ _ _ _ _ _ C1 C2)]. intros k. cbn [In]. split.
    + intros [Hk|(y & Hy & Hk)]; [exists p; auto|exists y; auto].
    + intros (y & [->|Hy] & Hk); [left; exact Hk|right; exists y; auto].
Qed.
Lemma covers_sub {A} a f (l m : list A) P : covers a f l P -> (forall x, In x m -> In x l) ->
  exists R : nat -> Prop, (forall k, R k -> P k) /\ covers a f m R.
Proof.
  intros (it & El & F & H). induction m as [|x m IH]; intros Hm.
  - exists (fun _ => False). split; [tauto|apply covers_nil].
  - destruct IH as (R & HR & C); [intros y Hy; apply Hm; right; exact Hy|].
    pose proof (Hm x (or_introl eq_refl)) as Hx. rewrite <- El in Hx. apply in_map_iff in Hx. destruct Hx as (p & Ep & Hp).
    exists (fun k => snd p k \/ R k). split.
    + intros k [Hk|Hk]; [apply H; exists p; auto|apply HR; exact Hk].
    + apply (covers_app a f [x] m). { apply covers_one. rewrite Forall_forall in F. specialize (F p Hp). cbn beta in F. rewrite Ep in F. exact F. } exact C.
Qed.
Lemma moves_then a P Q f g : moves a P f -> moves a Q g ->
  moves a (fun k => P k \/ Q k) (fun b => match f b with None => None | Some m => g m end).
Proof.
  intros Hf Hg b L B. destruct (Hf b L B) as (b1 & E1 & B1 & C1). destruct (Hg b1 ltac:(destruct C1; congruence) B1) as (b2 & E2 & B2 & C2).
  exists b2. rewrite E1. split; [exact E2|]. split; [exact B2|]. apply (copied_seq _ _ _ _ _ _ C1 C2).
Qed.

(** attributes and children together; the calls of [g] may depend on how deep the stack is *)
Definition covers2 (a : list Z) (f : attr -> list Z -> option (list Z)) (n : nat) (g : nat -> xml -> list Z -> option (list Z))
  (x : content) (P : nat -> Prop) : Prop :=
  exists PA PK, covers a f (fst x) PA /\ (forall d, (n <= d)%nat -> covers a (g d) (snd x) PK) /\ forall k, P k <-> PA k \/ PK k.
Lemma covers2_ext a f n g x (P Q : nat -> Prop) : (forall k, P k <-> Q k) -> covers2 a f n g x P -> covers2 a f n g x Q.
Proof. intros E (PA & PK & H1 & H2 & H). exists PA, PK. split; [exact H1|]. split; [exact H2|]. intros k. rewrite <- E. apply H. Qed.
Lemma covers2_nil a f n g : covers2 a f n g ([], []) (fun _ => False).
Proof. exists (fun _ => False), (fun _ => False). split; [apply covers_nil|]. split; [intros; apply covers_nil|]. tauto. Qed.
Lemma covers2_app a f n g x y P Q : covers2 a f n g x P -> covers2 a f n g y Q -> covers2 a f n g (app_content x y) (fun k => P k \/ Q k).
Proof.
  intros (PA & PK & H1 & H2 & H) (QA & QK & G1 & G2 & G). exists (fun k => PA k \/ QA k), (fun k => PK k \/ QK k).
  split; [apply covers_app; assumption|]. split; [intros d Hd; apply covers_app; auto|]. intros k. rewrite H, G. tauto.
Qed.
Lemma covers2_attrs a f n g l P : covers a f l P -> covers2 a f n g (l, []) P.
Proof. intros H. exists P, (fun _ => False). split; [exact H|]. split; [intros; apply covers_nil|]. tauto. Qed.
Lemma covers2_kids a f n g l P : (forall d, (n <= d)%nat -> covers a (g d) l P) -> covers2 a f n g ([], l) P.
Proof. intros H. exists (fun _ => False), P. split; [apply covers_nil|]. split; [exact H|]. tauto. Qed.

(** ** Ranges *)
Lemma range_split b num s k : (exists i, (i < num)%nat /\ byte_range (b + i * s) s k) <-> byte_range b (num * s) k.
Proof.
  unfold byte_range. split.
  - intros (i & Hi & Hk). nia.
  - intros Hk. destruct s as [|s]; [lia|]. set (S' := S s) in *. exists ((k / 8 - b) / S')%nat.
    pose proof (Nat.div_mod k 8 ltac:(lia)) as D. pose proof (Nat.mod_upper_bound k 8 ltac:(lia)) as M.
    pose proof (Nat.div_mod (k / 8 - b) S' ltac:(lia)) as D2. pose proof (Nat.mod_upper_bound (k / 8 - b) S' ltac:(lia)) as M2.
    assert (Hq : (k / 8 - b < num * S')%nat) by nia.
    split; [apply Nat.div_lt_upper_bound; lia|]. nia.
Qed.

(** ** Loops of Save *)
Lemma all_some_map {A B} (f : A -> option B) (g : A -> B) l : (forall x, In x l -> f x = Some (g x)) -> all_some (map f l) = Some (map g l).
Proof.
  induction l as [|x l IH]; intros H; [reflexivity|]. cbn [map all_some]. rewrite H by (left; reflexivity).
  rewrite IH by (intros y Hy; apply H; right; exact Hy). reflexivity.
Qed.
Lemma concat_attrs f (x : nat -> attr) l : (forall i, In i l -> f i = Some ([x i], [])) -> concat_content (map f l) = Some (map x l, []).
Proof.
  induction l as [|i l IH]; intros H; [reflexivity|]. cbn [map concat_content]. rewrite H by (left; reflexivity).
  rewrite IH by (intros y Hy; apply H; right; exact Hy). reflexivity.
Qed.
Lemma concat_kids f (x : nat -> xml) l : (forall i, In i l -> f i = Some ([], [x i])) -> concat_content (map f l) = Some ([], map x l).
Proof.
  induction l as [|i l IH]; intros H; [reflexivity|]. cbn [map concat_content]. rewrite H by (left; reflexivity).
  rewrite IH by (intros y Hy; apply H; right; exact Hy). reflexivity.
Qed.
Lemma each_attrs t f (x : nat -> attr) : (forall i, (i < Z.to_nat (numItems t))%nat -> f (Z.of_nat i) = Some ([x i], [])) ->
  each_element t f = Some (map x (seq 0 (Z.to_nat (numItems t))), []).
Proof. intros H. apply (concat_attrs (fun s => f (Z.of_nat s))). intros i Hi. apply in_seq in Hi. apply H. lia. Qed.
Lemma each_kids t f (x : nat -> xml) : (forall i, (i < Z.to_nat (numItems t))%nat -> f (Z.of_nat i) = Some ([], [x i])) ->
  each_element t f = Some ([], map x (seq 0 (Z.to_nat (numItems t)))).
Proof. intros H. apply (concat_kids (fun s => f (Z.of_nat s))). intros i Hi. apply in_seq in Hi. apply H. lia. Qed.

Lemma axis_ok a : (a < 4)%nat -> exists x, nth_error axes a = Some x /\ axis x = Z.of_nat a.
Proof. intros H. do 4 (destruct a as [|a]; [eexists; split; reflexivity|]). lia. Qed.
Definition axis_name (a : nat) : list Z := nth a axes [].
Lemma vector_attrs_ok get n (h : nat -> list Z) : n <= 4 -> (forall i, (i < Z.to_nat n)%nat -> get (Z.of_nat i) = Some (h i) /\ text_ok (h i)) ->
  vector_attrs get n = Some (map (fun i => (axis_name i, h i)) (seq 0 (Z.to_nat n))).
Proof.
  intros H4 H. apply all_some_map. intros i Hi. apply in_seq in Hi. destruct (H i ltac:(lia)) as [-> T].
  destruct (axis_ok i ltac:(lia)) as (x & Ex & _). rewrite Ex. unfold axis_name. rewrite (nth_error_nth _ _ [] Ex), text_c_string by exact T. reflexivity.
Qed.
Lemma axis_name_ok a : (a < 4)%nat -> axis (axis_name a) = Z.of_nat a.
Proof. intros H. destruct (axis_ok a H) as (x & Ex & E). unfold axis_name. rewrite (nth_error_nth _ _ [] Ex). exact E. Qed.
Lemma flag_attrs_ok get tab (txt : Z -> list Z) : Forall word (map fst tab) ->
  (forall i, In i (map snd tab) -> get i = Some (txt i) /\ text_ok (txt i)) ->
  flag_attrs get tab = Some (map (fun p => (fst p, txt (snd p))) tab).
Proof.
  intros W H. apply all_some_map. intros p Hp. destruct (H (snd p) (in_map snd _ _ Hp)) as [-> T]. cbn [option_map].
  rewrite Forall_forall in W. rewrite word_c_string by (apply W; apply in_map; exact Hp). rewrite text_c_string by exact T. reflexivity.
Qed.
