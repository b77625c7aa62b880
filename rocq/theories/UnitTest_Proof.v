(** Reading pasted tokens. *)
From Coq Require Import Strings.Ascii Strings.String.
From Verif Require Import Base Reflector_Model Errors_Model UnitTest_Model UnitTest_Spec.
Local Open Scope nat_scope.

Lemma shrink : forall k,
  (forall p ts e r, parse_bin k p ts = Some (e, r) -> length r < length ts) /\
  (forall ts e r, parse_un k ts = Some (e, r) -> length r < length ts) /\
  (forall p l ts e r, climb k p l ts = Some (e, r) -> length r <= length ts).
Proof.
  induction k as [|k (B & U & C)]; [repeat split; intros; discriminate|]. split; [|split].
  - intros p ts e r H. cbn [parse_bin] in H. destruct (parse_un k ts) as [[e1 r1]|] eqn:E; [|discriminate].
    apply U in E. apply C in H. lia.
  - intros ts e r H. cbn [parse_un] in H. destruct ts as [|t ts]; [discriminate|]. destruct t; try discriminate.
    + injection H as <- <-. cbn. lia.
    + destruct (parse_un k ts) as [[e1 r1]|] eqn:E; [|discriminate]. apply U in E. injection H as <- <-. cbn. lia.
    + destruct (parse_bin k 1 ts) as [[e1 r1]|] eqn:E; [|discriminate]. apply B in E.
      destruct r1 as [|t1 r1]; [discriminate|]. destruct t1; try discriminate. injection H as <- <-. cbn in E |- *. lia.
  - intros p l ts e r H. cbn [climb] in H. destruct ts as [|t ts]; [injection H as <- <-; lia|].
    destruct t; try (injection H as <- <-; lia). destruct (p <=? prec o); [|injection H as <- <-; lia].
    destruct (parse_bin k (S (prec o)) ts) as [[e1 r1]|] eqn:E; [|discriminate]. apply B in E. apply C in H. cbn. lia.
Qed.
Lemma fuel : forall k,
  (forall p ts e r k', parse_bin k p ts = Some (e, r) -> 3 * length ts + 1 <= k' -> parse_bin k' p ts = Some (e, r)) /\
  (forall ts e r k', parse_un k ts = Some (e, r) -> 3 * length ts <= k' -> parse_un k' ts = Some (e, r)) /\
  (forall p l ts e r k', climb k p l ts = Some (e, r) -> 3 * length ts + 1 <= k' -> climb k' p l ts = Some (e, r)).
Proof.
  induction k as [|k (B & U & C)]; [repeat split; intros; discriminate|]. split; [|split].
  - intros p ts e r k' H L. cbn [parse_bin] in H. destruct (parse_un k ts) as [[e1 r1]|] eqn:E; [|discriminate].
    destruct k' as [|k']; [lia|]. cbn [parse_bin]. rewrite (U _ _ _ k' E) by lia. pose proof (proj1 (proj2 (shrink k)) _ _ _ E).
    apply C; [exact H|lia].
  - intros ts e r k' H L. cbn [parse_un] in H. destruct ts as [|t ts]; [discriminate|]. cbn [length] in L.
    destruct k' as [|k']; [lia|]. cbn [parse_un]. destruct t; try discriminate.
    + exact H.
    + destruct (parse_un k ts) as [[e1 r1]|] eqn:E; [|discriminate]. rewrite (U _ _ _ k' E) by lia. exact H.
    + destruct (parse_bin k 1 ts) as [[e1 r1]|] eqn:E; [|discriminate]. rewrite (B _ _ _ _ k' E) by lia. exact H.
  - intros p l ts e r k' H L. cbn [climb] in H. destruct k' as [|k']; [lia|]. cbn [climb].
    destruct ts as [|t ts]; [exact H|]. cbn [length] in L. destruct t; try exact H.
    destruct (p <=? prec o); [|exact H].
    destruct (parse_bin k (S (prec o)) ts) as [[e1 r1]|] eqn:E; [|discriminate]. rewrite (B _ _ _ _ k' E) by lia.
    pose proof (proj1 (shrink k) _ _ _ _ E). apply C; [exact H|lia].
Qed.
Definition Bin p ts e r := exists k, parse_bin k p ts = Some (e, r).
Definition Un ts e r := exists k, parse_un k ts = Some (e, r).
Definition Climb p l ts e r := exists k, climb k p l ts = Some (e, r).
Definition big (ts : list tok) : nat := 3 * length ts + 1.
Lemma Bin_big p ts e r k : Bin p ts e r -> big ts <= k -> parse_bin k p ts = Some (e, r).
Proof. intros [k0 H] L. eapply (proj1 (fuel k0)); [exact H|exact L]. Qed.
Lemma Un_big ts e r k : Un ts e r -> big ts <= k -> parse_un k ts = Some (e, r).
Proof. intros [k0 H] L. eapply (proj1 (proj2 (fuel k0))); [exact H|unfold big in L; lia]. Qed.
Lemma Climb_big p l ts e r k : Climb p l ts e r -> big ts <= k -> climb k p l ts = Some (e, r).
Proof. intros [k0 H] L. eapply (proj2 (proj2 (fuel k0))); [exact H|exact L]. Qed.
Lemma Bin_intro p ts e1 r1 e r : Un ts e1 r1 -> Climb p e1 r1 e r -> Bin p ts e r.
Proof.
  intros U C. exists (S (big ts + big r1)). cbn [parse_bin]. rewrite (Un_big _ _ _ _ U) by (lia). apply Climb_big; [exact C|lia].
Qed.
Lemma Bin_elim p ts e r : Bin p ts e r -> exists e1 r1, Un ts e1 r1 /\ Climb p e1 r1 e r.
Proof.
  intros [k H]. destruct k as [|k]; [discriminate|]. cbn [parse_bin] in H. destruct (parse_un k ts) as [[e1 r1]|] eqn:E; [|discriminate].
  exists e1, r1. split; [exists k; exact E|exists k; exact H].
Qed.
Lemma Climb_op p l o ts e1 r1 e r : p <= prec o -> Bin (S (prec o)) ts e1 r1 -> Climb p (EBin o l e1) r1 e r -> Climb p l (TOp o :: ts) e r.
Proof.
  intros L B C. exists (S (big ts + big r1)). cbn [climb]. rewrite (proj2 (Nat.leb_le p (prec o)) L). rewrite (Bin_big _ _ _ _ _ B) by lia.
  apply Climb_big; [exact C|lia].
Qed.
(** where climbing at level p stops *)
Definition stop (p : nat) (ts : list tok) : Prop := match ts with TOp o :: _ => prec o < p | _ => True end.
Lemma Climb_stop p l ts : stop p ts -> Climb p l ts l ts.
Proof. intros S. exists 1. cbn. destruct ts as [|t ts]; [reflexivity|]. destruct t; try reflexivity. cbn in S. destruct (Nat.leb_spec p (prec o)); [lia|reflexivity]. Qed.
(** induction on a climb *)
Lemma Climb_elim p l ts e r : Climb p l ts e r ->
  (stop p ts /\ e = l /\ r = ts) \/
  (exists o ts' e1 r1, ts = TOp o :: ts' /\ p <= prec o /\ Bin (S (prec o)) ts' e1 r1 /\ Climb p (EBin o l e1) r1 e r).
Proof.
  intros [k H]. destruct k as [|k]; [discriminate|]. cbn [climb] in H.
  destruct ts as [|t ts]; [left; injection H as <- <-; cbn; auto|].
  destruct t; try (left; injection H as <- <-; cbn; auto; fail).
  destruct (Nat.leb_spec p (prec o)) as [L|L]; [|left; injection H as <- <-; cbn; auto].
  destruct (parse_bin k (S (prec o)) ts) as [[e1 r1]|] eqn:E; [|discriminate].
  right. exists o, ts, e1, r1. repeat split; auto; [exists k; exact E|exists k; exact H].
Qed.

(** the result of a climb stops there *)
Lemma after : forall k,
  (forall p ts e r, parse_bin k p ts = Some (e, r) -> stop p r) /\
  (forall p l ts e r, climb k p l ts = Some (e, r) -> stop p r).
Proof.
  induction k as [|k (B & C)]; [split; intros; discriminate|]. split.
  - intros p ts e r H. cbn [parse_bin] in H. destruct (parse_un k ts) as [[e1 r1]|]; [|discriminate]. eapply C; exact H.
  - intros p l ts e r H. cbn [climb] in H. destruct ts as [|t ts]; [injection H as <- <-; exact I|].
    destruct t; try (injection H as <- <-; exact I). destruct (Nat.leb_spec p (prec o)); [|injection H as <- <-; exact H0].
    destruct (parse_bin k (S (prec o)) ts) as [[e1 r1]|]; [|discriminate]. eapply C; exact H.
Qed.
Lemma Bin_after p ts e r : Bin p ts e r -> stop p r.
Proof. intros [k H]. eapply (proj1 (after k)); exact H. Qed.

Definition level (e : expr) : nat := match e with EBin o _ _ => prec o | _ => 11 end.
(** the outermost operator is one of the loosest *)
Lemma climb_root : forall k p l o ts e r, climb k p l (TOp o :: ts) = Some (e, r) -> p <= prec o -> level e <= prec o.
Proof.
  induction k as [|k IH]; intros p l o ts e r H L; [discriminate|]. cbn [climb] in H. rewrite (proj2 (Nat.leb_le _ _) L) in H.
  destruct (parse_bin k (S (prec o)) ts) as [[e1 r1]|] eqn:E; [|discriminate].
  pose proof (proj1 (after k) _ _ _ _ E) as A. destruct k as [|k]; [discriminate|]. destruct r1 as [|t r1].
  - cbn in H. injection H as <- <-. cbn. lia.
  - destruct t; try (cbn in H; injection H as <- <-; cbn; lia). cbn in A. destruct (Nat.leb_spec p (prec o0)) as [L'|L'].
    + specialize (IH _ _ _ _ _ _ H L'). lia.
    + cbn [climb] in H. destruct (Nat.leb_spec p (prec o0)); [lia|]. injection H as <- <-. cbn. lia.
Qed.
Lemma Climb_raise p q l ts e r : p <= q -> q <= level e -> Climb p l ts e r -> Climb q l ts e r.
Proof.
  intros L Q [k H]. revert l ts H. induction k as [|k IH]; intros l ts H; [discriminate|].
  destruct (Climb_elim p l ts e r (ex_intro _ (S k) H)) as [(S & -> & ->)|(o & ts' & e1 & r1 & -> & Lo & B & C)].
  - apply Climb_stop. destruct ts as [|[] ?]; try exact I. cbn in S |- *. lia.
  - pose proof (climb_root _ _ _ _ _ _ _ H Lo) as R. apply Climb_op with e1 r1; [lia|exact B|].
    cbn [climb] in H. rewrite (proj2 (Nat.leb_le _ _) Lo) in H. destruct (parse_bin k (S (prec o)) ts') as [[e2 r2]|] eqn:E; [|discriminate].
    assert (Some (e1, r1) = Some (e2, r2)) as X.
    { transitivity (parse_bin (k + big ts') (S (prec o)) ts'); [symmetry; apply Bin_big; [exact B|lia]|]. apply Bin_big; [exists k; exact E|lia]. }
    injection X as -> ->. apply IH. exact H.
Qed.
Lemma Bin_raise p q ts e r : p <= q -> q <= level e -> Bin p ts e r -> Bin q ts e r.
Proof. intros L Q B. apply Bin_elim in B as (e1 & r1 & U & C). eapply Bin_intro; [exact U|]. eapply Climb_raise; eassumption. Qed.
Lemma un_level : forall k ts e r, parse_un k ts = Some (e, r) -> level e = 11.
Proof.
  intros k ts e r H. destruct k as [|k]; [discriminate|]. cbn [parse_un] in H. destruct ts as [|t ts]; [discriminate|]. destruct t; try discriminate.
  - injection H as <- <-. reflexivity.
  - destruct (parse_un k ts) as [[e1 r1]|]; [|discriminate]. injection H as <- <-. reflexivity.
  - destruct (parse_bin k 1 ts) as [[e1 r1]|]; [|discriminate]. destruct r1 as [|[] r1]; try discriminate. injection H as <- <-. reflexivity.
Qed.
Lemma prec_le o : 1 <= prec o <= 10. Proof. destruct o; cbn; lia. Qed.

(** something after the text *)
Lemma extend tail : forall k,
  (forall p ts e r, parse_bin k p ts = Some (e, r) -> r <> [] \/ stop p tail -> parse_bin k p (ts ++ tail) = Some (e, r ++ tail)) /\
  (forall ts e r, parse_un k ts = Some (e, r) -> parse_un k (ts ++ tail) = Some (e, r ++ tail)) /\
  (forall p l ts e r, climb k p l ts = Some (e, r) -> r <> [] \/ stop p tail -> climb k p l (ts ++ tail) = Some (e, r ++ tail)).
Proof.
  induction k as [|k (B & U & C)]; [repeat split; intros; discriminate|]. split; [|split].
  - intros p ts e r H S. cbn [parse_bin] in *. destruct (parse_un k ts) as [[e1 r1]|] eqn:E; [|discriminate].
    rewrite (U _ _ _ E). apply C; assumption.
  - intros ts e r H. cbn [parse_un] in *. destruct ts as [|t ts]; [discriminate|]. cbn [app]. destruct t; try discriminate.
    + injection H as <- <-. reflexivity.
    + destruct (parse_un k ts) as [[e1 r1]|] eqn:E; [|discriminate]. rewrite (U _ _ _ E). injection H as <- <-. reflexivity.
    + destruct (parse_bin k 1 ts) as [[e1 r1]|] eqn:E; [|discriminate]. destruct r1 as [|t1 r1]; [discriminate|].
      rewrite (B _ _ _ _ E) by (left; discriminate). cbn [app]. destruct t1; try discriminate. injection H as <- <-. reflexivity.
  - intros p l ts e r H S. cbn [climb] in H |- *. destruct ts as [|t ts]; cbn [app].
    + injection H as <- <-. cbn [app]. destruct S as [S|S]; [congruence|]. destruct tail as [|t tl]; [reflexivity|].
      destruct t; try reflexivity. cbn in S. destruct (Nat.leb_spec p (prec o)); [lia|reflexivity].
    + destruct t; try (injection H as <- <-; reflexivity). destruct (Nat.leb_spec p (prec o)) as [L|L]; [|injection H as <- <-; reflexivity].
      destruct (parse_bin k (Datatypes.S (prec o)) ts) as [[e1 r1]|] eqn:E; [|discriminate].
      rewrite (B _ _ _ _ E).
      * apply C; assumption.
      * destruct S as [S|S]; [left|right].
        -- intros ->. destruct k; [discriminate|]. cbn in H. injection H as <- <-. congruence.
        -- destruct tail as [|[] ?]; try exact I. cbn in S |- *. lia.
Qed.
Lemma Bin_extend p ts e tail : Bin p ts e [] -> stop p tail -> Bin p (ts ++ tail) e tail.
Proof. intros [k H] S. exists k. change tail with (([] : list tok) ++ tail) at 2. apply (proj1 (extend tail k)); [exact H|right; exact S]. Qed.
Lemma Climb_through p q l ts e r e2 r2 : p <= q -> Climb q l ts e r -> Climb p e r e2 r2 -> Climb p l ts e2 r2.
Proof.
  intros L [k H]. revert l ts H. induction k as [|k IH]; intros l ts H C2; [discriminate|]. cbn [climb] in H.
  destruct ts as [|t ts]; [injection H as <- <-; exact C2|]. destruct t; try (injection H as <- <-; exact C2).
  destruct (Nat.leb_spec q (prec o)); [|injection H as <- <-; exact C2].
  destruct (parse_bin k (S (prec o)) ts) as [[e1 r1]|] eqn:E; [|discriminate].
  apply Climb_op with e1 r1; [lia|exists k; exact E|]. apply IH; assumption.
Qed.

Lemma parse_Bin ts e : parse ts = Some e <-> Bin 1 ts e [].
Proof.
  unfold parse. split.
  - intros H. exists (3 * length ts + 1). destruct (parse_bin _ 1 ts) as [[e1 [|]]|] eqn:E; try discriminate. injection H as <-. reflexivity.
  - intros B. change (3 * length ts + 1) with (big ts). rewrite (Bin_big _ _ _ _ _ B) by lia. reflexivity.
Qed.
Lemma tight_bin ts e q : parse ts = Some e -> 1 <= q -> q <= level e -> Bin q ts e [].
Proof. intros P L Q. apply parse_Bin in P. eapply Bin_raise; eassumption. Qed.
(** two arguments with an operator between them *)
Lemma paste v1 v2 e1 e2 o : parse v1 = Some e1 -> parse v2 = Some e2 -> prec o < level e1 -> prec o < level e2 ->
  parse (v1 ++ TOp o :: v2) = Some (EBin o e1 e2).
Proof.
  intros P1 P2 L1 L2. pose proof (prec_le o). apply parse_Bin.
  assert (B1 : Bin (S (prec o)) v1 e1 []) by (apply tight_bin; [exact P1|lia|lia]).
  assert (B2 : Bin (S (prec o)) v2 e2 []) by (apply tight_bin; [exact P2|lia|lia]).
  assert (X : Bin (S (prec o)) (v1 ++ TOp o :: v2) e1 (TOp o :: v2)) by (apply Bin_extend; [exact B1|cbn; lia]).
  apply Bin_elim in X as (e0 & r0 & U & C). eapply Bin_intro; [exact U|]. eapply Climb_through; [|exact C|]; [lia|].
  apply Climb_op with e2 []; [lia|exact B2|]. apply Climb_stop. exact I.
Qed.
(** ! before an argument: it lands on the first operand *)
Fixpoint not_first (e : expr) : expr := match e with EBin o l r => EBin o (not_first l) r | _ => ENot e end.
Lemma climb_not : forall k p l ts e r, climb k p l ts = Some (e, r) -> climb k p (not_first l) ts = Some (not_first e, r).
Proof.
  induction k as [|k IH]; intros p l ts e r H; [discriminate|]. cbn [climb] in *. destruct ts as [|t ts]; [injection H as <- <-; reflexivity|].
  destruct t; try (injection H as <- <-; reflexivity). destruct (p <=? prec o); [|injection H as <- <-; reflexivity].
  destruct (parse_bin k (S (prec o)) ts) as [[e1 r1]|]; [|discriminate]. apply (IH p (EBin o l e1) r1 e r H).
Qed.
Lemma paste_not v e : parse v = Some e -> parse (TNot :: v) = Some (not_first e).
Proof.
  intros P. apply parse_Bin in P. apply parse_Bin. apply Bin_elim in P as (e1 & r1 & U & C).
  apply Bin_intro with (ENot e1) r1.
  - destruct U as [k U]. exists (S k). cbn [parse_un]. rewrite U. reflexivity.
  - destruct U as [k U]. pose proof (un_level _ _ _ _ U) as L. destruct C as [k' C]. exists k'. apply climb_not in C.
    destruct e1; try exact C. cbn in L. pose proof (prec_le o). lia.
Qed.
