(** C74: the registry of reflected types. *)
From Coq Require Import Strings.Ascii Strings.String Permutation.
From Verif Require Import Base Jenkins_Model Registry_Model.

(** The key a type is filed under *)
Definition key (t : ctype) : Z := match how t with Unnamed => 0 | Named n => jenkins 64 n | Enumeration n => jenkins 64 n end.
Definition same_kind (a b : ctype) : Prop := is_enum a = is_enum b.

Lemma hash_small n : 0 <= jenkins 64 n < 2 ^ 32.
Proof. unfold jenkins, jen_final. cbv zeta. unfold u32. apply wrap_range. lia. Qed.
Lemma member_key t : member_hash t = key t.
Proof.
  unfold member_hash, enum_hash, class_hash, key. destruct (how t) as [|n|n]; [reflexivity| |]; rewrite ?Z.add_0_l, ?Z.add_0_r; apply wrap_small, hash_small.
Qed.
Lemma at_assign m k v k' : at_key (assign k v m) k' = if k =? k' then Some v else at_key m k'.
Proof.
  unfold at_key. induction m as [|[a w] m IH]; cbn [assign find fst].
  - destruct (k =? k'); reflexivity.
  - destruct (Z.eqb_spec a k) as [->|N]; cbn [find fst].
    + destruct (k =? k'); reflexivity.
    + destruct (Z.eqb_spec a k') as [->|M].
      * destruct (Z.eqb_spec k k') as [->|]; [contradiction|reflexivity].
      * exact IH.
Qed.
Definition shelf (e : bool) (s : storage) := if e then enums s else classes s.
Lemma register_at s t e k : at_key (shelf e (RegisterRefClass s t)) k =
  if Bool.eqb (is_enum t) e && (key t =? k) then Some t else at_key (shelf e s) k.
Proof.
  unfold RegisterRefClass, shelf, enum_hash, class_hash, is_enum, key. destruct (how t), e; cbn [classes enums Bool.eqb andb]; rewrite ?at_assign; reflexivity.
Qed.
Lemma history_at ts : forall s e k, at_key (shelf e (RegisterReflectedTypes s ts)) k =
  match find (fun t => Bool.eqb (is_enum t) e && (key t =? k)) (rev ts) with Some t => Some t | None => at_key (shelf e s) k end.
Proof.
  unfold RegisterReflectedTypes. induction ts as [|t ts IH]; intros s e k; [reflexivity|]. cbn [fold_left rev]. rewrite IH, register_at.
  assert (F : forall (l : list ctype) f x, find f (l ++ [x]) = match find f l with Some y => Some y | None => if f x then Some x else None end).
  { clear. induction l as [|y l IHl]; intros f x; cbn [app find]; [destruct (f x); reflexivity|]. destruct (f y); [reflexivity|apply IHl]. }
  rewrite F. destruct (find _ (rev ts)); [reflexivity|]. destruct (Bool.eqb (is_enum t) e && (key t =? k)); reflexivity.
Qed.

(** After any history of registrations a member finds the type registered last among those of its
    kind with the same key, or nothing if there is none. *)
Theorem C74_last_wins : forall ts t,
  (found_for (RegisterReflectedTypes empty ts) t = None <-> forall u, In u ts -> same_kind u t -> key u <> key t) /\
  (forall u, found_for (RegisterReflectedTypes empty ts) t = Some u <->
     exists a b, ts = a ++ u :: b /\ same_kind u t /\ key u = key t /\ forall v, In v b -> same_kind v t -> key v <> key t).
Proof.
  intros ts t. assert (E : found_for (RegisterReflectedTypes empty ts) t = find (fun u => Bool.eqb (is_enum u) (is_enum t) && (key u =? key t)) (rev ts)).
  { unfold found_for. rewrite member_key. pose proof (history_at ts empty (is_enum t) (key t)) as H. unfold shelf in H. rewrite H.
    destruct (find _ (rev ts)); [reflexivity|]. destruct (is_enum t); reflexivity. }
  rewrite E. clear E.
  assert (P : forall u, Bool.eqb (is_enum u) (is_enum t) && (key u =? key t) = true <-> same_kind u t /\ key u = key t).
  { intros u. rewrite andb_true_iff, eqb_true_iff, Z.eqb_eq. reflexivity. }
  split.
  - split.
    + intros H u I K Q. apply find_none with (x := u) in H; [|apply in_rev in I; exact I]. rewrite (proj2 (P u) (conj K Q)) in H. discriminate.
    + intros H. destruct (find _ (rev ts)) as [u|] eqn:F; [|reflexivity]. apply find_some in F. destruct F as [I Q]. apply P in Q.
      apply in_rev in I. exfalso. apply (H u I); apply Q.
  - assert (G : forall l f (u : ctype), find f l = Some u <-> exists a b, l = a ++ u :: b /\ f u = true /\ forall v, In v a -> f v = false).
    { clear. induction l as [|x l IH]; intros f u; cbn [find].
      - split; [discriminate|]. intros (a & b & H & _). destruct a; discriminate.
      - destruct (f x) eqn:Fx.
        + split; [intros [= <-]; exists [], l; split; [reflexivity|]; split; [exact Fx|intros v []]|].
          intros ([|y a] & b & H & Fu & N); injection H as -> H; [reflexivity|]. rewrite (N y) in Fx by (left; reflexivity). discriminate.
        + rewrite IH. split.
          * intros (a & b & -> & Fu & N). exists (x :: a), b. split; [reflexivity|]. split; [exact Fu|]. intros v [<-|I]; [exact Fx|apply N; exact I].
          * intros ([|y a] & b & H & Fu & N); injection H as -> H; [congruence|]. exists a, b. split; [exact H|]. split; [exact Fu|].
            intros v I. apply N. right. exact I. }
    intros u. rewrite G. split.
    + intros (a & b & H & Q & N). apply P in Q. exists (rev b), (rev a). split; [|split; [apply Q|split; [apply Q|]]].
      * rewrite <- (rev_involutive ts), H, rev_app_distr. cbn [rev]. rewrite <- app_assoc. reflexivity.
      * intros v I K X. apply in_rev in I. specialize (N v I). rewrite (proj2 (P v) (conj K X)) in N. discriminate.
    + intros (a & b & -> & K & Q & N). exists (rev b), (rev a). split; [rewrite rev_app_distr; cbn [rev]; rewrite <- app_assoc; reflexivity|].
      split; [apply P; auto|]. intros v I. apply in_rev in I. specialize (N v I). destruct (Bool.eqb _ _ && _) eqn:F; [|reflexivity].
      apply P in F. destruct F as [F1 F2]. exfalso. apply N; assumption.
Qed.
Print Assumptions C74_last_wins.

(** So when no two registered types of a kind share a key, every registered type is found by its
    members, whatever the order and however often types are registered. *)
Theorem C74_found : forall ts, (forall a b, In a ts -> In b ts -> same_kind a b -> key a = key b -> a = b) ->
  (forall t, In t ts -> found_for (RegisterReflectedTypes empty ts) t = Some t) /\
  (forall ts' t, (forall x, In x ts <-> In x ts') -> found_for (RegisterReflectedTypes empty ts') t = found_for (RegisterReflectedTypes empty ts) t).
Proof.
  assert (G : forall ts, (forall a b, In a ts -> In b ts -> same_kind a b -> key a = key b -> a = b) -> forall t u,
     found_for (RegisterReflectedTypes empty ts) t = Some u <-> In u ts /\ same_kind u t /\ key u = key t).
  { intros ts U t u. destruct (C74_last_wins ts t) as [N S1]. rewrite S1. split.
    - intros (a & b & -> & K & Q & _). split; [apply in_or_app; right; left; reflexivity|auto].
    - intros (I & K & Q). destruct (found_for (RegisterReflectedTypes empty ts) t) as [v|] eqn:F.
      + pose proof (proj1 (S1 v) eq_refl) as (a & b & E & Kv & Qv & Nv). assert (u = v).
        { apply U; [exact I|rewrite E; apply in_or_app; right; left; reflexivity|unfold same_kind in *; congruence|congruence]. }
        subst v. exists a, b. auto.
      + exfalso. apply (proj1 N eq_refl u I K Q). }
  intros ts U. split.
  - intros t I. apply G; [exact U|]. repeat split. exact I.
  - intros ts' t E. assert (U' : forall a b, In a ts' -> In b ts' -> same_kind a b -> key a = key b -> a = b).
    { intros a b Ia Ib. apply U; apply E; assumption. }
    destruct (found_for (RegisterReflectedTypes empty ts') t) as [u|] eqn:F.
    + symmetry. apply G; [exact U|]. apply G in F; [|exact U']. rewrite E. exact F.
    + destruct (found_for (RegisterReflectedTypes empty ts) t) as [u|] eqn:F2; [|reflexivity]. apply G in F2; [|exact U].
      enough (X : found_for (RegisterReflectedTypes empty ts') t = Some u) by congruence. apply G; [exact U'|]. rewrite <- E. exact F2.
Qed.
Print Assumptions C74_found.

(** An enumeration and a class of one name do not disturb each other. *)
Theorem C74_kinds_apart : forall ts e, is_enum e = true -> forall t, is_enum t = false ->
  found_for (RegisterRefClass (RegisterReflectedTypes empty ts) e) t = found_for (RegisterReflectedTypes empty ts) t /\
  found_for (RegisterRefClass (RegisterReflectedTypes empty ts) t) e = found_for (RegisterReflectedTypes empty ts) e.
Proof.
  intros ts e He t Ht. unfold found_for, RegisterRefClass. rewrite He, Ht. cbn [classes enums]. auto.
Qed.
Print Assumptions C74_kinds_apart.

(** Classes reflected without a name share one place: a member of one is taken for whichever
    was registered last. *)
Theorem C74_unnamed_refuted : forall ts a b, how a = Unnamed -> how b = Unnamed ->
  found_for (RegisterReflectedTypes empty (ts ++ [a; b])) a = Some b.
Proof.
  intros ts a b Ha Hb. destruct (C74_last_wins (ts ++ [a; b]) a) as [_ S1]. apply S1. exists (ts ++ [a]), [].
  split; [rewrite <- app_assoc; reflexivity|]. unfold same_kind, is_enum, key. rewrite Ha, Hb. repeat split. intros v [].
Qed.
Print Assumptions C74_unnamed_refuted.

Definition ascii (s : string) : list Z := map (fun c => Z.of_nat (nat_of_ascii c)) (list_ascii_of_string s).
(** Named classes can share one too: these two names have the same hash. *)
Theorem C74_collision_refuted : exists m n, m <> n /\ forall ts a b, how a = Named m -> how b = Named n ->
  found_for (RegisterReflectedTypes empty (ts ++ [a; b])) a = Some b.
Proof.
  exists (ascii "BoneSoundStateType"), (ascii "MaterialTextureConfigValue"). split; [discriminate|]. intros ts a b Ha Hb.
  destruct (C74_last_wins (ts ++ [a; b]) a) as [_ S1]. apply S1. exists (ts ++ [a]), [].
  split; [rewrite <- app_assoc; reflexivity|]. unfold same_kind, is_enum, key. rewrite Ha, Hb. split; [reflexivity|]. split; [vm_compute; reflexivity|]. intros v [].
Qed.
Print Assumptions C74_collision_refuted.

Example C74_example : let a := mkType 1 (Named (ascii "A")) in let b := mkType 2 (Named (ascii "B")) in let e := mkType 3 (Enumeration (ascii "A")) in
  let ts := [a; e; b; a] in (forall x y, In x ts -> In y ts -> same_kind x y -> key x = key y -> x = y) /\
  found_for (RegisterReflectedTypes empty ts) b = Some b /\ found_for (RegisterReflectedTypes empty ts) e = Some e /\
  found_for (RegisterReflectedTypes empty ts) (mkType 4 (Named (ascii "C"))) = None.
Proof.
  cbn zeta. split; [|vm_compute; repeat split; reflexivity].
  intros x y [<-|[<-|[<-|[<-|[]]]]] [<-|[<-|[<-|[<-|[]]]]] K Q; try reflexivity; try discriminate K; vm_compute in Q; discriminate Q.
Qed.
