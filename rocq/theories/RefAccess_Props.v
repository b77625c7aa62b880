(** C60: sub-objects.  C61: finding members by name, name/value pairs.  C62: member descriptions.
    C63: setting numbers directly. *)
From Verif Require Import Base Reflector_Model Reflector_Spec Reflector_Proof BinDump_Model RefAccess_Model.

Lemma by_id_iff cls id t : by_id cls id = Some t <-> 0 <= id /\ nth_error cls (Z.to_nat id) = Some t.
Proof.
  unfold by_id. destruct (Z.leb_spec 0 id); cbn [andb].
  - destruct (Z.ltb_spec id (Z.of_nat (length cls))); [tauto|]. split; [discriminate|]. intros [_ E].
    assert (nth_error cls (Z.to_nat id) = None) by (apply nth_error_None; lia). congruence.
  - split; [discriminate|lia].
Qed.
Definition list_like (t : reflType) : Prop := type t = RArray \/ type t = RVector \/ type t = RArrayClass.
Definition classy (k : REFType) : Prop := k = RClass \/ k = RBitClass.

(** *** C60 *)
(** GetReflectedSubClass(id, subID) gives an object exactly when member id is an object of a registered
    class or an array of them and subID is 0 or a valid element number; the object's address is that of
    the member or of the element. *)
Theorem C60_result : forall sub c base id subID k addr,
  SubClass sub (c, base) id subID = Some (k, addr) <->
  exists t, 0 <= id /\ nth_error (cTypes c) (Z.to_nat id) = Some t /\ (subID = 0 \/ subID < numItems t) /\ sub (typeHash t) = Some k /\
    ((classy (type t) /\ addr = (base + Z.to_nat (offset t))%nat) \/
     (list_like t /\ classy (subType t) /\ addr = (base + Z.to_nat (offset t) + Z.to_nat (subID * subSize t))%nat)).
Proof.
  intros sub c base id subID k addr. unfold SubClass. split.
  - intros E. destruct (by_id (cTypes c) id) as [t|] eqn:F; [|discriminate]. apply by_id_iff in F as [F0 F]. exists t. split; [exact F0|]. split; [exact F|].
    destruct (negb (subID =? 0) && (numItems t <=? subID)) eqn:B; [discriminate|].
    split. { destruct (Z.eqb_spec subID 0); [now left|]. right. destruct (Z.leb_spec (numItems t) subID); [discriminate|lia]. }
    unfold list_like, classy. fold (nat_offset t) in *. destruct (type t) eqn:Y; try discriminate;
      try (destruct (sub (typeHash t)) as [k'|]; [|discriminate]; assert (k' = k) by congruence; assert ((base + nat_offset t + 0)%nat = addr) by congruence; subst; split; [reflexivity|left; split; [tauto|unfold nat_offset; lia]]).
    all: destruct (subType t) eqn:Y2; try discriminate; (destruct (sub (typeHash t)) as [k'|]; [|discriminate]; assert (k' = k) by congruence; split; [congruence|right; split; [tauto|split; [tauto|unfold nat_offset in *; congruence]]]).
  - intros (t & H0 & Ht & Hs & Hk & Ha). assert (F : by_id (cTypes c) id = Some t) by (apply by_id_iff; auto). rewrite F.
    assert (B : negb (subID =? 0) && (numItems t <=? subID) = false) by (destruct Hs as [-> |Hs]; [reflexivity|destruct (Z.leb_spec (numItems t) subID); [lia|apply andb_false_r]]).
    rewrite B. destruct Ha as [[[Y|Y] ->]|[[Y|[Y|Y]] [[Y2|Y2] ->]]]; rewrite Y, ?Y2, Hk; unfold nat_offset; rewrite ?Nat.add_0_r; reflexivity.
Qed.
Print Assumptions C60_result.

(** Elements of an array that lies inside its object lie inside it too, and different elements do not overlap. *)
Theorem C60_elements : forall sub c base id i j k k' a b size t,
  nth_error (cTypes c) (Z.to_nat id) = Some t -> list_like t -> 0 <= offset t -> 0 <= subSize t ->
  offset t + numItems t * subSize t <= size -> 0 <= i < numItems t -> 0 <= j < numItems t ->
  SubClass sub (c, base) id i = Some (k, a) -> SubClass sub (c, base) id j = Some (k', b) ->
  (Z.of_nat base <= Z.of_nat a /\ Z.of_nat a + subSize t <= Z.of_nat base + size) /\ (i < j -> Z.of_nat a + subSize t <= Z.of_nat b).
Proof.
  intros sub c base id i j k k' a b size t Ht Hl Ho Hs Hsz Hi Hj Ea Eb.
  apply C60_result in Ea as (t1 & _ & E1 & _ & _ & A). apply C60_result in Eb as (t2 & _ & E2 & _ & _ & B).
  assert (t1 = t) by congruence. assert (t2 = t) by congruence. subst t1 t2.
  assert (N : ~ classy (type t)) by (unfold classy, list_like in *; intuition congruence).
  destruct A as [[A _]|(_ & _ & ->)]; [tauto|]. destruct B as [[B _]|(_ & _ & ->)]; [tauto|].
  assert (P : forall x, 0 <= x < numItems t -> 0 <= x * subSize t /\ x * subSize t + subSize t <= numItems t * subSize t).
  { intros x Hx. assert ((x + 1) * subSize t <= numItems t * subSize t) by (apply Z.mul_le_mono_nonneg_r; lia). split; [apply Z.mul_nonneg_nonneg; lia|lia]. }
  pose proof (P i Hi) as [P1 P2]. pose proof (P j Hj) as [P3 P4]. split; [lia|]. intros Hij.
  assert ((i + 1) * subSize t <= j * subSize t) by (apply Z.mul_le_mono_nonneg_r; lia). lia.
Qed.
Print Assumptions C60_elements.

(** IsReflectedSubClass says of a described member whether it is an object or an array of objects. *)
Theorem C60_query : forall c i t, nth_error (iTypes c) i = Some t -> ID t = Z.of_nat i ->
  (IsReflectedSubClass c (Z.of_nat i) = true <-> classy (type t) \/ ((type t = RArray \/ type t = RArrayClass) /\ classy (subType t))) /\
  (IsArray c (Z.of_nat i) = true <-> type t = RArray \/ type t = RArrayClass).
Proof.
  intros c i t Et Ei. assert (F : by_id (iTypes c) (Z.of_nat i) = Some t) by (apply by_id_iff; rewrite Nat2Z.id; split; [lia|exact Et]).
  unfold IsReflectedSubClass, IsArray. rewrite F, Ei, F. unfold classy, is_array.
  destruct (type t), (subType t); cbn [is_class orb andb]; split; split; intros H; try reflexivity; try discriminate;
    repeat (destruct H as [H|H]); try discriminate; try tauto; destruct H as [[H|H] [H2|H2]]; discriminate.
Qed.
Print Assumptions C60_query.
Theorem C60_query_none : forall c id, id < 0 \/ Z.of_nat (length (iTypes c)) <= id ->
  IsReflectedSubClass c id = false /\ IsArray c id = false.
Proof.
  intros c id H. assert (F : by_id (iTypes c) id = None) by (unfold by_id; destruct (Z.leb_spec 0 id); cbn [andb]; [|reflexivity]; destruct (Z.ltb_spec id (Z.of_nat (length (iTypes c)))); [lia|reflexivity]).
  unfold IsReflectedSubClass, IsArray. rewrite F. split; reflexivity.
Qed.
Print Assumptions C60_query_none.

(** An array without elements still hands out an element 0. *)
Theorem C60_empty_array_refuted : forall sub c base id t k, 0 <= id -> nth_error (cTypes c) (Z.to_nat id) = Some t ->
  list_like t -> numItems t = 0 -> classy (subType t) -> sub (typeHash t) = Some k ->
  SubClass sub (c, base) id 0 = Some (k, (base + Z.to_nat (offset t))%nat).
Proof.
  intros sub c base id t k H0 Ht Hl Hn Hc Hk. apply C60_result. exists t. split; [exact H0|]. split; [exact Ht|]. split; [now left|]. split; [exact Hk|].
  right. split; [exact Hl|]. split; [exact Hc|]. change (Z.to_nat (0 * subSize t)) with 0%nat. lia.
Qed.
Print Assumptions C60_empty_array_refuted.

Example C60_case : SubClass (fun h => if h =? 9 then Some (mkCls 9 [] []) else None)
  (mkCls 1 [mkRefl RArray RClass 12 0 3 4 100 9] [], 1000%nat) 0 2 = Some (mkCls 9 [] [], 1028%nat).
Proof. reflexivity. Qed.

(** *** C61 *)
(** the member a hash means: the first of that name, or when there is none the first with that alias *)
Definition named (c : info) (hash : Z) (i : nat) (t : reflType) : Prop :=
  (nth_error (iTypes c) i = Some t /\ nameHash t = hash /\ forall j u, (j < i)%nat -> nth_error (iTypes c) j = Some u -> nameHash u <> hash) \/
  ((forall u, In u (iTypes c) -> nameHash u <> hash) /\
   exists al, iAliasHashes c = Some al /\ nth_error (iTypes c) i = Some t /\ nth_error al i = Some hash /\
     forall j, (j < i)%nat -> nth_error al j <> Some hash).
(** there is an alias for every member when there are any *)
Definition aliased (c : info) : Prop := forall al, iAliasHashes c = Some al -> length al = length (iTypes c).

Lemma find_first {A} (f : A -> bool) l x : find f l = Some x <-> exists i, nth_error l i = Some x /\ f x = true /\ forall j y, (j < i)%nat -> nth_error l j = Some y -> f y = false.
Proof.
  split.
  - induction l as [|a l IH]; [discriminate|]. cbn [find]. destruct (f a) eqn:E.
    + intros H. assert (a = x) by congruence. subst. exists 0%nat. split; [reflexivity|]. split; [exact E|]. lia.
    + intros H. destruct (IH H) as (i & H1 & H2 & H3). exists (S i). split; [exact H1|]. split; [exact H2|]. intros [|j] y Hj Hy; [cbn in Hy; congruence|]. apply (H3 j); [lia|exact Hy].
  - intros (i & H1 & H2 & H3). revert i H1 H3. induction l as [|a l IH]; intros i H1 H3; [destruct i; discriminate|]. cbn [find].
    destruct i as [|i]. { cbn in H1. assert (a = x) by congruence. subst. now rewrite H2. }
    rewrite (H3 0%nat a) by (auto; lia). apply (IH i H1). intros j y Hj Hy. apply (H3 (S j)); [lia|exact Hy].
Qed.
Lemma nth_combine {A B} (l : list A) (m : list B) i : nth_error (combine l m) i = match nth_error l i, nth_error m i with Some a, Some b => Some (a, b) | _, _ => None end.
Proof. revert m i. induction l as [|a l IH]; intros [|b m] [|i]; cbn; try reflexivity; [destruct (nth_error l i); reflexivity|apply IH]. Qed.

Theorem C61_lookup : forall c hash t, aliased c -> (GetReflectedType c hash = Some t <-> exists i, named c hash i t).
Proof.
  intros c hash t HA. unfold GetReflectedType, by_hash. split.
  - destruct (find (fun u => nameHash u =? hash) (iTypes c)) as [u|] eqn:F.
    + intros H. assert (u = t) by congruence. subst u. apply find_first in F as (i & F1 & F2 & F3). exists i. left. split; [exact F1|]. split; [lia|].
      intros j u Hj Hu. specialize (F3 j u Hj Hu). lia.
    + intros H. destruct (iAliasHashes c) as [al|] eqn:EA; [|rewrite combine_nil in H; discriminate].
      destruct (find (fun p => snd p =? hash) (combine (iTypes c) al)) as [[u h]|] eqn:F2; [|discriminate]. assert (u = t) by congruence. subst u.
      apply find_first in F2 as (i & G1 & G2 & G3). cbn [snd] in G2. rewrite nth_combine in G1.
      destruct (nth_error (iTypes c) i) as [u|] eqn:Et; [|discriminate]. destruct (nth_error al i) as [h'|] eqn:Ea; [|discriminate]. assert (u = t) by congruence. assert (h' = h) by congruence. subst u h'.
      exists i. right. split. { intros v Hv. apply (find_none _ _ F) in Hv. lia. }
      exists al. split; [exact EA|]. split; [exact Et|]. split; [rewrite Ea; f_equal; lia|].
      intros j Hj Hbad. destruct (nth_error (iTypes c) j) as [v|] eqn:Ev.
      * specialize (G3 j (v, hash) Hj). rewrite nth_combine, Ev, Hbad in G3. specialize (G3 eq_refl). cbn [snd] in G3. lia.
      * apply nth_error_None in Ev. assert (i < length (iTypes c))%nat by (apply nth_error_Some; congruence). lia.
  - intros (i & [(H1 & H2 & H3)|(H1 & al & EA & H2 & H3 & H4)]).
    + replace (find (fun u => nameHash u =? hash) (iTypes c)) with (Some t); [reflexivity|]. symmetry. apply find_first. exists i. split; [exact H1|]. split; [lia|].
      intros j y Hj Hy. specialize (H3 j y Hj Hy). lia.
    + destruct (find (fun u => nameHash u =? hash) (iTypes c)) as [u|] eqn:F. { apply find_some in F as [F1 F2]. specialize (H1 u F1). lia. }
      rewrite EA. replace (find (fun p => snd p =? hash) (combine (iTypes c) al)) with (Some (t, hash)); [reflexivity|]. symmetry. apply find_first. exists i.
      split. { rewrite nth_combine, H2, H3. reflexivity. } split; [cbn; lia|].
      intros j [v h] Hj Hy. rewrite nth_combine in Hy. destruct (nth_error (iTypes c) j); [|discriminate]. destruct (nth_error al j) as [h'|] eqn:Ea; [|discriminate].
      assert (h' = h) by congruence. subst. cbn [snd]. destruct (Z.eqb_spec h hash); [|reflexivity]. subst. exfalso. now apply (H4 j Hj).
Qed.
Print Assumptions C61_lookup.

(** In a class whose descriptions carry their own positions, every call that takes a name does exactly
    what the call that takes the position does. *)
Definition numbered (c : info) : Prop := forall i t, nth_error (iTypes c) i = Some t -> ID t = Z.of_nat i.
Theorem C61_same_member : forall c hash i t, aliased c -> numbered c -> named c hash i t ->
  (forall (R : Type) (none : R) (f : Z -> R), via_hash c none f hash = f (Z.of_nat i)) /\
  (forall e value mem, SetByHash e c hash value mem = SetReflectedValue e (iTypes c) (Z.of_nat i) value mem).
Proof.
  intros c hash i t HA HN H. assert (E : GetReflectedType c hash = Some t) by (apply C61_lookup; [exact HA|now exists i]).
  assert (Hi : nth_error (iTypes c) i = Some t) by (destruct H as [(H & _)|(_ & al & _ & H & _)]; exact H). split.
  - intros R none f. unfold via_hash. rewrite E. f_equal. now apply HN.
  - intros e value mem. unfold SetByHash, SetReflectedValue. rewrite E. assert (F : by_id (iTypes c) (Z.of_nat i) = Some t) by (apply by_id_iff; rewrite Nat2Z.id; split; [lia|exact Hi]). now rewrite F.
Qed.
Print Assumptions C61_same_member.
(** A hash that is neither a name nor an alias changes nothing. *)
Theorem C61_unknown : forall c hash, aliased c -> (forall i t, ~ named c hash i t) ->
  (forall (R : Type) (none : R) (f : Z -> R), via_hash c none f hash = none) /\
  (forall e value mem, SetByHash e c hash value mem = Some (EInvalidDestination, mem)).
Proof.
  intros c hash HA H. assert (E : GetReflectedType c hash = None).
  { destruct (GetReflectedType c hash) as [t|] eqn:E; [|reflexivity]. apply C61_lookup in E as (i & E); [|exact HA]. now apply H in E. }
  split; intros; unfold via_hash, SetByHash; rewrite E; reflexivity.
Qed.
Print Assumptions C61_unknown.

(** A member without an alias can be found under the hash 0 in a class that has aliases. *)
Theorem C61_no_alias_refuted : forall c al i t, iAliasHashes c = Some al -> length al = length (iTypes c) ->
  (forall u, In u (iTypes c) -> nameHash u <> 0) -> nth_error (iTypes c) i = Some t -> nth_error al i = Some 0 ->
  (forall j, (j < i)%nat -> nth_error al j <> Some 0) -> GetReflectedType c 0 = Some t.
Proof.
  intros c al i t EA HL HN Ht Ha Hf. apply C61_lookup; [intros al' E; congruence|]. exists i. right. split; [exact HN|]. exists al. auto.
Qed.
Print Assumptions C61_no_alias_refuted.

(** The members of a bit field carry the positions of their declarations.  Reflected in another order,
    reading a member by name reads another one, while setting it by name sets the right one. *)
Definition swapped : info := mkInfo [BuildBFReflType false 20 1 4 4; BuildBFReflType false 10 0 4 0] None None None None.
Theorem C61_bitfield_order_refuted : forall e,
  GetReflectedType swapped 10 = Some (BuildBFReflType false 10 0 4 0) /\
  (forall mem, via_hash swapped [] (fun id => match GetReflectedValue e (iTypes swapped) id mem with Some s => s | None => [] end) 10 =
               match GetReflectedValue e (iTypes swapped) 0 mem with Some s => s | None => [] end) /\
  via_hash swapped [] (fun id => match GetReflectedValue e (iTypes swapped) id [0x35; 0; 0; 0; 0; 0; 0; 0] with Some s => s | None => [] end) 10 = [51] /\
  SetByHash e swapped 10 [55] [0x35; 0; 0; 0; 0; 0; 0; 0] = Some (ENone, [0x37; 0; 0; 0; 0; 0; 0; 0]).
Proof. intros e. split; [reflexivity|]. split; [reflexivity|]. split; vm_compute; reflexivity. Qed.
Print Assumptions C61_bitfield_order_refuted.

(** Name/value pairs.  A description a%b (a without percent sign) is the two texts around it, one
    without percent sign is a text with nothing behind. *)
Theorem C61_description : (forall a b, ~ In 37 a -> desc_parts (a ++ 37 :: b) = (a, b)) /\ (forall a, ~ In 37 a -> desc_parts a = (a, [])).
Proof.
  assert (D1 : forall a b p k, ~ In 37 a -> desc_part (a ++ 37 :: b) p k = (k + length a + if p then 1 else 0)%nat).
  { induction a as [|c a IH]; intros b p k H; cbn [app desc_part length]. - change (37 =? 37) with true. cbn iota. destruct p; lia.
    - destruct (Z.eqb_spec c 37); [subst; exfalso; apply H; now left|]. rewrite IH by (intros Q; apply H; now right). destruct p; lia. }
  assert (D2 : forall a p k, ~ In 37 a -> desc_part a p k = (k + length a)%nat).
  { induction a as [|c a IH]; intros p k H; cbn [desc_part length]; [lia|]. destruct (Z.eqb_spec c 37); [subst; exfalso; apply H; now left|]. rewrite IH by (intros Q; apply H; now right). lia. }
  split.
  - intros a b H. unfold desc_parts. rewrite !D1 by exact H. cbn [Nat.add]. f_equal.
    + rewrite Nat.add_0_r, firstn_app, Nat.sub_diag. cbn [firstn]. rewrite app_nil_r. apply firstn_all.
    + rewrite skipn_app. rewrite skipn_all2 by lia. replace (length a + 1 - length a)%nat with 1%nat by lia. reflexivity.
  - intros a H. unfold desc_parts. rewrite !D2 by exact H. cbn [Nat.add]. rewrite firstn_all, skipn_all. reflexivity.
Qed.
Print Assumptions C61_description.

(** GetReflectedPair on a class reflected with names, aliases and descriptions: the name is the alias
    when asked for and there is one; the value is put between the two parts of the description when
    asked for and its first part is not empty. *)
Theorem C61_pair : forall c value i ns al ds n a d1 d2 t useAlias format,
  nth_error (iTypes c) i = Some t -> iNames c = Some ns -> iAliases c = Some al -> iDescs c = Some ds ->
  nth_error ns i = Some n -> nth_error al i = Some a -> nth_error ds i = Some (d1, d2) ->
  GetReflectedPair c value (Z.of_nat i) useAlias format =
  Some (match a with Some s => if useAlias then s else n | None => n end,
        if format then match d1, d2 with
                       | [], _ => value (Z.of_nat i)
                       | _, [] => d1 ++ [32] ++ value (Z.of_nat i)
                       | _, _ => d1 ++ [32] ++ value (Z.of_nat i) ++ [32] ++ d2
                       end
        else value (Z.of_nat i)).
Proof.
  intros c value i ns al ds n a d1 d2 t useAlias format Ht Hn Ha Hd En Ea Ed. unfold GetReflectedPair.
  assert (i < length (iTypes c))%nat by (apply nth_error_Some; congruence).
  replace (Z.of_nat i <? 0) with false by lia. replace (Z.of_nat (length (iTypes c)) <=? Z.of_nat i) with false by lia. cbn [orb].
  rewrite Nat2Z.id, Hn, Ha, Hd, Ed. rewrite (nth_error_nth al i None Ea). rewrite En.
  destruct useAlias, format, a as [s|], d1 as [|x d1], d2 as [|y d2]; cbn [app]; rewrite ?app_nil_r; reflexivity.
Qed.
Print Assumptions C61_pair.
(** A member number the class does not have gives two empty texts, whatever the class is reflected with. *)
Theorem C61_pair_none : forall c value id useAlias format, id < 0 \/ Z.of_nat (length (iTypes c)) <= id ->
  GetReflectedPair c value id useAlias format = Some ([], []).
Proof.
  intros c value id useAlias format H. unfold GetReflectedPair.
  replace ((id <? 0) || (Z.of_nat (length (iTypes c)) <=? id)) with true by lia. reflexivity.
Qed.
Print Assumptions C61_pair_none.
(** On a class reflected without aliases or descriptions the same requests dereference null pointers. *)
Theorem C61_pair_refuted : forall c value i t useAlias, nth_error (iTypes c) i = Some t ->
  (iDescs c = None -> GetReflectedPair c value (Z.of_nat i) useAlias true = None) /\
  (iAliases c = None -> iNames c <> None -> forall format, GetReflectedPair c value (Z.of_nat i) true format = None).
Proof.
  intros c value i t useAlias Ht. assert (i < length (iTypes c))%nat by (apply nth_error_Some; congruence). unfold GetReflectedPair.
  replace (Z.of_nat i <? 0) with false by lia. replace (Z.of_nat (length (iTypes c)) <=? Z.of_nat i) with false by lia. cbn [orb]. split.
  - intros ->. destruct (match iNames c with None => _ | Some _ => _ end); reflexivity.
  - intros E En format. destruct (iNames c); [|congruence]. rewrite E. reflexivity.
Qed.
Print Assumptions C61_pair_refuted.
(** A description that starts with the percent sign (only a unit) is dropped. *)
Theorem C61_unit_refuted : forall c value i ns al ds n a unit t, nth_error (iTypes c) i = Some t -> iNames c = Some ns -> iAliases c = Some al -> iDescs c = Some ds ->
  nth_error ns i = Some n -> nth_error al i = Some a -> nth_error ds i = Some (desc_parts (37 :: unit)) ->
  GetReflectedPair c value (Z.of_nat i) false true = Some (n, value (Z.of_nat i)).
Proof.
  intros c value i ns al ds n a unit t Ht Hn Ha Hd En Ea Ed. change (37 :: unit) with ([] ++ 37 :: unit) in Ed. rewrite (proj1 C61_description [] unit) in Ed by (intros []).
  rewrite (C61_pair c value i ns al ds n a [] unit t false true Ht Hn Ha Hd En Ea Ed). destruct a; reflexivity.
Qed.
Print Assumptions C61_unit_refuted.

Definition C61_class : info := mkInfo [BuildReflType (TInt true 4) 10 0 0; BuildReflType (TFloat 4) 20 1 4]
  (Some [[97]; [98]]) (Some [None; Some [66]]) (Some [0; 30]) (Some [([], []); ([120], [109])]).
Example C61_case : aliased C61_class /\ numbered C61_class /\ named C61_class 30 1 (BuildReflType (TFloat 4) 20 1 4) /\
  GetReflectedPair C61_class (fun _ => [53]) 1 true true = Some ([66], [120; 32; 53; 32; 109]).
Proof.
  split; [intros al E; injection E as <-; reflexivity|]. split; [intros [|[|i]] t E; cbn in E; [injection E as <-; reflexivity|injection E as <-; reflexivity|destruct i; discriminate]|].
  split; [|reflexivity]. right. split; [intros u [<-|[<-|[]]]; cbn; lia|]. exists [0; 30]. repeat split. intros [|j] Hj; [cbn; congruence|lia].
Qed.

(** *** C62 *)
(** The description of a member says where it is, what it is and how its elements are laid out, for
    members in the first 65536 bytes with elements of up to 255 bytes and up to 65535 of them. *)
Definition item (T : cxx) : option (Z * cxx) := match T with TVec n e | TArr n e => Some (n, e) | _ => None end.
Theorem C62_members : forall T name index off, 0 <= off -> 0 <= index < 256 ->
  let d := BuildReflType T name index off in
  type d = TYPE T /\ nameHash d = name /\ ID d = index /\ (offset d = off <-> off < 65536) /\
  (forall n e, item T = Some (n, e) -> 0 <= n -> 0 <= sizeof e ->
     subType d = TYPE e /\ (numItems d = n <-> n < 65536) /\ (subSize d = sizeof e <-> sizeof e < 256)) /\
  (forall s k, T = TInt k s \/ T = TFloat s -> 0 <= s < 256 -> subSize d = s).
Proof.
  intros T name index off Ho Hi d. unfold d, BuildReflType. cbn [type nameHash ID offset subType numItems subSize].
  split; [reflexivity|]. split; [reflexivity|]. split; [apply Z.mod_small; exact Hi|].
  assert (W : forall w x, 0 < w -> 0 <= x -> wrap w x = x <-> x < 2 ^ w).
  { intros w x Hw Hx. unfold wrap. assert (0 < 2 ^ w) by (apply Z.pow_pos_nonneg; lia). split; intros H1.
    - pose proof (Z.mod_pos_bound x (2 ^ w)). lia.
    - apply Z.mod_small. lia. }
  split; [apply (W 16); lia|]. split.
  - intros n e E Hn He. destruct T; cbn [item] in E; try discriminate; (assert (n0 = n) by congruence); 
      [assert (T = e) by congruence|assert (T = e) by congruence]; subst; cbn [SUBTYPE NUMITEMS SUBSIZE]; (split; [reflexivity|split; [apply (W 16); lia|apply (W 8); lia]]).
  - intros s k [-> | ->] Hs; cbn [SUBSIZE sizeof]; apply Z.mod_small; exact Hs.
Qed.
Print Assumptions C62_members.

(** What each member type is called in its description, the size recorded for it and, for
    enumerations, flags, objects and bit fields, the name by which its type is found. *)
Theorem C62_kinds : forall name index off,
  let d T := BuildReflType T name index off in
  (forall s, type (d (TInt true s)) = RInteger /\ type (d (TInt false s)) = RUnsigned /\ type (d (TFloat s)) = RFloat) /\
  (type (d TBool) = RBool /\ subSize (d TBool) = 1) /\
  (type (d TCString) = RCString /\ subSize (d TCString) = 0) /\ (type (d TString) = RString /\ subSize (d TString) = 0) /\
  (forall h s, type (d (TEnum h s)) = REnum /\ type (d (TClass h s)) = RClass /\ type (d (TFlags h s)) = REnumFlags /\ type (d (TBits h s)) = RBitClass) /\
  (forall n e, type (d (TVec n e)) = RVector /\ type (d (TArr n e)) = RArray) /\
  (forall T h s, In T [TEnum h s; TClass h s; TFlags h s; TBits h s] -> 0 <= s ->
     typeHash (d T) = h /\ (subSize (d T) = s <-> s < 256) /\ subType (d T) = RNone) /\
  (forall n T h s, In T [TEnum h s; TClass h s; TFlags h s; TBits h s] -> typeHash (d (TArr n T)) = h).
Proof.
  intros name index off d. unfold d, BuildReflType. cbn [type typeHash subType subSize].
  split; [intros s; repeat split|]. do 3 (split; [repeat split|]). split; [intros h s; repeat split|]. split; [intros n e; repeat split|]. split.
  - intros T h s HT Hs. assert (W : u8 s = s <-> s < 256).
    { change (u8 s) with (s mod 256). split; intros H1; [pose proof (Z.mod_pos_bound s 256); lia|apply Z.mod_small; lia]. }
    destruct HT as [<-|[<-|[<-|[<-|[]]]]]; (split; [reflexivity|split; [exact W|reflexivity]]).
  - intros n T h s HT. destruct HT as [<-|[<-|[<-|[<-|[]]]]]; reflexivity.
Qed.
Print Assumptions C62_kinds.
(** A member of a bit field: its sign, its width and position in bits, its number and name. *)
Theorem C62_bit_members : forall signed name index size position, 0 <= index < 256 -> 0 <= size -> 0 <= position ->
  let d := BuildBFReflType signed name index size position in
  type d = RBitMember /\ subType d = (if signed then RInteger else RUnsigned) /\ nameHash d = name /\ ID d = index /\ numItems d = 0 /\
  (subSize d = size <-> size < 256) /\ (offset d = position <-> position < 65536).
Proof.
  intros signed name index size position Hi Hs Hp d. unfold d, BuildBFReflType. cbn [type subType nameHash ID numItems subSize offset].
  do 3 (split; [reflexivity|]). split; [apply Z.mod_small; exact Hi|]. split; [reflexivity|].
  change (u8 size) with (size mod 256). change (u16 position) with (position mod 65536).
  split; split; intros H1; try (apply Z.mod_small; lia); [pose proof (Z.mod_pos_bound size 256); lia|pose proof (Z.mod_pos_bound position 65536); lia].
Qed.
Print Assumptions C62_bit_members.
Example C62_bit_case : BuildBFReflType true 7 2 5 11 = mkRefl RBitMember RInteger 5 2 0 11 7 0.
Proof. reflexivity. Qed.

(** Element i of an array member of objects is found at its true address, for all elements, exactly
    under those limits (the size limit only matters from two elements on). *)
Theorem C62_elements : forall sub c base id n h size name off k,
  nth_error (cTypes c) (Z.to_nat id) = Some (BuildReflType (TArr n (TClass h size)) name id off) -> 0 <= id -> sub h = Some k ->
  0 < n -> 0 < size -> 0 <= off ->
  ((forall i, 0 <= i < n -> SubClass sub (c, base) id i = Some (k, (base + Z.to_nat (off + i * size))%nat)) <->
   off < 65536 /\ n < 65536 /\ (n = 1 \/ size < 256)).
Proof.
  intros sub c base id n h size name off k Ht Hid Hk Hn Hs Ho.
  assert (A : forall i, 0 <= i -> SubClass sub (c, base) id i = if negb (i =? 0) && (u16 n <=? i) then None else Some (k, (base + Z.to_nat (u16 off) + Z.to_nat (i * u8 size))%nat)).
  { intros i Hi. unfold SubClass. rewrite (proj2 (by_id_iff _ _ _) (conj Hid Ht)). cbn [BuildReflType numItems type subType typeHash TYPE SUBTYPE SUBSIZE NUMITEMS Hash subSize nat_offset offset sizeof].
    destruct (negb (i =? 0) && (u16 n <=? i)); [reflexivity|]. rewrite Hk. unfold nat_offset. cbn [offset subSize BuildReflType SUBSIZE sizeof]. reflexivity. }
  split.
  - intros H. pose proof (H 0 ltac:(lia)) as H0. rewrite A in H0 by lia. cbn [Z.eqb negb andb] in H0.
    assert (E0 : (base + Z.to_nat (u16 off) + Z.to_nat (0 * u8 size))%nat = (base + Z.to_nat (off + 0 * size))%nat) by congruence.
    pose proof (Z.mod_pos_bound off 65536 ltac:(lia)) as B0. change (u16 off) with (off mod 65536) in *.
    assert (off < 65536) by lia. split; [assumption|].
    destruct (Z.eq_dec n 1) as [->|N1]; [split; [lia|now left]|].
    pose proof (H (n - 1) ltac:(lia)) as Hl. rewrite A in Hl by lia.
    destruct (negb (n - 1 =? 0) && (u16 n <=? n - 1)) eqn:B; [discriminate|].
    assert (N : n < 65536).
    { destruct (Z.leb_spec (u16 n) (n - 1)) as [L|L]; [replace (n - 1 =? 0) with false in B by lia; discriminate|]. change (u16 n) with (n mod 65536) in L.
      pose proof (Z.mod_pos_bound n 65536 ltac:(lia)). lia. }
    split; [exact N|]. right. pose proof (H 1 ltac:(lia)) as G1. rewrite A in G1 by lia.
    destruct (negb (1 =? 0) && (u16 n <=? 1)); [discriminate|].
    assert (E1 : (base + Z.to_nat (off mod 65536) + Z.to_nat (1 * u8 size))%nat = (base + Z.to_nat (off + 1 * size))%nat) by congruence.
    change (u8 size) with (size mod 256) in E1. pose proof (Z.mod_pos_bound size 256 ltac:(lia)). rewrite Z.mod_small in E1 by lia. lia.
  - intros (H1 & H2 & H3) i Hi. rewrite A by lia. change (u16 n) with (n mod 65536). change (u16 off) with (off mod 65536). change (u8 size) with (size mod 256). rewrite !Z.mod_small by lia.
    replace (negb (i =? 0) && (n <=? i)) with false by (destruct (Z.leb_spec n i); [lia|now rewrite andb_false_r]).
    do 2 f_equal. destruct H3 as [-> |H3].
    + replace i with 0 by lia. lia.
    + rewrite (Z.mod_small size) by lia. assert (0 <= i * size) by (apply Z.mul_nonneg_nonneg; lia). lia.
Qed.
Print Assumptions C62_elements.
(** Objects whose size is a multiple of 256: all elements of an array of them resolve to the first. *)
Theorem C62_alias_refuted : forall sub c base id n h m name off k,
  nth_error (cTypes c) (Z.to_nat id) = Some (BuildReflType (TArr n (TClass h (256 * m))) name id off) -> 0 <= id -> sub h = Some k ->
  0 < n < 65536 -> 0 <= off < 65536 ->
  forall i, 0 <= i < n -> SubClass sub (c, base) id i = Some (k, (base + Z.to_nat off)%nat).
Proof.
  intros sub c base id n h m name off k Ht Hid Hk Hn Ho i Hi. unfold SubClass. rewrite (proj2 (by_id_iff _ _ _) (conj Hid Ht)).
  unfold BuildReflType, nat_offset. cbn [numItems type subType typeHash TYPE SUBTYPE SUBSIZE NUMITEMS Hash subSize offset sizeof].
  change (u16 n) with (n mod 65536). change (u16 off) with (off mod 65536). rewrite !Z.mod_small by lia.
  replace (negb (i =? 0) && (n <=? i)) with false by (destruct (Z.leb_spec n i); [lia|now rewrite andb_false_r]).
  rewrite Hk. do 2 f_equal. change (u8 (256 * m)) with ((256 * m) mod 256). rewrite (Z.mul_comm 256 m), Z_mod_mult. lia.
Qed.
Print Assumptions C62_alias_refuted.

(** The element of an array of vectors is recovered from the type's hash: component kind, component size and count. *)
Theorem C62_vector_items : forall n e, 0 <= n < 65536 -> 0 <= sizeof e < 256 ->
  dec_type (Hash (TVec n e)) = TYPE e /\ dec_size (Hash (TVec n e)) = sizeof e /\ dec_num (Hash (TVec n e)) = n.
Proof.
  intros n e Hn Hs. cbn [Hash]. unfold CompileVectorHash, dec_type, dec_size, dec_num. change (u16 n) with (n mod 65536). change (u8 (sizeof e)) with (sizeof e mod 256). rewrite (Z.mod_small n), (Z.mod_small (sizeof e)) by lia.
  assert (C : 0 <= ref_code (TYPE e) < 15) by (destruct (TYPE e); cbn; lia). change (2 ^ 8) with 256. change (2 ^ 16) with 65536. set (r := ref_code (TYPE e)) in *.
  replace ((r + sizeof e * 256 + n * 65536) mod 256) with r by lia. replace (((r + sizeof e * 256 + n * 65536) / 256) mod 256) with (sizeof e) by lia.
  replace (((r + sizeof e * 256 + n * 65536) / 65536) mod 65536) with n by lia. split; [|split; reflexivity]. unfold r. destruct (TYPE e); reflexivity.
Qed.
Print Assumptions C62_vector_items.
(** Arrays of arrays lose the inner dimension and element size: different types, one description. *)
Theorem C62_nested_refuted : forall n m k name index off,
  TArr n (TArr (2 * m) (TInt k 1)) <> TArr n (TArr m (TInt k 2)) /\
  BuildReflType (TArr n (TArr (2 * m) (TInt k 1))) name index off = BuildReflType (TArr n (TArr m (TInt k 2))) name index off.
Proof.
  intros n m k name index off. split; [congruence|]. unfold BuildReflType. cbn [TYPE SUBTYPE SUBSIZE NUMITEMS Hash sizeof].
  replace (2 * m * 1) with (m * 2) by lia. reflexivity.
Qed.
Print Assumptions C62_nested_refuted.
Example C62_case : BuildReflType (TArr 3 (TVec 4 (TFloat 4))) 7 2 16 = mkRefl RArray RVector 16 2 3 16 7 (3 + 4 * 256 + 4 * 65536).
Proof. reflexivity. Qed.
Example C62_elements_case : nth_error (cTypes (mkCls 1 [BuildReflType (TArr 3 (TClass 9 12)) 7 0 16] [])) (Z.to_nat 0) = Some (BuildReflType (TArr 3 (TClass 9 12)) 7 0 16).
Proof. reflexivity. Qed.

(** *** C63 *)
Definition kinds (k : REFType) : Prop := k = RInteger \/ k = RUnsigned.
Definition sets (kind : REFType) : list reflType -> Z -> Z -> Z -> list Z -> option (ErrorType * list Z) :=
  match kind with RInteger => SetReflectedValueInt | _ => SetReflectedValueUInt end.
(** where element subID of member t is; element 0 is the member itself *)
Definition place (t : reflType) (subID : Z) : nat := (Z.to_nat (offset t) + Z.to_nat (subID * subSize t))%nat.

(** Setting an integer member, or element 1, 2, ... of an array or vector of them, stores exactly the
    number when it fits, and touches nothing else. *)
Theorem C63_set : forall kind cls id t v subID mem, kinds kind -> 0 <= id -> nth_error cls (Z.to_nat id) = Some t ->
  (subID = 0 /\ type t = kind \/ 0 < subID < numItems t /\ list_like t /\ subType t = kind) ->
  0 <= subSize t <= 8 -> inside (place t subID) (Z.to_nat (subSize t)) mem ->
  exists new, sets kind cls id v subID mem = Some (ENone, new) /\
    le_value (bytes_at (place t subID) (Z.to_nat (subSize t)) new) = v mod 2 ^ (8 * subSize t) /\
    same_outside (place t subID) (Z.to_nat (subSize t)) mem new.
Proof.
  intros kind cls id t v subID mem Hk Hid Ht Hs Hsz Hin.
  assert (E : sets kind cls id v subID mem = option_map (fun m => (ENone, m)) (store (le_bytes (Z.to_nat (subSize t)) v) (place t subID) mem)).
  { unfold sets. assert (G : SetReflectedNumber kind cls id v subID mem = option_map (fun m => (ENone, m)) (store (le_bytes (Z.to_nat (subSize t)) v) (place t subID) mem)).
    { unfold SetReflectedNumber. rewrite (proj2 (by_id_iff _ _ _) (conj Hid Ht)). unfold place, nat_offset. replace (subSize t <=? 8) with true by lia.
      assert (Rk : ref_eqb kind kind = true) by (destruct Hk as [-> | ->]; reflexivity).
      destruct Hs as [[-> Hy]|(Hr & Hl & Hy)].
      - cbn [Z.eqb negb andb]. rewrite Hy, Rk. reflexivity.
      - replace (subID =? 0) with false by lia. rewrite Hy, Rk. destruct Hl as [->|[->| ->]]; replace (subID <? numItems t) with true by lia; reflexivity. }
    destruct Hk as [-> | ->]; exact G. }
  destruct (store_ok (le_bytes (Z.to_nat (subSize t)) v) (place t subID) mem) as (new & S & R); [rewrite le_bytes_length; exact Hin|].
  exists new. split; [rewrite E, S; reflexivity|]. pose proof (replaced_bytes _ _ _ _ R) as B. pose proof (replaced_outside _ _ _ _ R) as O. rewrite le_bytes_length in B, O.
  split; [|exact O]. rewrite B, le_value_bytes. rewrite Z2Nat.id by lia. f_equal. change 256 with (2 ^ 8). rewrite <- Z.pow_mul_r by lia. reflexivity.
Qed.
Print Assumptions C63_set.

(** A number out of the member's range is not refused: the call succeeds and another number is stored. *)
Theorem C63_range_refuted : forall cls id t v mem, 0 <= id -> nth_error cls (Z.to_nat id) = Some t -> type t = RUnsigned ->
  0 <= subSize t < 8 -> inside (place t 0) (Z.to_nat (subSize t)) mem -> 2 ^ (8 * subSize t) <= v < 2 ^ 64 ->
  exists new, SetReflectedValueUInt cls id v 0 mem = Some (ENone, new) /\ le_value (bytes_at (place t 0) (Z.to_nat (subSize t)) new) <> v.
Proof.
  intros cls id t v mem Hid Ht Hy Hsz Hin Hv. destruct (C63_set RUnsigned cls id t v 0 mem (or_intror eq_refl) Hid Ht (or_introl (conj eq_refl Hy)) ltac:(lia) Hin) as (new & E & V & _).
  exists new. split; [exact E|]. rewrite V. assert (0 < 2 ^ (8 * subSize t)) by (apply Z.pow_pos_nonneg; lia). pose proof (Z.mod_pos_bound v (2 ^ (8 * subSize t)) ltac:(lia)). lia.
Qed.
Print Assumptions C63_range_refuted.

(** Everything else is refused with the object unchanged: no such member, an element number at or
    beyond the count, an element of something that has none, a member or element of another kind. *)
Theorem C63_refused : forall kind cls id v subID mem, kinds kind ->
  (forall t, 0 <= id -> nth_error cls (Z.to_nat id) = Some t ->
     (subID = 0 /\ type t <> kind) \/ (0 < subID /\ (~ list_like t \/ numItems t <= subID \/ subType t <> kind))) ->
  exists err, err <> ENone /\ sets kind cls id v subID mem = Some (err, mem).
Proof.
  intros kind cls id v subID mem Hk H.
  assert (G : exists err, err <> ENone /\ SetReflectedNumber kind cls id v subID mem = Some (err, mem)).
  { unfold SetReflectedNumber. destruct (by_id cls id) as [t|] eqn:F; [|exists EInvalidDestination; split; [discriminate|reflexivity]].
    apply by_id_iff in F as [Hid Ht]. specialize (H t Hid Ht).
    assert (Rk : forall x, x <> kind -> ref_eqb x kind = false) by (intros x Hx; destruct Hk as [-> | ->]; destruct x; try reflexivity; congruence).
    destruct H as [[-> Hy]|[H0 H]].
    - cbn [Z.eqb negb andb]. rewrite Rk by exact Hy. exists EInvalidDestination. split; [discriminate|reflexivity].
    - replace (subID =? 0) with false by lia. cbn [negb andb].
      destruct (match type t with RArray | RVector | RArrayClass => subID <? numItems t | _ => false end) eqn:B; cbn [negb].
      + destruct H as [H|[H|H]].
        * exfalso. apply H. unfold list_like. destruct (type t); try discriminate; auto.
        * destruct (type t); try discriminate; lia.
        * rewrite Rk by exact H. exists EInvalidDestination. split; [discriminate|reflexivity].
      + exists EOutOfRange. split; [discriminate|reflexivity]. }
  destruct Hk as [-> | ->]; exact G.
Qed.
Print Assumptions C63_refused.
(** The first element of an array or vector of integers cannot be set, whatever the array. *)
Theorem C63_first_element_refuted : forall kind cls id t v mem, kinds kind -> 0 <= id -> nth_error cls (Z.to_nat id) = Some t -> list_like t ->
  sets kind cls id v 0 mem = Some (EInvalidDestination, mem).
Proof.
  intros kind cls id t v mem Hk Hid Ht Hl. assert (G : SetReflectedNumber kind cls id v 0 mem = Some (EInvalidDestination, mem)).
  { unfold SetReflectedNumber. rewrite (proj2 (by_id_iff _ _ _) (conj Hid Ht)). cbn [Z.eqb negb andb].
    destruct Hk as [-> | ->], Hl as [->|[->| ->]]; reflexivity. }
  destruct Hk as [-> | ->]; exact G.
Qed.
Print Assumptions C63_first_element_refuted.

(** Floating point: a single gets the rounded value, a double the value; nothing else changes; members
    and elements of other sizes (long double) are refused. *)
Theorem C63_set_float : forall narrow cls id t v subID mem, (forall x, 0 <= narrow x < 2 ^ 32) -> 0 <= v < 2 ^ 64 -> 0 <= id -> nth_error cls (Z.to_nat id) = Some t ->
  (subID = 0 /\ type t = RFloat \/ 0 < subID < numItems t /\ list_like t /\ subType t = RFloat) -> 0 <= subSize t ->
  (subSize t = 4 \/ subSize t = 8 -> inside (place t subID) (Z.to_nat (subSize t)) mem ->
   exists new, SetReflectedValueFloat narrow cls id v subID mem = Some (ENone, new) /\
    le_value (bytes_at (place t subID) (Z.to_nat (subSize t)) new) = (if subSize t =? 4 then narrow v else v) /\
    same_outside (place t subID) (Z.to_nat (subSize t)) mem new) /\
  (subSize t <> 4 -> subSize t <> 8 -> SetReflectedValueFloat narrow cls id v subID mem = Some (EInvalidDestination, mem)).
Proof.
  intros narrow cls id t v subID mem Hn Hv Hid Ht Hs Hsz.
  assert (E : SetReflectedValueFloat narrow cls id v subID mem =
    match subSize t with
    | 4 => option_map (fun m => (ENone, m)) (store (le_bytes 4 (narrow v)) (place t subID) mem)
    | 8 => option_map (fun m => (ENone, m)) (store (le_bytes 8 v) (place t subID) mem)
    | _ => Some (EInvalidDestination, mem)
    end).
  { unfold SetReflectedValueFloat. rewrite (proj2 (by_id_iff _ _ _) (conj Hid Ht)). unfold place, nat_offset.
    destruct Hs as [[-> Hy]|(Hr & Hl & Hy)].
    - cbn [Z.eqb negb andb]. rewrite Hy. reflexivity.
    - replace (subID =? 0) with false by lia. rewrite Hy. destruct Hl as [->|[->| ->]]; replace (subID <? numItems t) with true by lia; reflexivity. }
  split.
  - intros Hc Hin. rewrite E. destruct Hc as [Ec|Ec]; rewrite Ec in *.
    + destruct (store_ok (le_bytes 4 (narrow v)) (place t subID) mem) as (new & S & R); [rewrite le_bytes_length; exact Hin|].
      exists new. rewrite S. split; [reflexivity|]. pose proof (replaced_bytes _ _ _ _ R) as B. pose proof (replaced_outside _ _ _ _ R) as O. rewrite le_bytes_length in B, O.
      change (Z.to_nat 4) with 4%nat. split; [|exact O]. rewrite B, le_value_bytes. cbn [Z.eqb Pos.eqb]. apply Z.mod_small. apply Hn.
    + destruct (store_ok (le_bytes 8 v) (place t subID) mem) as (new & S & R); [rewrite le_bytes_length; exact Hin|].
      exists new. rewrite S. split; [reflexivity|]. pose proof (replaced_bytes _ _ _ _ R) as B. pose proof (replaced_outside _ _ _ _ R) as O. rewrite le_bytes_length in B, O.
      change (Z.to_nat 8) with 8%nat. split; [|exact O]. rewrite B, le_value_bytes. cbn [Z.eqb Pos.eqb]. apply Z.mod_small. exact Hv.
  - intros H4 H8. rewrite E. destruct (subSize t) as [|p|p]; [reflexivity| |reflexivity].
    destruct p as [p|[p|[p|[p|p|]|]|]|]; try reflexivity; congruence.
Qed.
Print Assumptions C63_set_float.
Example C63_case : SetReflectedValueInt [BuildReflType (TArr 3 (TInt true 2)) 7 0 2] 0 (-2) 2 [0; 0; 0; 0; 0; 0; 0; 0] = Some (ENone, [0; 0; 0; 0; 0; 0; 254; 255]).
Proof. reflexivity. Qed.
Example C63_case_nonvacuous : nth_error [BuildReflType (TArr 3 (TInt true 2)) 7 0 2] (Z.to_nat 0) = Some (BuildReflType (TArr 3 (TInt true 2)) 7 0 2) /\
  list_like (BuildReflType (TArr 3 (TInt true 2)) 7 0 2) /\ inside (place (BuildReflType (TArr 3 (TInt true 2)) 7 0 2) 2) 2 [0; 0; 0; 0; 0; 0; 0; 0].
Proof. split; [reflexivity|]. split; [left; reflexivity|]. unfold inside. cbn. lia. Qed.
