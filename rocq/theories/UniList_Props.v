(** C50: iterating over the lists of the uni module. *)
From Verif Require Import Base UniList_Model.

(** A list object that lives at [o] and holds [l]. *)
Definition holds {A} (h : heap A) (o : nat) (l : list A) : Prop := h o = Some l.
Definition fits {A} (l : list A) : Prop := Z.of_nat (length l) < 2 ^ 64.

Lemma begin_end A (h : heap A) o l : holds h o l -> begin_ h o = Value (Iter o 0) /\ end_ h o = Value (Iter o (Z.of_nat (length l))).
Proof. intros H. split; [reflexivity|]. unfold end_, VirtualIterator, Size, bind. now rewrite H. Qed.

(** The loop from position [k], against a heap in which the first n elements stay what they were. *)
Lemma loop_from A (body : A -> heap A -> heap A) o l : fits l ->
  (forall a h, (exists more, holds h o (l ++ more)) -> exists more, holds (body a h) o (l ++ more)) ->
  forall k h fuel, (exists more, holds h o (l ++ more)) -> (k <= length l)%nat -> (length l - k < fuel)%nat ->
  loop fuel body h (Iter o (Z.of_nat k)) (Iter o (Z.of_nat (length l))) =
    Some (skipn k l, Value (fold_left (fun g a => body a g) (skipn k l) h)).
Proof.
  intros F Keep. intros k h fuel. revert k h. induction fuel as [|fuel IH]; intros k h Hm Hk Hf; [lia|]. cbn [loop]. unfold it_ne. cbn [iterPos tClass].
  destruct (Z.eqb_spec (Z.of_nat k) (Z.of_nat (length l))) as [E|E]; cbn [negb].
  - assert (k = length l) by lia. subst k. rewrite skipn_all. reflexivity.
  - unfold deref, At. cbn [tClass iterPos]. destruct Hm as [more Hm]. rewrite Hm, Nat2Z.id. assert (K : (k < length l)%nat) by lia.
    destruct (nth_error l k) as [a|] eqn:Ea; [|apply nth_error_None in Ea; lia].
    rewrite nth_error_app1, Ea by exact K. unfold pre_inc. cbn [fst tClass iterPos].
    assert (W : wrap 64 (Z.of_nat k + 1) = Z.of_nat (S k)) by (rewrite wrap_small; unfold fits in F; lia). rewrite W.
    rewrite IH; [|apply Keep; eauto|lia|lia].
    assert (Sk : skipn k l = a :: skipn (S k) l).
    { clear - Ea. revert l Ea. induction k as [|k IH]; intros [|x l] H; cbn in *; try discriminate; [congruence|]. now rewrite (IH l H). }
    rewrite Sk. reflexivity.
Qed.

(** A range-for over a list visits At(0), At(1), ..., At(Size-1), each once and in order, and stops:
    also when the body appends elements (which are then not visited), whatever else it does. *)
Theorem C50_visits_all : forall A (h : heap A) o l (body : A -> heap A -> heap A) fuel, holds h o l -> fits l -> (length l < fuel)%nat ->
  (forall a g more, holds g o (l ++ more) -> exists more', holds (body a g) o (l ++ more')) ->
  range_for fuel body h (begin_ h o) (end_ h o) = Some (l, Value (fold_left (fun g a => body a g) l h)).
Proof.
  intros A h o l body fuel H F Hf Keep. destruct (begin_end A h o l H) as [-> ->]. cbn [range_for].
  apply (loop_from A body o l F) with (k := 0%nat); try lia.
  - intros a g [more G]. apply (Keep a g more G).
  - exists []. rewrite app_nil_r. exact H.
Qed.
Print Assumptions C50_visits_all.
(** the elements visited are those of the accessor *)
Theorem C50_accessor : forall A (h : heap A) o l, holds h o l ->
  Size h o = Value (Z.of_nat (length l)) /\
  (forall i, (i < length l)%nat -> exists a, At h o (Z.of_nat i) = Value a /\ nth_error l i = Some a) /\
  (forall i, Z.of_nat (length l) <= i -> At h o i = Throws).
Proof.
  intros A h o l H. unfold Size, At. rewrite H. split; [reflexivity|]. split.
  - intros i Hi. rewrite H, Nat2Z.id. destruct (nth_error l i) as [a|] eqn:E; [exists a; split; reflexivity|apply nth_error_None in E; lia].
  - intros i Hi. rewrite H. destruct (nth_error l (Z.to_nat i)) eqn:E; [|reflexivity]. assert (Z.to_nat i < length l)%nat by (apply nth_error_Some; congruence). lia.
Qed.
Print Assumptions C50_accessor.

(** When the body shortens the list, the loop hands out elements while there are any and then the
    next access throws: no element outside the list is ever touched. *)
Theorem C50_shrinking_throws : forall A (h : heap A) o l k (body : A -> heap A -> heap A) fuel, holds h o l -> fits l -> (length l < fuel)%nat -> (0 < k < length l)%nat ->
  (forall a g m, holds g o m -> holds (body a g) o (firstn k m)) ->
  range_for fuel body h (begin_ h o) (end_ h o) = Some (firstn k l, Throws).
Proof.
  intros A h o l k body fuel H F Hf Hk Cut. destruct (begin_end A h o l H) as [-> ->]. cbn [range_for].
  assert (G : forall j g fuel, (j <= k)%nat -> (length l - j < fuel)%nat -> (holds g o l /\ j = 0%nat \/ holds g o (firstn k l)) ->
    loop fuel body g (Iter o (Z.of_nat j)) (Iter o (Z.of_nat (length l))) = Some (skipn j (firstn k l), Throws)).
  { intros j g fu. revert j g. induction fu as [|fu IH]; intros j g Hj Hfu Hg; [lia|]. cbn [loop]. unfold it_ne. cbn [iterPos tClass].
    destruct (Z.eqb_spec (Z.of_nat j) (Z.of_nat (length l))) as [E|E]; [lia|]. cbn [negb]. unfold deref, At. cbn [tClass iterPos]. rewrite Nat2Z.id.
    destruct (Nat.eq_dec j k) as [->|Nk].
    - destruct Hg as [[_ ?]|Hg]; [lia|]. rewrite Hg. destruct (nth_error (firstn k l) k) eqn:En.
      + assert (k < length (firstn k l))%nat by (apply nth_error_Some; congruence). rewrite firstn_length in *. lia.
      + rewrite skipn_all2 by (rewrite firstn_length; lia). reflexivity.
    - destruct (nth_error (firstn k l) j) as [a|] eqn:Ea; [|apply nth_error_None in Ea; rewrite firstn_length in Ea; lia].
      assert (El : nth_error l j = Some a) by (rewrite <- (firstn_skipn k l); rewrite nth_error_app1; [exact Ea|rewrite firstn_length; lia]).
      assert (Eg : match g o with Some l0 => match nth_error l0 j with Some x => Value x | None => Throws end | None => Undefined end = Value a).
      { destruct Hg as [[Hg _]|Hg]; rewrite Hg; [rewrite El|rewrite Ea]; reflexivity. }
      rewrite Eg. unfold pre_inc. cbn [fst tClass iterPos]. assert (W : wrap 64 (Z.of_nat j + 1) = Z.of_nat (S j)) by (rewrite wrap_small; unfold fits in F; lia). rewrite W.
      rewrite IH; [|lia|lia|].
      + assert (Sk : skipn j (firstn k l) = a :: skipn (S j) (firstn k l)).
        { clear - Ea. revert Ea. generalize (firstn k l). induction j as [|j IHj]; intros [|x m] H; cbn in *; try discriminate; [congruence|]. now rewrite (IHj m H). }
        rewrite Sk. reflexivity.
      + right. destruct Hg as [[Hg _]|Hg]; apply (Cut a) in Hg; [exact Hg|]. rewrite firstn_firstn, Nat.min_id in Hg. exact Hg. }
  apply (G 0%nat h fuel); auto; lia.
Qed.
Print Assumptions C50_shrinking_throws.

(** An iterator made for a position stands there; positions from 2^32-1 up mean the end.  Iterators
    are equal when their positions are, even over different lists; both increments advance by one,
    the postfix one giving the old iterator. *)
Theorem C50_iterators : forall A (h : heap A) o l n, holds h o l -> 0 <= n < 2 ^ 64 ->
  (n < 2 ^ 32 - 1 -> VirtualIterator h o n = Value (Iter o n)) /\
  (2 ^ 32 - 1 <= n -> VirtualIterator h o n = end_ h o) /\
  (forall a b, it_eq a b = true <-> iterPos a = iterPos b) /\ (forall a b, it_ne a b = negb (it_eq a b)) /\
  (forall it, 0 <= iterPos it < 2 ^ 64 - 1 -> let it' := Iter (tClass it) (iterPos it + 1) in pre_inc it = (it', it') /\ post_inc it = (it', it)).
Proof.
  intros A h o l n H Hn. unfold VirtualIterator, end_, npos. change 0xffffffff with (2 ^ 32 - 1). split; [|split; [|split; [|split]]].
  - intros L. destruct (Z.geb_spec n (2 ^ 32 - 1)); [lia|reflexivity].
  - intros L. destruct (Z.geb_spec n (2 ^ 32 - 1)); [|lia]. reflexivity.
  - intros a b. unfold it_eq. apply Z.eqb_eq.
  - reflexivity.
  - intros it Hi. unfold post_inc, pre_inc. rewrite wrap_small by lia. split; reflexivity.
Qed.
Print Assumptions C50_iterators.

(** Iterating a skeleton or a motion directly: fine when it hands out a borrowed list ... *)
Theorem C50_borrowed_owner : forall A (h : heap A) o l (body : A -> heap A -> heap A) fuel, holds h o l -> fits l -> (length l < fuel)%nat ->
  (forall a g more, holds g o (l ++ more) -> exists more', holds (body a g) o (l ++ more')) ->
  owner_for fuel (fun g => (g, Elem o false)) body h = Some (l, Value (fold_left (fun g a => body a g) l h)).
Proof. intros A h o l body fuel H F Hf Keep. unfold owner_for, owner_iter, destroy. cbn [owns ptr]. now apply C50_visits_all. Qed.
Print Assumptions C50_borrowed_owner.
(** ... undefined when it hands out a list it made for the call (each call a new object [o], [o']):
    both are gone before the first element is read. *)
Theorem C50_owning_owner_dangles : forall A (h : heap A) (fresh : heap A -> nat) l (body : A -> heap A -> heap A) fuel, l <> [] -> (0 < fuel)%nat ->
  owner_for fuel (fun g => ((fun a => if Nat.eqb a (fresh g) then Some l else g a), Elem (fresh g) true)) body h = Some ([], Undefined).
Proof.
  intros A h fresh l body fuel Hl Hf. unfold owner_for, owner_iter, destroy, end_, begin_, VirtualIterator, Size, bind. cbn [owns ptr npos Z.geb Z.compare].
  set (h1 := fun a => if (a =? fresh h)%nat then None else _). rewrite Nat.eqb_refl. cbn [range_for]. destruct fuel as [|fuel]; [lia|]. cbn [loop]. unfold it_ne. cbn [iterPos].
  destruct l as [|x l]; [congruence|]. assert (E : (0 =? Z.of_nat (length (x :: l))) = false) by (cbn [length]; lia). cbn [length Z.of_nat] in E |- *. change (npos >=? npos) with true. cbv iota beta. cbn [iterPos]. rewrite E. cbn [negb].
  unfold deref, At. cbn [tClass iterPos]. set (o := fresh h1). set (q := fresh h). destruct (Nat.eqb_spec q o) as [Eq|Eq]; [reflexivity|].
  rewrite Nat.eqb_refl. reflexivity.
Qed.
Print Assumptions C50_owning_owner_dangles.

(** *** Concrete cases that meet the hypotheses *)
Definition ex_heap : heap Z := fun o => if Nat.eqb o 5 then Some [1; 2; 3] else None.
(** a body that appends to the list it walks *)
Definition ex_push (a : Z) (g : heap Z) : heap Z := fun o => if Nat.eqb o 5 then option_map (fun m => m ++ [10 * a]) (g o) else g o.
Example ex_append : holds ex_heap 5 [1; 2; 3] /\ fits [1; 2; 3] /\
  (forall a g more, holds g 5 ([1; 2; 3] ++ more) -> exists more', holds (ex_push a g) 5 ([1; 2; 3] ++ more')) /\
  exists h', range_for 10 ex_push ex_heap (begin_ ex_heap 5) (end_ ex_heap 5) = Some ([1; 2; 3], Value h') /\ h' 5%nat = Some [1; 2; 3; 10; 20; 30].
Proof.
  split; [reflexivity|]. split; [reflexivity|]. split.
  - intros a g more H. exists (more ++ [10 * a]). unfold holds, ex_push in *. cbn [Nat.eqb]. rewrite H. cbn [option_map]. now rewrite app_assoc.
  - eexists. split; [reflexivity|]. vm_compute. reflexivity.
Qed.
Definition ex_cut (a : Z) (g : heap Z) : heap Z := fun o => option_map (firstn 2) (g o).
Example ex_shrink : (forall a g m, holds g 5 m -> holds (ex_cut a g) 5 (firstn 2 m)) /\
  range_for 10 ex_cut ex_heap (begin_ ex_heap 5) (end_ ex_heap 5) = Some ([1; 2], Throws).
Proof. split; [intros a g m H; unfold holds, ex_cut in *; now rewrite H|reflexivity]. Qed.
Example ex_owning : owner_for 10 (fun g : heap Z => ((fun a => if Nat.eqb a 7 then Some [1; 2; 3] else g a), Elem 7 true)) (fun _ g => g) ex_heap = Some ([], Undefined).
Proof. reflexivity. Qed.
