(** C71: the Python bindings. *)
From Coq Require Import Strings.Ascii Strings.String.
From Verif Require Import Base StringView_Model StringView_Spec StringView_Proof PyUni_Model PyUni_Spec.

Lemma subscript_in {A} (l : list A) i a : Z.of_nat (length l) < 2 ^ 63 -> 0 <= i -> nth_error l (Z.to_nat i) = Some a -> SubscriptRaw i l = Object a.
Proof.
  intros L Hi E. assert (H : (Z.to_nat i < length l)%nat) by (apply nth_error_Some; rewrite E; discriminate).
  unfold SubscriptRaw. replace (u64 i) with i by (unfold u64, wrap; rewrite Z.mod_small; lia).
  destruct (Z.ltb_spec i (Z.of_nat (length l))); [|lia]. rewrite E. reflexivity.
Qed.

Lemma taken_app a b k : taken (a ++ b) k = taken b (taken a k).
Proof. revert k. induction a as [|[| | |] a IH]; intros k; cbn; auto. Qed.
Lemma run_app {A} a b (p : plist A) : snd (run (a ++ b) p) = snd (run b (snd (run a p))).
Proof. revert p. induction a as [|c a IH]; intros p; [reflexivity|]. cbn [app run]. destruct (do_call c p) as [x p1]. specialize (IH p1).
  destruct (run (a ++ b) p1), (run a p1). cbn [snd] in *. exact IH. Qed.

Lemma step_live {A} (l : list A) c p x p' : cList p = Some l -> do_call c p = (x, p') ->
  cList p' = Some l /\ refs p' = refs p /\ (iterPos p <= length l -> iterPos p' <= length l)%nat /\
  (iterPos p' = match c with Iter => 0%nat | Next => if (iterPos p <? length l)%nat then S (iterPos p) else iterPos p | _ => iterPos p end).
Proof.
  intros E D. destruct c; cbn [do_call] in D; rewrite ?E in D.
  - injection D as <- <-. auto.
  - injection D as <- <-. auto.
  - injection D as <- <-. cbn. repeat split; auto; lia.
  - destruct (Nat.ltb_spec (iterPos p) (length l)); injection D as <- <-; cbn [cList iterPos refs]; repeat split; auto; lia.
Qed.

Lemma live_pos {A} (l : list A) before : forall p, cList p = Some l -> forall k, iterPos p = Nat.min k (length l) ->
  cList (snd (run before p)) = Some l /\ refs (snd (run before p)) = refs p /\
  iterPos (snd (run before p)) = Nat.min (taken before k) (length l).
Proof.
  induction before as [|c before IH]; intros p E k K; [cbn; auto|]. cbn [run].
  destruct (do_call c p) as [x p1] eqn:D. destruct (step_live l c p x p1 E D) as (E1 & R1 & _ & P1).
  assert (Q : iterPos p1 = Nat.min (match c with Iter => 0%nat | Next => S k | _ => k end) (length l)).
  { rewrite P1, K. destruct c; try reflexivity; try lia; destruct (Nat.ltb_spec (Nat.min k (length l)) (length l)); lia. }
  destruct (IH p1 E1 _ Q) as (E2 & R2 & P2). destruct (run before p1) as [xs p2]. cbn [snd] in *.
  split; [exact E2|]. split; [congruence|]. rewrite P2. destruct c; reflexivity.
Qed.

(** Whatever was called before, in whatever order, every call on a list that is alive does
    what is expected: the length, the element, and with Next the elements one by one since the
    last start of an iteration.  An index below 0 or past the end ends the program. *)
Theorem C71_protocol : forall (A : Type) (l : list A) r before c, Z.of_nat (length l) < 2 ^ 63 -> index_ok c ->
  expected l before c (fst (do_call c (snd (run before (mkPlist (Some l) 0 r))))).
Proof.
  intros A l r before c L Ok. destruct (live_pos l before (mkPlist (Some l) 0 r) eq_refl 0 eq_refl) as (E & _ & P).
  remember (snd (run before _)) as p. destruct c as [|i| |]; cbn [do_call expected]; rewrite ?E; try reflexivity.
  - cbn [fst index_ok] in *. split.
    + intros Hi. destruct (nth_error l (Z.to_nat i)) as [a|] eqn:N; [|apply nth_error_None in N; lia].
      exists a. split; [reflexivity|]. apply subscript_in; [exact L|lia|exact N].
    + intros Hi. unfold SubscriptRaw.
      assert (U : Z.of_nat (length l) <= u64 i).
      { unfold u64, wrap. destruct (Z_lt_dec i 0); [|rewrite Z.mod_small by lia; lia].
        rewrite <- (Z.mod_add _ 1) by lia. rewrite Z.mod_small by lia. lia. }
      destruct (Z.ltb_spec (u64 i) (Z.of_nat (length l))); [lia|reflexivity].
  - rewrite P. split.
    + intros K. rewrite Nat.min_l by lia. destruct (Nat.ltb_spec (taken before 0) (length l)); [|lia]. cbn [fst].
      destruct (nth_error l (taken before 0)) as [a|] eqn:N; [|apply nth_error_None in N; lia].
      exists a. split; [reflexivity|]. apply subscript_in; [exact L|lia|]. rewrite Nat2Z.id. exact N.
    + intros K. rewrite Nat.min_r by lia. rewrite Nat.ltb_irrefl. reflexivity.
Qed.
Print Assumptions C71_protocol.

Lemma loop_pure {A B} (f : A -> B) (l : list A) : Z.of_nat (length l) < 2 ^ 63 -> forall k fuel r, (k <= length l)%nat -> (length l - k < fuel)%nat ->
  loop fuel (pure f) (mkPlist (Some l) k r) = Some (map f (skipn k l), Done, decref (mkPlist (Some l) (length l) r)).
Proof.
  intros L k fuel. revert k. induction fuel as [|fuel IH]; intros k r K F; [lia|]. cbn [loop do_call cList iterPos refs].
  destruct (Nat.ltb_spec k (length l)) as [G|G].
  - destruct (nth_error l k) as [a|] eqn:N; [|apply nth_error_None in N; lia].
    rewrite (subscript_in l (Z.of_nat k) a L) by (try lia; rewrite Nat2Z.id; exact N). cbn [pure].
    rewrite IH by lia. cbn [option_map fst snd].
    assert (S1 : skipn k l = a :: skipn (S k) l).
    { clear -N. revert l N. induction k as [|k IH]; intros [|x l] N; try discriminate N; [injection N as ->; reflexivity|]. apply IH. exact N. }
    rewrite S1. reflexivity.
  - assert (k = length l) by lia. subst k. rewrite skipn_all. reflexivity.
Qed.

(** A for statement over a list held in [refs] places visits every element once, in order -
    and takes away one of those references. *)
Theorem C71_for_visits_all : forall (A B : Type) (f : A -> B) l pos h fuel, Z.of_nat (length l) < 2 ^ 63 -> 1 <= h -> (length l < fuel)%nat ->
  for_variable fuel (pure f) (mkPlist (Some l) pos h) =
    Some (map f l, Done, mkPlist (if h =? 1 then None else Some l) (length l) (h - 1)).
Proof.
  intros A B f l pos h fuel L H F. unfold for_variable, for_stmt, incref, decref at 1. cbn [do_call cList iterPos refs].
  replace (h + 1 - 1) with h by lia. destruct (Z.eqb_spec h 0); [lia|].
  rewrite (loop_pure f l L 0 fuel h) by lia. cbn [skipn]. unfold decref. cbn [cList iterPos refs].
  destruct (Z.eqb_spec (h - 1) 0), (Z.eqb_spec h 1); try lia; reflexivity.
Qed.
Print Assumptions C71_for_visits_all.

(** So after as many for statements as there are holders, the elements are released although
    every holder still has the list, and whatever uses it next crashes. *)
Fixpoint loops {A} (k fuel : nat) (p : plist A) : option (plist A) :=
  match k with
  | O => Some p
  | S k' => match for_variable fuel (pure (fun a => a)) p with Some (_, Done, p') => loops k' fuel p' | _ => None end
  end.
Theorem C71_loops_release_refuted : forall (A : Type) (l : list A) pos h fuel, Z.of_nat (length l) < 2 ^ 63 -> (1 <= h)%nat -> (length l < fuel)%nat ->
  (forall k, (k < h)%nat -> exists p, loops k fuel (mkPlist (Some l) pos (Z.of_nat h)) = Some p /\ cList p = Some l) /\
  exists p, loops h fuel (mkPlist (Some l) pos (Z.of_nat h)) = Some p /\ cList p = None /\
    fst (do_call Len p) = Crash /\ (forall i, fst (do_call (Get i) p) = Crash).
Proof.
  intros A l pos h fuel L Hh F.
  assert (G : forall k n pos, (k <= n)%nat -> (1 <= n)%nat -> exists q, loops k fuel (mkPlist (Some l) pos (Z.of_nat n)) =
     Some (mkPlist (if (k =? n)%nat then None else Some l) q (Z.of_nat n - Z.of_nat k))).
  { induction k as [|k IH]; intros n q Hk Hn.
    - exists q. destruct n; [lia|]. cbn [Nat.eqb loops]. replace (Z.of_nat (S n) - Z.of_nat 0) with (Z.of_nat (S n)) by lia. reflexivity.
    - cbn [loops]. rewrite C71_for_visits_all by lia. destruct (Z.eqb_spec (Z.of_nat n) 1) as [E|E].
      + assert (n = 1%nat) by lia. subst n. assert (k = 0%nat) by lia. subst k. cbn [loops Nat.eqb]. eexists. reflexivity.
      + replace (Z.of_nat n - 1) with (Z.of_nat (n - 1)) by lia. destruct (IH (n - 1)%nat (length l)) as (q' & ->); [lia|lia|].
        exists q'. f_equal. f_equal; [|lia]. destruct (Nat.eqb_spec k (n - 1)), (Nat.eqb_spec (S k) n); try lia; reflexivity. }
  split.
  - intros k Hk. destruct (G k h pos) as (q & ->); [lia|lia|]. destruct (Nat.eqb_spec k h); [lia|]. eexists. split; reflexivity.
  - destruct (G h h pos) as (q & ->); [lia|lia|]. rewrite Nat.eqb_refl. eexists. split; [reflexivity|]. cbn. auto.
Qed.
Print Assumptions C71_loops_release_refuted.

(** A for statement directly over a new list, as in for bone in skeleton.bones, crashes
    before the first element. *)
Theorem C71_for_temporary_refuted : forall (A B : Type) (body : A -> plist A -> B * plist A) l fuel,
  exists p, for_temporary (S fuel) body l = Some ([], Crashed, p).
Proof. intros A B body l fuel. eexists. unfold for_temporary, for_stmt. cbn. reflexivity. Qed.
Print Assumptions C71_for_temporary_refuted.

(** Two nested for statements over the same list, with at least two holders: the outer one
    ends after the first element; with one holder it crashes. *)
Theorem C71_nested_refuted : forall (A : Type) (a : A) l pos h fuel, Z.of_nat (length (a :: l)) < 2 ^ 63 -> (length (a :: l) < fuel)%nat ->
  let inner := fun (x : A) p => match for_variable fuel (pure (fun y => y)) p with
                                | Some (ys, _, p') => (map (pair x) ys, p') | None => ([], p) end in
  (2 <= h -> exists p, for_variable fuel inner (mkPlist (Some (a :: l)) pos h) = Some ([map (pair a) (a :: l)], Done, p)) /\
  (h = 1 -> exists p, for_variable fuel inner (mkPlist (Some (a :: l)) pos h) = Some ([map (pair a) (a :: l)], Crashed, p)).
Proof.
  intros A a l pos h fuel L F inner. cbn zeta.
  assert (I : forall x pos h, 1 <= h -> inner x (mkPlist (Some (a :: l)) pos h) =
     (map (pair x) (a :: l), mkPlist (if h =? 1 then None else Some (a :: l)) (length (a :: l)) (h - 1))).
  { intros x p n Hn. unfold inner. rewrite C71_for_visits_all by assumption. rewrite map_id. reflexivity. }
  destruct fuel as [|[|fuel]]; [cbn in F; lia|cbn in F; lia|].
  assert (St : forall n, 1 <= n -> for_variable (S (S fuel)) inner (mkPlist (Some (a :: l)) pos n) =
     option_map (fun r => (map (pair a) (a :: l) :: fst (fst r), snd (fst r), snd r))
       (loop (S fuel) inner (mkPlist (if n =? 1 then None else Some (a :: l)) (length (a :: l)) (n - 1)))).
  { intros n Hn. unfold for_variable, for_stmt, incref, decref. cbn [do_call cList iterPos refs].
    replace (n + 1 - 1) with n by lia. destruct (Z.eqb_spec n 0); [lia|].
    remember (S fuel) as g. cbn [loop do_call cList iterPos refs]. cbn [length Nat.ltb Nat.leb].
    rewrite (subscript_in (a :: l) (Z.of_nat 0) a L) by (try lia; reflexivity). rewrite I by exact Hn. reflexivity. }
  split.
  - intros H. rewrite St by lia. destruct (Z.eqb_spec h 1); [lia|].
    cbn [loop do_call cList iterPos refs]. rewrite Nat.ltb_irrefl. cbn [option_map fst snd]. eexists. reflexivity.
  - intros ->. rewrite St by lia. cbn [Z.eqb Pos.eqb]. cbn [loop do_call cList iterPos refs]. cbn [option_map fst snd]. eexists. reflexivity.
Qed.
Print Assumptions C71_nested_refuted.

(** Asking root bones for their parent wears out None: every such answer takes one from its
    reference count. *)
Theorem C71_parent_of_root_refuted : forall parents n,
  fold_left (fun c p => none_count (GetParent p) c) parents n =
    n - Z.of_nat (length (filter (fun p => match p with None => true | Some _ => false end) parents)).
Proof.
  induction parents as [|[p|] r IH]; intros n; cbn [fold_left filter length GetParent none_count]; [lia|rewrite IH; lia|rewrite IH; lia].
Qed.
Print Assumptions C71_parent_of_root_refuted.

(** Enumerations: entry number i has its name, any other number - negative ones too - is an
    IndexError; an attribute is the number of the first entry of that name, an unknown
    attribute returns null with no error set. *)
Theorem C71_enum : forall t, Z.of_nat (length t) < 2 ^ 63 ->
  (forall i, 0 <= i < Z.of_nat (length t) -> exists e, nth_error t (Z.to_nat i) = Some e /\ EnumSubscript t i = Name (snd e)) /\
  (forall i, - 2 ^ 63 <= i < 0 \/ Z.of_nat (length t) <= i < 2 ^ 63 -> EnumSubscript t i = IndexError) /\
  (forall a e b, t = a ++ e :: b -> ~ In (snd e) (map snd a) -> 0 <= fst e < 2 ^ 64 -> EnumGetAttribute t (snd e) = Id (fst e)) /\
  (forall name, ~ In name (map snd t) -> EnumGetAttribute t name = NullNoError).
Proof.
  intros t L. unfold EnumSubscript, EnumGetAttribute. split; [|split; [|split]].
  - intros i Hi. replace (u64 i) with i by (unfold u64, wrap; rewrite Z.mod_small; lia). rewrite Z.geb_leb.
    destruct (Z.leb_spec (Z.of_nat (length t)) i); [lia|].
    destruct (nth_error t (Z.to_nat i)) as [e|] eqn:N; [|apply nth_error_None in N; lia]. exists e. auto.
  - intros i Hi. assert (U : Z.of_nat (length t) <= u64 i).
    { unfold u64, wrap. destruct (Z_lt_dec i 0); [|rewrite Z.mod_small by lia; lia].
      rewrite <- (Z.mod_add _ 1) by lia. rewrite Z.mod_small by lia. lia. }
    rewrite Z.geb_leb. destruct (Z.leb_spec (Z.of_nat (length t)) (u64 i)); [reflexivity|lia].
  - intros a e b -> Hn He. enough (E : find (fun x => sv_eq (snd x) (snd e)) (a ++ e :: b) = Some e).
    { rewrite E. unfold u64, wrap. rewrite Z.mod_small by exact He. reflexivity. }
    clear L. induction a as [|x a IH]; cbn [app find].
    + destruct (operators_agree (snd e) (snd e)) as [[_ E] _]. rewrite E by reflexivity. reflexivity.
    + cbn [map In] in Hn. destruct (sv_eq (snd x) (snd e)) eqn:Q; [apply operators_agree in Q; exfalso; apply Hn; left; exact Q|].
      apply IH. intros H. apply Hn. right. exact H.
  - intros name Hn. enough (E : find (fun x => sv_eq (snd x) name) t = None) by (rewrite E; reflexivity).
    clear L. induction t as [|x t IH]; [reflexivity|]. cbn [find map In] in *.
    destruct (sv_eq (snd x) name) eqn:Q; [apply operators_agree in Q; exfalso; apply Hn; left; exact Q|].
    apply IH. intros H. apply Hn. right. exact H.
Qed.
Print Assumptions C71_enum.

(** In the three enumerations of the module, number and name convert into each other. *)
Theorem C71_module_enums : forall t, In t [trackTypes; motionTypes; boneTMTypes] -> forall i, 0 <= i < Z.of_nat (length t) ->
  exists name, EnumSubscript t i = Name name /\ EnumGetAttribute t name = Id i.
Proof.
  intros t Ht i Hi. cbn [In] in Ht.
  assert (C : forall t, forallb (fun k => match EnumSubscript t (Z.of_nat k) with
     | Name s => match EnumGetAttribute t s with Id n => n =? Z.of_nat k | _ => false end | _ => false end) (seq 0 (length t)) = true ->
     forall i, 0 <= i < Z.of_nat (length t) -> exists name, EnumSubscript t i = Name name /\ EnumGetAttribute t name = Id i).
  { clear. intros t C i Hi. rewrite forallb_forall in C. specialize (C (Z.to_nat i) ltac:(apply in_seq; lia)).
    rewrite Z2Nat.id in C by lia. destruct (EnumSubscript t i) as [s| | | |]; try discriminate C. exists s. split; [reflexivity|].
    destruct (EnumGetAttribute t s); try discriminate C. apply Z.eqb_eq in C. subst. reflexivity. }
  apply C; [|exact Hi]. destruct Ht as [<-|[<-|[<-|[]]]]; vm_compute; reflexivity.
Qed.
Print Assumptions C71_module_enums.
(** Their names, from 0 up, and nothing above. *)
Theorem C71_enum_names : forall t names,
  In (t, names) [(trackTypes, ["Position"; "Rotation"; "Scale"; "Matrix"; "PositionRotationScale"; "SingleFloat"]%string);
                 (motionTypes, ["Absolute"; "Relative"; "Additive"; "Delta"]%string);
                 (boneTMTypes, ["TMTYPE_RTS"; "TMTYPE_MATRIX"]%string)] ->
  forall i, 0 <= i < 2 ^ 63 ->
  EnumSubscript t i = match nth_error names (Z.to_nat i) with Some s => Name (map (fun c => Z.of_nat (nat_of_ascii c)) (list_ascii_of_string s)) | None => IndexError end.
Proof.
  intros t names Ht i Hi.
  assert (L : length t = length names /\ (length names <= 6)%nat /\ forall k, (k < length names)%nat -> EnumSubscript t (Z.of_nat k) =
    match nth_error names k with Some s => Name (map (fun c => Z.of_nat (nat_of_ascii c)) (list_ascii_of_string s)) | None => IndexError end).
  { clear Hi. cbn [In] in Ht. destruct Ht as [E|[E|[E|[]]]]; injection E as <- <-; (split; [reflexivity|]); (split; [cbn [length]; lia|]); intros k K; cbn [length] in K.
    - do 6 (destruct k as [|k]; [vm_compute; reflexivity|]). lia.
    - do 4 (destruct k as [|k]; [vm_compute; reflexivity|]). lia.
    - do 2 (destruct k as [|k]; [vm_compute; reflexivity|]). lia. }
  clear Ht. destruct L as [L [L6 K]]. destruct (Z_lt_dec i (Z.of_nat (length names))) as [B|B].
  - rewrite <- (Z2Nat.id i) at 1 by lia. apply K. lia.
  - rewrite (proj2 (nth_error_None names (Z.to_nat i))) by lia. destruct (C71_enum t) as (_ & H & _).
    + rewrite L. lia.
    + apply H. rewrite L. lia.
Qed.
Print Assumptions C71_enum_names.

(** Reflected enumerations: names and values as in the reflection data; a number outside the
    list, negative ones included, reads outside it. *)
Theorem C71_reflected_enum : forall names values, length values = length names -> Z.of_nat (length names) < 2 ^ 63 ->
  (forall i, 0 <= i < Z.of_nat (length names) -> exists s, nth_error names (Z.to_nat i) = Some s /\ ReflSubscript names i = Name s) /\
  (forall i, - 2 ^ 63 <= i < 0 \/ Z.of_nat (length names) <= i < 2 ^ 63 -> ReflSubscript names i = Outside) /\
  (forall a s b, names = a ++ s :: b -> ~ In s a -> exists v, nth_error values (length a) = Some v /\ ReflGetAttribute names values s = Id v) /\
  (forall s, ~ In s names -> ReflGetAttribute names values s = NullNoError).
Proof.
  intros names values LV L. unfold ReflSubscript, ReflGetAttribute. split; [|split; [|split]].
  - intros i Hi. replace (u64 i) with i by (unfold u64, wrap; rewrite Z.mod_small; lia).
    destruct (Z.ltb_spec i (Z.of_nat (length names))); [|lia].
    destruct (nth_error names (Z.to_nat i)) as [s|] eqn:N; [|apply nth_error_None in N; lia]. exists s. auto.
  - intros i Hi. assert (U : Z.of_nat (length names) <= u64 i).
    { unfold u64, wrap. destruct (Z_lt_dec i 0); [|rewrite Z.mod_small by lia; lia].
      rewrite <- (Z.mod_add _ 1) by lia. rewrite Z.mod_small by lia. lia. }
    destruct (Z.ltb_spec (u64 i) (Z.of_nat (length names))); [lia|reflexivity].
  - intros a s b E Hn.
    assert (F : forall k, find_index names s k = (k + length a)%nat).
    { rewrite E. clear -Hn. induction a as [|x a IH]; intros k; cbn [app find_index length].
      - destruct (operators_agree s s) as [[_ Q] _]. rewrite Q by reflexivity. lia.
      - cbn [In] in Hn. destruct (sv_eq x s) eqn:Q; [apply operators_agree in Q; exfalso; apply Hn; left; exact Q|].
        rewrite IH by (intros H; apply Hn; right; exact H). lia. }
    rewrite F. cbn [Nat.add]. assert (G : (length a < length names)%nat) by (rewrite E, app_length; cbn; lia).
    destruct (Nat.eqb_spec (length a) (length names)); [lia|].
    destruct (nth_error values (length a)) as [v|] eqn:N; [exists v; auto|apply nth_error_None in N; lia].
  - intros s Hn. assert (F : forall k, find_index names s k = (k + length names)%nat).
    { clear -Hn. induction names as [|x r IH]; intros k; cbn [find_index length]; [lia|].
      cbn [In] in Hn. destruct (sv_eq x s) eqn:Q; [apply operators_agree in Q; exfalso; apply Hn; left; exact Q|].
      rewrite IH by (intros H; apply Hn; right; exact H). lia. }
    rewrite F. cbn [Nat.add]. rewrite Nat.eqb_refl. reflexivity.
Qed.
Print Assumptions C71_reflected_enum.

(** Bones compare equal exactly when they are the same object or have the same number and
    name - an equivalence when an object has one number and name - and any two others are
    each greater than the other. *)
Definition same_bone (a b : bone) : Prop := fst (fst a) = fst (fst b) \/ (snd (fst a) = snd (fst b) /\ snd a = snd b).
Theorem C71_bone_compare : 
  (forall a b, (BoneCompare a b = 0 <-> same_bone a b) /\ (~ same_bone a b -> BoneCompare a b = 1 /\ BoneCompare b a = 1)) /\
  (forall a b c, (forall x y, In x [a; b; c] -> In y [a; b; c] -> fst (fst x) = fst (fst y) -> x = y) ->
     BoneCompare a b = 0 -> BoneCompare b c = 0 -> BoneCompare a c = 0).
Proof.
  assert (E : forall a b, (BoneCompare a b = 0 <-> same_bone a b) /\ (BoneCompare a b = 0 \/ BoneCompare a b = 1)).
  { intros [[pa ia] na] [[pb ib] nb]. unfold BoneCompare, same_bone. cbn [fst snd].
    destruct (Nat.eqb_spec pa pb) as [->|N]; cbn [orb]; [split; [split; auto|auto]|].
    destruct (Z.eqb_spec ia ib) as [->|M]; cbn [andb].
    - destruct (sv_eq na nb) eqn:Q.
      + apply operators_agree in Q. subst. split; [split; auto|auto].
      + split; [|auto]. split; [discriminate|]. intros [H|[_ H]]; [contradiction|]. subst.
        destruct (operators_agree nb nb) as [[_ R] _]. rewrite R in Q by reflexivity. discriminate.
    - split; [|auto]. split; [discriminate|]. intros [H|[H _]]; contradiction. }
  assert (Sym : forall a b, same_bone a b -> same_bone b a) by (intros a b [H|[H1 H2]]; [left; auto|right; auto]).
  split.
  - intros a b. split; [apply E|]. intros N. split.
    + destruct (E a b) as [I [H|H]]; [apply I in H; contradiction|exact H].
    + destruct (E b a) as [I [H|H]]; [apply I, Sym in H; contradiction|exact H].
  - intros a b c U H1 H2. apply E in H1. apply E in H2. apply E.
    assert (Q : forall x y, In x [a; b; c] -> In y [a; b; c] -> same_bone x y -> snd (fst x) = snd (fst y) /\ snd x = snd y).
    { intros x y Ix Iy [H|H]; [rewrite (U x y Ix Iy H); auto|exact H]. }
    destruct (Q a b) as [A1 A2]; [cbn; auto|cbn; auto|exact H1|]. destruct (Q b c) as [B1 B2]; [cbn; auto|cbn; auto|exact H2|].
    right. split; congruence.
Qed.
Print Assumptions C71_bone_compare.

Example C71_example :
  run [Iter; Next; Len; Next; Iter; Next; Next; Next; Get (-1)] (mkPlist (Some [7; 8]) 0 1) =
    ([Self; Object 7; Value 2; Object 8; Self; Object 7; Object 8; Stop; Terminates], mkPlist (Some [7; 8]) 2 1) /\
  for_variable 9 (pure (fun x => x + 1)) (mkPlist (Some [7; 8]) 0 2) = Some ([8; 9], Done, mkPlist (Some [7; 8]) 2 1) /\
  for_variable 9 (pure (fun x => x + 1)) (mkPlist (Some [7; 8]) 0 1) = Some ([8; 9], Done, mkPlist None 2 0) /\
  EnumSubscript motionTypes (-1) = IndexError /\ BoneCompare (1%nat, 4, [65]) (2%nat, 4, [65]) = 0 /\
  BoneCompare (1%nat, 4, [65]) (2%nat, 5, [65]) = 1.
Proof. vm_compute. repeat split; reflexivity. Qed.
