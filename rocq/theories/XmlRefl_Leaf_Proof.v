(** The texts of members carry their values to other objects. *)
From Verif Require Import Base Supercore_Model StringView_Model Bitfield_Model Reflector_Model Reflector_Spec
  Reflector_Proof Reflector_Fmt_Proof Reflector_Flags_Proof Reflector_Array_Proof Reflector_Props Reflector_Array_Props
  XmlRefl_Model XmlRefl_Spec.

Definition text_ok (s : list Z) : Prop := Forall (fun c => 32 <= c <= 126 /\ c <> 60 /\ c <> 38) s.
(** the text [s] printed from [a] at [addr] puts the same [n] bytes into any other memory *)
Definition carries (e : env) (t : reflType) (addr n : nat) (a s : list Z) : Prop :=
  (forall f, GetReflectedPrimitive f e t addr a = Some s) /\ plain_element s /\ text_ok s /\
  forall f b, length b = length a -> exists err b', SetReflectedMember f e t s addr b = Some (err, b') /\
    replaced b addr (bytes_at addr n a) b'.

Lemma store_id bs addr mem : store bs addr mem = Some mem -> bs = bytes_at addr (length bs) mem.
Proof. intros E. apply store_inv in E as [_ R]. symmetry. apply (replaced_bytes mem). exact R. Qed.
Lemma store_other bs addr a b : store bs addr a = Some a -> length b = length a ->
  exists b', store bs addr b = Some b' /\ replaced b addr (bytes_at addr (length bs) a) b'.
Proof.
  intros E L. pose proof (store_inv _ _ _ _ E) as [Hin _]. rewrite <- (store_id _ _ _ E).
  apply store_ok. unfold inside in *. lia.
Qed.
Lemma assign_other n r addr a b : assign n r addr a = Some (ENone, a) -> r <> (ENone, None) -> length b = length a ->
  exists err b', assign n r addr b = Some (err, b') /\ replaced b addr (bytes_at addr n a) b'.
Proof.
  destruct r as [e [x|]]; [|cbn; congruence]. intros E _ L. cbn [assign] in *.
  destruct (store (le_bytes n x) addr a) as [m|] eqn:S; [|discriminate]. injection E as -> ->.
  destruct (store_other _ _ _ b S L) as (b' & -> & R). rewrite le_bytes_length in R. exists ENone, b'. split; [reflexivity|exact R].
Qed.
Lemma copy_other n r addr a b : copy_value n r addr a = Some (ENone, a) -> r <> (ENone, None) -> length b = length a ->
  exists err b', copy_value n r addr b = Some (err, b') /\ replaced b addr (bytes_at addr (Z.to_nat n) a) b'.
Proof.
  destruct r as [e [x|]]; [|cbn; congruence]. intros E _ L. cbn [copy_value] in *. destruct (n <=? 8); [|discriminate].
  destruct (store (le_bytes (Z.to_nat n) x) addr a) as [m|] eqn:S; [|discriminate]. injection E as -> ->.
  destruct (store_other _ _ _ b S L) as (b' & -> & R). rewrite le_bytes_length in R. exists ENone, b'. split; [reflexivity|exact R].
Qed.

Lemma word_text n : word n -> plain_element n /\ text_ok n /\ trimmed n /\ ~ In 124 n.
Proof.
  intros [Hne F]. repeat split.
  - eapply Forall_impl; [|exact F]. cbn beta. unfold special. cbn [In]. intros; lia.
  - destruct n as [|c r]; [congruence|]. inversion F; subst. exists c, r. repeat split; lia.
  - eapply Forall_impl; [|exact F]. cbn beta. intros; lia.
  - destruct n as [|c r]; [congruence|]. inversion F; subst. exists c, r. repeat split; lia.
  - destruct (exists_last Hne) as (r & c & E). rewrite E in F. apply Forall_app in F as [_ F]. inversion F; subst.
    exists r, c. repeat split; lia.
  - intros H. rewrite Forall_forall in F. specialize (F _ H). cbn beta in F. lia.
Qed.

Lemma to_string_ok x : plain_element (to_string x) /\ text_ok (to_string x).
Proof.
  pose proof (to_string_chars x) as F. pose proof (to_string_nonempty x) as Hn. split; [split|].
  - eapply Forall_impl; [|exact F]. cbn beta. unfold special. cbn [In]. intros; lia.
  - destruct (to_string x) as [|c r]; [congruence|]. exists c, r. inversion F; subst. repeat split; lia.
  - eapply Forall_impl; [|exact F]. cbn beta. intros; lia.
Qed.

Lemma carries_int e t addr a : (type t = RInteger \/ type t = RUnsigned) -> int_width t -> bytes_ok a ->
  inside addr (Z.to_nat (subSize t)) a -> exists s, carries e t addr (Z.to_nat (subSize t)) a s.
Proof.
  intros Ht Hw Hb Hin. exists (int_text t addr a). pose proof (int_round_trip e t addr a (conj Ht Hw) Hb Hin) as H.
  split; [intros f; apply (H f 0%nat)|]. destruct (to_string_ok (match type t with RInteger => sgn (8 * subSize t) (le_value (bytes_at addr (Z.to_nat (subSize t)) a)) | _ => le_value (bytes_at addr (Z.to_nat (subSize t)) a) end)) as [P Q].
  split; [exact P|]. split; [exact Q|]. intros f b L. destruct (H 0%nat f) as [_ S].
  pose proof (int_width_size t Hw) as Hsz.
  destruct Ht as [Ht|Ht]; destruct f; cbn [SetReflectedMember] in *; rewrite Ht, Hsz in *;
    (eapply assign_other; [exact S| |exact L]).
  1-2: unfold SetSigned; destruct (stoll _ _); try discriminate; destruct (_ || _); discriminate.
  1-2: unfold SetUnsigned; destruct (stoull _ _); try discriminate; cbv zeta; destruct (_ <? _); discriminate.
Qed.

Lemma carries_bool e t addr a : type t = RBool -> subSize t = 1 -> (value_at addr 1 a = 0 \/ value_at addr 1 a = 1) ->
  bytes_ok a -> inside addr 1 a -> exists s, carries e t addr 1 a s.
Proof.
  intros Ht Hs Hv Hb Hin.
  assert (B : exists x, bytes_at addr 1 a = [x] /\ (x = 0 \/ x = 1)).
  { pose proof (bytes_at_length _ _ _ Hin) as L. unfold value_at in Hv. destruct (bytes_at addr 1 a) as [|x [|]] eqn:E; try discriminate L.
    exists x. split; [reflexivity|]. cbn [le_value] in Hv. lia. }
  destruct B as (x & B & Hx). exists (if x =? 0 then s_false else s_true).
  assert (V : le_value [x] = x) by (cbn [le_value]; lia).
  split; [|split; [|split]].
  - intros f. destruct f; cbn [GetReflectedPrimitive]; rewrite Ht, load_ok, B by assumption; cbn [option_map]; rewrite V; reflexivity.
  - destruct Hx as [-> | ->]; (split; [repeat constructor; unfold special; cbn [In]; lia|eexists _, _; split; [reflexivity|lia]]).
  - destruct Hx as [-> | ->]; repeat constructor; lia.
  - intros f b L. assert (E : SetBoolean (skip_start (if x =? 0 then s_false else s_true)) = (ENone, x)) by (destruct Hx as [-> | ->]; reflexivity).
    destruct (store_ok [x] addr b) as (b' & S & R). { unfold inside in *. cbn [length]. lia. }
    exists ENone, b'. rewrite B. split; [|exact R].
    destruct f; cbn [SetReflectedMember]; rewrite Ht, E, S; reflexivity.
Qed.

Lemma name_of_value_in v tab : In v (map snd tab) -> exists n, name_of_value v tab = Some n /\ In (n, v) tab.
Proof.
  induction tab as [|[n x] tab IH]; intros H; [destruct H|]. cbn [map snd In name_of_value] in *.
  destruct (Z.eqb_spec x v) as [->|N]; [exists n; auto|]. destruct H as [H|H]; [congruence|].
  destruct (IH H) as (m & E & I). exists m. auto.
Qed.
Lemma le_bytes_at addr n a : bytes_ok a -> inside addr n a -> le_bytes n (value_at addr n a) = bytes_at addr n a.
Proof.
  intros Hb Hin. pose proof (bytes_at_length _ _ _ Hin) as L. rewrite <- L at 1. unfold value_at.
  apply le_bytes_value. apply bytes_at_ok. exact Hb.
Qed.

Lemma carries_enum e t addr a tab : type t = REnum -> 0 <= subSize t <= 8 -> enums e (typeHash t) = Some tab ->
  NoDup (map fst tab) -> Forall word (map fst tab) -> In (value_at addr (Z.to_nat (subSize t)) a) (map snd tab) ->
  bytes_ok a -> inside addr (Z.to_nat (subSize t)) a -> exists s, carries e t addr (Z.to_nat (subSize t)) a s.
Proof.
  intros Ht Hs He Hd Hw Hv Hb Hin. destruct (name_of_value_in _ _ Hv) as (nm & En & Inm).
  assert (W : word nm). { rewrite Forall_forall in Hw. apply Hw. change nm with (fst (nm, value_at addr (Z.to_nat (subSize t)) a)). apply in_map. exact Inm. }
  destruct (word_text nm W) as (P & Q & T & _). exists nm. split; [|split; [exact P|split; [exact Q|]]].
  - intros f. destruct f; cbn [GetReflectedPrimitive]; rewrite Ht, load_ok by assumption; cbn [option_map];
      (destruct (Z.leb_spec (subSize t) 8); [|lia]); rewrite He; fold (value_at addr (Z.to_nat (subSize t)) a); rewrite En; reflexivity.
  - intros f b L. destruct (trimmed_ends nm T) as (T1 & T2 & T3).
    assert (E : SetEnum e nm (typeHash t) = (ENone, Some (value_at addr (Z.to_nat (subSize t)) a))).
    { unfold SetEnum. rewrite T2, He. rewrite (proj2 (value_of_name_some nm tab _) (nodup_first e (typeHash t) tab He _ _ Hd Inm)). destruct nm; [congruence|reflexivity]. }
    destruct (store_ok (le_bytes (Z.to_nat (subSize t)) (value_at addr (Z.to_nat (subSize t)) a)) addr b) as (b' & S & R).
    { rewrite le_bytes_length. unfold inside in *. lia. }
    exists ENone, b'. rewrite (le_bytes_at _ _ _ Hb Hin) in R. split; [|exact R].
    destruct f; cbn [SetReflectedMember]; rewrite Ht, T1, E; unfold copy_value; (destruct (Z.leb_spec (subSize t) 8); [|lia]); rewrite S; reflexivity.
Qed.

Lemma print_flags_ok tab v k : Forall word (map fst tab) -> forall i r, (r = [] \/ plain_element r) -> text_ok r ->
  (print_flags tab v k i r = [] \/ plain_element (print_flags tab v k i r)) /\ text_ok (print_flags tab v k i r).
Proof.
  intros W. induction k as [|k IH]; intros i r Hr Hk; [split; assumption|]. cbn [print_flags].
  destruct (Z.testbit v i); [|apply IH; assumption].
  assert (P : forall r1, (r1 = [] \/ plain_element r1) -> text_ok r1 ->
    (match name_of_value i tab with Some n => r1 ++ n | None => r1 end = [] \/ plain_element (match name_of_value i tab with Some n => r1 ++ n | None => r1 end))
    /\ text_ok (match name_of_value i tab with Some n => r1 ++ n | None => r1 end)).
  { intros r1 H1 H2. destruct (name_of_value i tab) as [n|] eqn:En; [|split; assumption].
    assert (Wn : word n).
    { apply name_of_value_some in En. destruct En as (x & z & -> & _). rewrite Forall_forall in W. apply W.
      rewrite map_app. apply in_or_app. right. left. reflexivity. }
    destruct (word_text n Wn) as (P & Q & _ & _). split; [|apply Forall_app; split; assumption]. right.
    destruct H1 as [->|[F1 (c & r2 & -> & N1 & N2)]]; [exact P|]. split; [apply Forall_app; split; [exact F1|apply P]|].
    eexists _, _. split; [reflexivity|auto]. }
  apply IH.
  - apply P.
    + destruct r as [|c r]; [left; reflexivity|]. right. destruct Hr as [|[F1 (c' & r2 & E & N1 & N2)]]; [discriminate|].
      injection E as <- <-. split; [apply Forall_app; split; [exact F1|repeat constructor; unfold special; cbn [In]; lia]|].
      eexists _, _. split; [reflexivity|auto].
    + destruct r as [|c r]; [constructor|]. apply Forall_app. split; [exact Hk|repeat constructor; lia].
  - apply P.
    + destruct r as [|c r]; [left; reflexivity|]. right. destruct Hr as [|[F1 (c' & r2 & E & N1 & N2)]]; [discriminate|].
      injection E as <- <-. split; [apply Forall_app; split; [exact F1|repeat constructor; unfold special; cbn [In]; lia]|].
      eexists _, _. split; [reflexivity|auto].
    + destruct r as [|c r]; [constructor|]. apply Forall_app. split; [exact Hk|repeat constructor; lia].
Qed.

Lemma flags_loop_none e h rest : forall cur acc err, flags_loop e h rest cur acc err <> Some (ENone, None).
Proof.
  induction rest as [|c r IH]; intros cur acc err; cbn [flags_loop].
  - destruct cur; [discriminate|]. destruct (FlagFromEnum _ _ _ _) as [[sub acc']|]; [|discriminate].
    destruct sub; cbn [is_dest is_none]; discriminate.
  - destruct (c =? 124); [|apply IH]. destruct (FlagFromEnum _ _ _ _) as [[sub acc']|]; [|discriminate].
    destruct (is_dest sub) eqn:D; [destruct sub; discriminate|apply IH].
Qed.

Lemma carries_flags e t addr a tab : type t = REnumFlags -> 0 <= subSize t <= 8 -> enums e (typeHash t) = Some tab ->
  NoDup (map fst tab) -> Forall word (map fst tab) -> ~ In s_NULL (map fst tab) ->
  (forall i, 0 <= i < 8 * subSize t -> Z.testbit (value_at addr (Z.to_nat (subSize t)) a) i = true -> In i (map snd tab)) ->
  bytes_ok a -> inside addr (Z.to_nat (subSize t)) a -> exists s, carries e t addr (Z.to_nat (subSize t)) a s.
Proof.
  intros Ht Hs He Hd Hw Hn Hv Hb Hin.
  set (t' := mkRefl REnumFlags (subType t) (subSize t) (ID t) (numItems t) (Z.of_nat addr) (nameHash t) (typeHash t)).
  destruct (C36_flags_round_trip e [t'] 0 t' tab a eq_refl eq_refl) as (s & G & S).
  { repeat split; cbn; try lia. rewrite Nat2Z.id. exact Hin. }
  { cbn. lia. }
  { exact Hb. }
  { exact He. }
  { exact Hd. }
  { exact Hn. }
  { intros n v Hi. assert (W : word n). { rewrite Forall_forall in Hw. apply Hw. change n with (fst (n, v)). apply in_map. exact Hi. }
    destruct (word_text n W) as (_ & _ & T & B). auto. }
  { cbn [offset subSize t']. rewrite Nat2Z.id. exact Hv. }
  assert (Es : s = PrintEnumFlags e (typeHash t) (bytes_at addr (Z.to_nat (subSize t)) a)).
  { unfold GetReflectedValue in G. cbn [by_id nth_error Z.to_nat Z.leb Z.ltb Z.compare length Z.of_nat andb type t' GetReflectedPrimitive subSize typeHash] in G.
    unfold nat_offset in G. cbn [offset t'] in G. rewrite Nat2Z.id in G. destruct (Z.leb_spec (subSize t) 8); [|lia].
    rewrite load_ok in G by assumption. cbn [option_map] in G. congruence. }
  exists s. split; [|split; [|split]].
  - intros f. rewrite Es. destruct f; cbn [GetReflectedPrimitive]; rewrite Ht; (destruct (Z.leb_spec (subSize t) 8); [|lia]); rewrite load_ok by assumption; reflexivity.
  - rewrite Es. unfold PrintEnumFlags. rewrite He. cbv zeta.
    destruct (print_flags_ok tab (le_value (bytes_at addr (Z.to_nat (subSize t)) a)) (8 * length (bytes_at addr (Z.to_nat (subSize t)) a)) Hw 0 [] (or_introl eq_refl) ltac:(constructor)) as [P Q].
    destruct (print_flags _ _ _ _ _); [|destruct P; [discriminate|assumption]].
    split; [repeat constructor; unfold special; cbn [In]; lia|]. eexists _, _. split; [reflexivity|lia].
  - rewrite Es. unfold PrintEnumFlags. rewrite He. cbv zeta.
    destruct (print_flags_ok tab (le_value (bytes_at addr (Z.to_nat (subSize t)) a)) (8 * length (bytes_at addr (Z.to_nat (subSize t)) a)) Hw 0 [] (or_introl eq_refl) ltac:(constructor)) as [P Q].
    destruct (print_flags _ _ _ _ _); [repeat constructor; lia|exact Q].
  - intros f b L. unfold SetReflectedValue in S. cbn [by_id nth_error Z.to_nat Z.leb Z.ltb Z.compare length Z.of_nat andb] in S.
    unfold set_value, set_fuel, nat_offset in S. cbn [type t' offset SetReflectedMember subSize typeHash] in S. rewrite Nat2Z.id in S.
    destruct (SetEnumFlags e (skip_start s) (typeHash t)) as [r|] eqn:E; [|discriminate].
    destruct (copy_other (subSize t) r addr a b S) as (err & b' & C & R); [|exact L|].
    { intros ->. exact (flags_loop_none _ _ _ _ _ _ E). }
    exists err, b'. split; [|exact R]. destruct f; cbn [SetReflectedMember]; rewrite Ht, E; exact C.
Qed.

Lemma carries_float e t addr a : type t = RFloat -> (subSize t = 4 \/ subSize t = 8) ->
  let n := Z.to_nat (subSize t) in let s := print_float e n (bytes_at addr n a) in
  plain_element s -> text_ok s -> (forall old, length old = n -> snd (parse_float e n s old) = bytes_at addr n a) ->
  inside addr n a -> carries e t addr n a s.
Proof.
  intros Ht Hs n s P Q Hp Hin.
  assert (H48 : (subSize t =? 4) || (subSize t =? 8) = true) by (destruct Hs as [-> | ->]; reflexivity).
  split; [|split; [exact P|split; [exact Q|]]].
  - intros f. destruct f; cbn [GetReflectedPrimitive]; rewrite Ht, H48; fold n; rewrite load_ok by assumption; reflexivity.
  - intros f b L. assert (Hin' : inside addr n b) by (unfold inside in *; lia).
    assert (Esk : skip_start s = s). { destruct P as [_ (c & r & -> & N1 & N2)]. apply skip_start_id; assumption. }
    specialize (Hp (bytes_at addr n b) (bytes_at_length _ _ _ Hin')).
    destruct (parse_float e n s (bytes_at addr n b)) as [err bs] eqn:E. cbn [snd] in Hp. subst bs.
    destruct (store_ok (bytes_at addr n a) addr b) as (b' & S & R). { rewrite bytes_at_length by assumption. exact Hin'. }
    exists err, b'. split; [|exact R].
    destruct f; cbn [SetReflectedMember]; rewrite Ht, H48, Esk; fold n; rewrite load_ok by assumption; rewrite E, bytes_at_length, Nat.eqb_refl by assumption; rewrite S; reflexivity.
Qed.

(** every single value *)
Lemma carries_single e t addr a : bytes_ok a -> single_value e t addr a -> exists s, carries e t addr (Z.to_nat (subSize t)) a s.
Proof.
  intros Hb (Hin & H). destruct (type t) eqn:Ht; try contradiction.
  - apply carries_int; auto.
  - apply carries_int; auto.
  - destruct H as (Hs & P & Q & R). eexists. apply carries_float; assumption.
  - destruct H as (Hs & tab & He & Hd & Hw & Hv). apply (carries_enum e t addr a tab); assumption.
  - destruct H as (Hs & Hv). rewrite Hs in *. change (Z.to_nat 1) with 1%nat in *. apply carries_bool; assumption.
  - destruct H as (Hs & tab & He & Hd & Hw & Hn & Hv). apply (carries_flags e t addr a tab); assumption.
Qed.

(** ** Lists *)
Definition puts (e : env) (t : reflType) (f : nat) (addr n : nat) (a s : list Z) : Prop :=
  forall b, length b = length a -> exists err b', SetReflectedMember f e t s addr b = Some (err, b') /\
    replaced b addr (bytes_at addr n a) b'.

Lemma firstn_add' {A} n m (l : list A) : firstn (n + m) l = firstn n l ++ firstn m (skipn n l).
Proof. revert l. induction n as [|n IH]; intros l; [reflexivity|]. destruct l as [|x l]; [cbn [skipn firstn Nat.add]; rewrite firstn_nil; reflexivity|]. cbn. rewrite IH. reflexivity. Qed.
Lemma bytes_at_app addr n m a : inside addr (n + m) a -> bytes_at addr (n + m) a = bytes_at addr n a ++ bytes_at (addr + n) m a.
Proof.
  intros H. unfold bytes_at. rewrite firstn_add', skipn_skipn. rewrite (Nat.add_comm n addr). reflexivity.
Qed.

Lemma set_all_puts fset size base a es : 0 <= size -> forall k, 0 <= k ->
  inside (base + Z.to_nat (size * k)) (length es * Z.to_nat size) a ->
  (forall i x, nth_error es i = Some x -> forall b, length b = length a ->
     let ad := (base + Z.to_nat (size * (k + Z.of_nat i)))%nat in
     exists err b', fset x ad b = Some (err, b') /\ replaced b ad (bytes_at ad (Z.to_nat size) a) b') ->
  forall b, length b = length a -> exists b', set_all fset size base es k b = Some (ENone, b') /\
    replaced b (base + Z.to_nat (size * k)) (bytes_at (base + Z.to_nat (size * k)) (length es * Z.to_nat size) a) b'.
Proof.
  intros Hs. induction es as [|x es IH]; intros k Hk Hin H b L.
  - exists b. split; [reflexivity|]. cbn [length Nat.mul]. change (bytes_at (base + Z.to_nat (size * k)) 0 a) with (@nil Z).
    assert (Z0 : bytes_at (base + Z.to_nat (size * k)) 0 b = []) by reflexivity. rewrite <- Z0 at 1.
    apply replaced_self. unfold inside in *. cbn [length Nat.mul] in Hin. lia.
  - destruct (H 0%nat x eq_refl b L) as (err & b1 & E & R). cbv zeta in E, R. rewrite Z.add_0_r in E, R.
    cbn [set_all]. rewrite E.
    assert (Ea : (base + Z.to_nat (size * (k + 1)) = base + Z.to_nat (size * k) + Z.to_nat size)%nat).
    { assert (0 <= size * k) by nia. replace (size * (k + 1)) with (size * k + size) by ring. lia. }
    cbn [length Nat.mul] in Hin |- *.
    destruct (IH (k + 1) ltac:(lia)) with (b := b1) as (b' & S & R2).
    { rewrite Ea. unfold inside in *. lia. }
    { intros i y Hi c Lc. replace (k + 1 + Z.of_nat i) with (k + Z.of_nat (S i)) by lia. apply H; [exact Hi|exact Lc]. }
    { rewrite (replaced_length _ _ _ _ R). exact L. }
    exists b'. split; [exact S|]. rewrite bytes_at_app by exact Hin. rewrite Ea in R2.
    apply (replaced_seq _ _ _ b1); [exact R|].
    rewrite bytes_at_length by (unfold inside in *; lia). exact R2.
Qed.

Lemma join_elems_forall (P : Z -> Prop) l : P 44 -> P 32 -> Forall (Forall P) l -> Forall P (join_elems l).
Proof.
  intros P1 P2 F. induction F as [|x l Hx F IH]; [constructor|]. destruct l as [|y l]; [exact Hx|].
  change (join_elems (x :: y :: l)) with (x ++ [44; 32] ++ join_elems (y :: l)).
  apply Forall_app. split; [exact Hx|]. apply Forall_app. split; [repeat constructor; assumption|exact IH].
Qed.
Lemma join_elems_length x l : In x l -> (length x <= length (join_elems l))%nat.
Proof.
  induction l as [|y l IH]; intros H; [destruct H|]. destruct l as [|z l].
  - destruct H as [->|[]]. cbn [join_elems]. lia.
  - change (join_elems (y :: z :: l)) with (y ++ [44; 32] ++ join_elems (z :: l)). rewrite !app_length. cbn [length].
    destruct H as [->|H]; [lia|]. specialize (IH H). lia.
Qed.

Lemma list_puts e t addr a f1 f2 (h : nat -> list Z) : listing t -> 0 < numItems t -> 0 <= subSize t ->
  inside addr (Z.to_nat (numItems t * subSize t)) a ->
  (forall i, (i < Z.to_nat (numItems t))%nat ->
     GetReflectedPrimitive f1 e (element_type t) (element_addr addr t i) a = Some (h i) /\
     element_text (h i) /\ text_ok (h i) /\
     (Z.of_nat (length (h i)) < 2 ^ 64 -> puts e (element_type t) f2 (element_addr addr t i) (Z.to_nat (subSize t)) a (h i))) ->
  let s := fst (braces (type t)) :: join_elems (map h (seq 0 (Z.to_nat (numItems t)))) ++ [snd (braces (type t))] in
  GetReflectedPrimitive (S f1) e t addr a = Some s /\ text_ok s /\
  (Z.of_nat (length s) < 2 ^ 64 -> puts e t (S f2) addr (Z.to_nat (numItems t * subSize t)) a s).
Proof.
  intros Hk Hn Hs Hin H s. set (l := map h (seq 0 (Z.to_nat (numItems t)))) in *.
  assert (Hne : l <> []) by (unfold l; destruct (Z.to_nat (numItems t)) eqn:E; [lia|discriminate]).
  assert (Hl : length l = Z.to_nat (numItems t)) by (unfold l; rewrite map_length, seq_length; reflexivity).
  assert (HH : forall x, In x l -> exists i, (i < Z.to_nat (numItems t))%nat /\ x = h i).
  { intros x Hx. unfold l in Hx. apply in_map_iff in Hx. destruct Hx as (i & <- & Hi). apply in_seq in Hi. exists i. split; [lia|reflexivity]. }
  assert (Hel : Forall element_text l).
  { apply Forall_forall. intros x Hx. destruct (HH x Hx) as (i & Hi & ->). apply H. lia. }
  assert (Htx : Forall text_ok l).
  { apply Forall_forall. intros x Hx. destruct (HH x Hx) as (i & Hi & ->). apply H. lia. }
  pose proof (braces_ok t Hk) as [Ho Hc].
  split; [|split].
  - assert (E : all_some (map (fun i => GetReflectedPrimitive f1 e (element_type t) (addr + Z.to_nat (subSize t * Z.of_nat i))%nat a)
                     (seq 0 (Z.to_nat (numItems t)))) = Some l) by (apply all_some_map; intros i Hi; apply H; exact Hi).
    destruct Hk as [Hk|[Hk|Hk]]; unfold s; rewrite Hk; cbn [GetReflectedPrimitive]; rewrite Hk;
      (destruct (Z.eqb_spec (numItems t) 0); [lia|]); rewrite E; reflexivity.
  - unfold s, text_ok. constructor; [cbn [In] in Ho; lia|]. apply Forall_app. split; [|constructor; [cbn [In] in Hc; lia|constructor]].
    apply join_elems_forall; [lia|lia|exact Htx].
  - intros Hlen b L.
    assert (Estart : skip_start s = s) by (unfold s; apply skip_start_id; cbn [In] in Ho; lia).
    assert (Hj : join_elems l = array_text (spaced [] l)) by (rewrite join_text by assumption; reflexivity).
    assert (Hjne : join_elems l <> []) by (rewrite Hj; apply spaced_nonempty; assumption).
    assert (En : Z.to_nat (numItems t * subSize t) = (length l * Z.to_nat (subSize t))%nat) by (rewrite Hl, Z2Nat.inj_mul by lia; reflexivity).
    destruct (set_all_puts (SetReflectedMember f2 e (element_type t)) (subSize t) addr a l Hs 0 ltac:(lia)) with (b := b) as (b' & S & R).
    { rewrite Z.mul_0_r, Nat.add_0_r, <- En. exact Hin. }
    { intros i x Hi c Lc. cbv zeta. rewrite Z.add_0_l.
      assert (Hi' : (i < Z.to_nat (numItems t))%nat) by (rewrite <- Hl; apply nth_error_Some; congruence).
      assert (Ex : x = h i).
      { unfold l in Hi. rewrite nth_error_map in Hi. rewrite (nth_error_nth' _ 0%nat) in Hi by (rewrite seq_length; lia).
        rewrite seq_nth in Hi by lia. cbn [option_map] in Hi. injection Hi as <-. reflexivity. }
      subst x. destruct (H i Hi') as (_ & _ & _ & P). apply P; [|exact Lc].
      assert (length (h i) <= length (join_elems l))%nat by (apply join_elems_length; apply (nth_error_In _ _ Hi)).
      unfold s in Hlen. cbn [length] in Hlen. rewrite app_length in Hlen. lia. }
    { exact L. }
    rewrite Z.mul_0_r, Nat.add_0_r, <- En in R.
    exists ENone, b'. split; [|exact R].
    assert (Hset : SetReflectedArray (SetReflectedMember f2 e) (fst (braces (type t))) (snd (braces (type t))) addr s t b = Some (ENone, b')).
    { unfold s in Hlen |- *. rewrite SetReflectedArray_braced; [|cbn [length] in Hlen; rewrite app_length in Hlen; cbn [length] in Hlen; lia|exact Hjne].
      rewrite Hj. rewrite loop_elements.
      - rewrite spaced_snd. exact S.
      - apply spaced_ok; [constructor|exact Hel].
      - destruct l; [congruence|discriminate].
      - rewrite Z.add_0_l. destruct l as [|x l']; [congruence|]. cbn [spaced length]. rewrite map_length. cbn [length] in Hl. lia. }
    destruct Hk as [Hk|[Hk|Hk]]; cbn [SetReflectedMember]; rewrite Estart; rewrite Hk in Hset |- *; exact Hset.
Qed.

Lemma element_of_type t : element_of t = element_type t.
Proof. unfold element_of, element_type. destruct (subType t); reflexivity. Qed.

(** a list of single values is also an element of a list *)
Lemma bracketed_join o c l : In o [91; 40; 123] -> In c [93; 41; 125] -> Forall plain_element l ->
  bracketed_element (o :: join_elems l ++ [c]).
Proof.
  intros Ho Hc F. exists o, (join_elems l), c. repeat split; try assumption.
  apply join_elems_forall; [cbn [In]; lia|cbn [In]; lia|]. eapply Forall_impl; [|exact F]. intros x [P _].
  eapply Forall_impl; [|exact P]. unfold special. cbn [In]. intros; lia.
Qed.

Lemma single_list_puts e t addr a : bytes_ok a -> listing t -> 0 < numItems t -> 0 <= subSize t ->
  inside addr (Z.to_nat (numItems t * subSize t)) a -> subType t <> RVector ->
  (forall i, (i < Z.to_nat (numItems t))%nat -> single_value e (element_of t) (element_addr addr t i) a) ->
  exists s, text_ok s /\ bracketed_element s /\ forall f1 f2,
    GetReflectedPrimitive (S f1) e t addr a = Some s /\
    (Z.of_nat (length s) < 2 ^ 64 -> puts e t (S f2) addr (Z.to_nat (numItems t * subSize t)) a s).
Proof.
  intros Hb Hk Hn Hs Hin Hv H.
  assert (Hsub : subSize (element_type t) = subSize t) by (rewrite (element_type_plain t Hv); reflexivity).
  set (h := fun i => match GetReflectedPrimitive 0 e (element_type t) (element_addr addr t i) a with Some x => x | None => [] end).
  assert (C : forall i, (i < Z.to_nat (numItems t))%nat -> carries e (element_type t) (element_addr addr t i) (Z.to_nat (subSize t)) a (h i)).
  { intros i Hi. destruct (carries_single e (element_of t) (element_addr addr t i) a Hb (H i Hi)) as (x & Cx).
    rewrite element_of_type, Hsub in Cx. assert (Ex : h i = x) by (unfold h; rewrite (proj1 Cx 0%nat); reflexivity). rewrite Ex. exact Cx. }
  pose proof (braces_ok t Hk) as [Ho Hc].
  exists (fst (braces (type t)) :: join_elems (map h (seq 0 (Z.to_nat (numItems t)))) ++ [snd (braces (type t))]).
  assert (HH : forall f1 f2, forall i, (i < Z.to_nat (numItems t))%nat ->
     GetReflectedPrimitive f1 e (element_type t) (element_addr addr t i) a = Some (h i) /\
     element_text (h i) /\ text_ok (h i) /\
     (Z.of_nat (length (h i)) < 2 ^ 64 -> puts e (element_type t) f2 (element_addr addr t i) (Z.to_nat (subSize t)) a (h i))).
  { intros f1 f2 i Hi. destruct (C i Hi) as (G & P & Q & S). split; [apply G|]. split; [left; exact P|]. split; [exact Q|].
    intros _ b L. apply S. exact L. }
  split; [|split].
  - apply (list_puts e t addr a 0 0 h Hk Hn Hs Hin (HH 0%nat 0%nat)).
  - apply bracketed_join; [exact Ho|exact Hc|]. apply Forall_forall. intros x Hx. apply in_map_iff in Hx. destruct Hx as (i & <- & Hi).
    apply in_seq in Hi. apply (C i). lia.
  - intros f1 f2. destruct (list_puts e t addr a f1 f2 h Hk Hn Hs Hin (HH f1 f2)) as (G & _ & P). split; [exact G|exact P].
Qed.

Lemma value_list_puts e t addr a : bytes_ok a -> value_list e t addr a ->
  exists s, GetReflectedPrimitive 2 e t addr a = Some s /\ text_ok s /\ (exists c r, s = c :: r /\ In c [91; 40; 123]) /\
    (Z.of_nat (length s) < 2 ^ 64 -> forall f, puts e t (S (S f)) addr (Z.to_nat (numItems t * subSize t)) a s).
Proof.
  intros Hb (Hk & Hn & Hs & Hin & [[Hv H]|(Hv & Hd & Hdn & Hsz & H)]).
  - destruct (single_list_puts e t addr a Hb Hk Hn Hs Hin Hv H) as (s & T & B & G). exists s.
    split; [apply (G 1%nat 0%nat)|]. split; [exact T|]. split; [destruct B as (o & m & c & E & Ho & _); exists o, (m ++ [c]); split; assumption|]. intros L f. apply (G 0%nat (S f)). exact L.
  - set (v := element_of t) in *.
    assert (Ev : v = mkRefl RVector (dec_type (typeHash t)) (dec_size (typeHash t)) (ID t) (dec_num (typeHash t)) (offset t) (nameHash t) (typeHash t))
      by (unfold v, element_of; rewrite Hv; reflexivity).
    assert (Sv : subSize v = dec_size (typeHash t)) by (rewrite Ev; reflexivity).
    assert (Nv : numItems v = dec_num (typeHash t)) by (rewrite Ev; reflexivity).
    assert (D0 : 0 <= dec_size (typeHash t)) by (apply Z.mod_pos_bound; lia).
    assert (V : forall i, (i < Z.to_nat (numItems t))%nat -> exists s, text_ok s /\ bracketed_element s /\ forall f1 f2,
      GetReflectedPrimitive (S f1) e v (element_addr addr t i) a = Some s /\
      (Z.of_nat (length s) < 2 ^ 64 -> puts e v (S f2) (element_addr addr t i) (Z.to_nat (numItems v * subSize v)) a s)).
    { intros i Hi. apply single_list_puts; try assumption.
      - right; left. rewrite Ev. reflexivity.
      - rewrite Nv. exact Hdn.
      - rewrite Sv. exact D0.
      - rewrite Nv, Sv, <- Hsz. unfold element_addr. apply (inside_element addr (subSize t) (numItems t)); [exact Hs|lia|exact Hin].
      - rewrite Ev. cbn [subType]. exact Hd.
      - intros j Hj. rewrite Nv in Hj. apply H; assumption. }
    rewrite Nv, Sv, <- Hsz in V.
    set (h := fun i => match GetReflectedPrimitive 1 e v (element_addr addr t i) a with Some x => x | None => [] end).
    assert (C : forall i, (i < Z.to_nat (numItems t))%nat -> text_ok (h i) /\ bracketed_element (h i) /\ forall f1 f2,
      GetReflectedPrimitive (S f1) e v (element_addr addr t i) a = Some (h i) /\
      (Z.of_nat (length (h i)) < 2 ^ 64 -> puts e v (S f2) (element_addr addr t i) (Z.to_nat (subSize t)) a (h i))).
    { intros i Hi. destruct (V i Hi) as (s & T & B & G). assert (Ex : h i = s) by (unfold h; rewrite (proj1 (G 0%nat 0%nat)); reflexivity).
      rewrite Ex. auto. }
    assert (Et : v = element_type t) by apply element_of_type.
    assert (L2 : forall f, GetReflectedPrimitive 2 e t addr a = Some (fst (braces (type t)) :: join_elems (map h (seq 0 (Z.to_nat (numItems t)))) ++ [snd (braces (type t))])
       /\ text_ok (fst (braces (type t)) :: join_elems (map h (seq 0 (Z.to_nat (numItems t)))) ++ [snd (braces (type t))]) /\
       (Z.of_nat (length (fst (braces (type t)) :: join_elems (map h (seq 0 (Z.to_nat (numItems t)))) ++ [snd (braces (type t))])) < 2 ^ 64 ->
         puts e t (S (S f)) addr (Z.to_nat (numItems t * subSize t)) a (fst (braces (type t)) :: join_elems (map h (seq 0 (Z.to_nat (numItems t)))) ++ [snd (braces (type t))]))).
    { intros f. apply (list_puts e t addr a 1 (S f) h Hk Hn Hs Hin). intros i Hi. rewrite <- Et. destruct (C i Hi) as (T & B & G).
      destruct (G 0%nat f) as [G1 G2]. split; [exact G1|]. split; [right; exact B|]. split; [exact T|exact G2]. }
    exists (fst (braces (type t)) :: join_elems (map h (seq 0 (Z.to_nat (numItems t)))) ++ [snd (braces (type t))]).
    split; [apply (L2 0%nat)|]. split; [apply (L2 0%nat)|].
    split; [|intros L f; apply (L2 f); exact L].
    eexists _, _. split; [reflexivity|]. apply (braces_ok t Hk).
Qed.
