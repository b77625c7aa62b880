(** C39: ReflectorBinUtil::Save and Load.
    [Save fuel sub c a = Some (0, d)]: saving object a of class c succeeds and writes d.
    [Load fuel sub c b s = Some (rc, b', s')]: loading into object b from a stream holding s
    returns rc, leaves the object b' and s' unread.  [fuel] is the depth of calls the stack allows
    and [sub] the registry of sub-classes. *)
From Verif Require Import Base Base128_Model Base128_Proof Reflector_Model Reflector_Spec Reflector_Proof
  BinDump_Model BinDump_Spec BinDump_Proof.

(** What is asked of a class: fewer than 2^32 members, 32-bit name hashes, no two equal. *)
Definition well_formed (c : cls) : Prop :=
  0 <= cHash c < 2 ^ 32 /\ Z.of_nat (length (cTypes c)) < 2 ^ 32 /\
  (forall t, In t (cTypes c) -> 0 <= nameHash t < 2 ^ 32) /\ NoDup (map nameHash (cTypes c)).

Lemma save_load fuel sub c c2 a (V : reflType -> nat -> reflType -> Prop) :
  well_formed c -> cHash c2 = cHash c -> length (cTypes c2) = length (cTypes c) ->
  (forall t, In t (cTypes c) -> known c2 t \/ unknown c2 t) ->
  (forall t, In t (cTypes c) -> exists bs,
     WriteDataItem fuel sub (c, 0%nat) a t (nat_offset t) = Some (0, bs) /\
     (known c2 t -> transfers a (V t) bs (LoadDataItem fuel sub (c2, 0%nat) t (nat_offset t)))) ->
  exists d, Save fuel sub c a = Some (0, d) /\
    (Z.of_nat (length d) < 2 ^ 64 -> forall b rest, length (ob b) = length (ob a) ->
     exists b', Load fuel sub c2 b (d ++ rest) = Some (0, b', rest) /\
       ov (fun x k => exists t, In t (cTypes c) /\ known c2 t /\ V t x k) a b b').
Proof.
  intros (Hch & Hn & Hh & _) HC HL Hk H.
  destruct (class_rt a V (WriteDataItem fuel sub (c, 0%nat) a) (LoadDataItem fuel sub) c c2 0%nat)
    as (bs & Ew & Ht); auto.
  unfold Save. rewrite Ew. eexists; split; [reflexivity|]. intros Hlen b rest Hl.
  rewrite app_length in Hlen. unfold Load. rewrite <- app_assoc.
  rewrite take_app by apply le_bytes_length. rewrite le_value_bytes. change (256 ^ Z.of_nat 4) with (2 ^ 32).
  rewrite Z.mod_small by exact Hch. rewrite HC, Z.eqb_refl. cbn [negb].
  exact (Ht ltac:(lia) b rest Hl).
Qed.

Lemma flat_own sub n : forall own own' t addr x k,
  flat n t -> Value sub own t addr x k -> Value sub own' t addr x k.
Proof.
  induction n as [|n IH]; intros own own' t addr x k Hfl HV.
  - destruct Hfl as [Hs|[]]. apply single_value; [exact Hs|]. now apply (single_value sub own).
  - destruct Hfl as [Hs|[Ha Hfl]].
    + apply single_value; [exact Hs|]. now apply (single_value sub own).
    + apply array_value in HV as (j & Hj & HV); [|exact Ha]. apply value_elem with (i := j); auto; [lia|].
      apply (IH own own'); auto. apply Hfl. lia.
Qed.

(** An object whose members are single values, arrays of them (nested up to any depth n), objects
    of flat classes or arrays of those: saving succeeds, and loading the dump into any object of
    the class, whatever follows it in the stream, restores all values of all members, changes
    nothing else and leaves the stream exactly after the dump. *)
Theorem C39_round_trip : forall n fuel sub c a,
  well_formed c -> bytes_ok (ob a) ->
  (forall t, In t (cTypes c) -> one_level sub (c, 0%nat) n t) -> (n < fuel)%nat ->
  (forall x k, values sub c x k -> dumpable a x k) ->
  exists d, Save fuel sub c a = Some (0, d) /\
    (Z.of_nat (length d) < 2 ^ 64 -> forall b rest, length (ob b) = length (ob a) ->
     exists b', Load fuel sub c b (d ++ rest) = Some (0, b', rest) /\ restored (values sub c) a b b').
Proof.
  intros n fuel sub c a W Hok H1 Hf Hd.
  assert (K : forall t, In t (cTypes c) -> known c t) by (intros t Ht; apply known_nodup; [apply W|exact Ht]).
  destruct (save_load fuel sub c c a (fun t => Value sub (c, 0%nat) t (nat_offset t)) W eq_refl eq_refl)
    as (d & Es & HL).
  - intros t Ht. left. auto.
  - intros t Ht. destruct (item_rt sub (c, 0%nat) (c, 0%nat) a Hok n t (nat_offset t) fuel (H1 t Ht) Hf) as (bs & Ew & Hx).
    + reflexivity.
    + intros x k HV. apply Hd. exists t. auto.
    + exists bs. auto.
  - exists d. split; [exact Es|]. intros Hlen b rest Hl.
    destruct (HL Hlen b rest Hl) as (b' & R & O). exists b'. split; [exact R|].
    apply restored_of_ov. eapply ov_equiv; [|exact O]. intros x k. split.
    + intros (t & Ht & _ & HV). exists t. auto.
    + intros (t & Ht & HV). exists t. auto.
Qed.
Print Assumptions C39_round_trip.

(** A later version of the class (same class hash, same number of members) in which some members
    were renamed so that their names are not found: exactly the other members are restored and the
    stream still ends up after the dump.  The members of the old class are flat here. *)
Theorem C39_unknown_members_skipped : forall n fuel sub c c2 a,
  well_formed c -> cHash c2 = cHash c -> length (cTypes c2) = length (cTypes c) -> bytes_ok (ob a) ->
  (forall t, In t (cTypes c) -> flat n t) -> (n < fuel)%nat ->
  (forall t, In t (cTypes c) ->
     by_hash (cTypes c2) (cAlias c2) (nameHash t) = None \/
     by_hash (cTypes c2) (cAlias c2) (nameHash t) = Some t) ->
  (forall x k, values sub c x k -> dumpable a x k) ->
  exists d, Save fuel sub c a = Some (0, d) /\
    (Z.of_nat (length d) < 2 ^ 64 -> forall b rest, length (ob b) = length (ob a) ->
     exists b', Load fuel sub c2 b (d ++ rest) = Some (0, b', rest) /\
       restored (fun x k => exists t, In t (cTypes c) /\
                   by_hash (cTypes c2) (cAlias c2) (nameHash t) = Some t /\
                   Value sub (c, 0%nat) t (nat_offset t) x k) a b b').
Proof.
  intros n fuel sub c c2 a W HC HL Hok H1 Hf Hk Hd.
  destruct (save_load fuel sub c c2 a (fun t => Value sub (c, 0%nat) t (nat_offset t)) W HC HL) as (d & Es & HR).
  - intros t Ht. destruct (Hk t Ht); auto.
  - intros t Ht.
    destruct (flat_rt sub (c, 0%nat) a Hok n (c2, 0%nat) t (nat_offset t) fuel (H1 t Ht) Hf) as (bs & Ew & Hx).
    + intros x k HV. apply Hd. exists t. split; [exact Ht|]. eapply flat_own; [now apply H1|exact HV].
    + exists bs. split; [exact Ew|]. intros _. eapply transfers_equiv; [|exact Hx].
      intros x k. split; intros HV; eapply flat_own; try exact HV; now apply H1.
  - exists d. split; [exact Es|]. intros Hlen b rest Hl.
    destruct (HR Hlen b rest Hl) as (b' & R & O). exists b'. split; [exact R|].
    apply restored_of_ov. exact O.
Qed.
Print Assumptions C39_unknown_members_skipped.

(** A dump of another class is refused: nothing is changed and the stream is where it was. *)
Theorem C39_other_class_refused : forall fuel fuel' sub sub' c c' a d b rest,
  0 <= cHash c < 2 ^ 32 -> cHash c <> cHash c' ->
  Save fuel sub c a = Some (0, d) ->
  Load fuel' sub' c' b (d ++ rest) = Some (1, b, d ++ rest).
Proof.
  intros fuel fuel' sub sub' c c' a d b rest Hc Hne Hs. unfold Save in Hs.
  destruct (SaveClass _ _) as [(rc & bs)|]; [|discriminate]. assert (rc = 0) as -> by congruence. assert (d = le_bytes 4 (cHash c) ++ bs) as -> by congruence. clear Hs.
  unfold Load. rewrite <- app_assoc, take_app by apply le_bytes_length.
  rewrite le_value_bytes. change (256 ^ Z.of_nat 4) with (2 ^ 32). rewrite Z.mod_small by exact Hc.
  destruct (Z.eqb_spec (cHash c) (cHash c')); [contradiction|]. reflexivity.
Qed.
Print Assumptions C39_other_class_refused.

(** A dump of a version of the class with another number of members is refused as well: the object
    keeps its value; here the stream ends up after the dump. *)
Theorem C39_other_member_count_refused : forall fuel fuel' sub sub' c c' a d b rest,
  0 <= cHash c < 2 ^ 32 -> cHash c = cHash c' ->
  Z.of_nat (length (cTypes c)) < 2 ^ 32 -> length (cTypes c) <> length (cTypes c') ->
  Save fuel sub c a = Some (0, d) -> Z.of_nat (length d) < 2 ^ 64 ->
  Load fuel' sub' c' b (d ++ rest) = Some (1, b, rest).
Proof.
  intros fuel fuel' sub sub' c c' a d b rest Hc He Hn Hne Hs Hlen. unfold Save in Hs.
  destruct (SaveClass _ _) as [(rc & bs)|] eqn:Es; [|discriminate]. assert (rc = 0) as -> by congruence. assert (d = le_bytes 4 (cHash c) ++ bs) as -> by congruence. clear Hs.
  rewrite app_length in Hlen.
  unfold Load. rewrite <- app_assoc, take_app by apply le_bytes_length.
  rewrite le_value_bytes. change (256 ^ Z.of_nat 4) with (2 ^ 32). rewrite Z.mod_small by exact Hc.
  rewrite He, Z.eqb_refl. cbn [negb].
  unfold SaveClass in Es. cbn [fst snd] in Es.
  destruct (buW (Z.of_nat (length (cTypes c)))) as (n & En & Rn).
  rewrite u64_small in En by lia. rewrite u64_small in Rn by lia. rewrite En in Es.
  destruct (save_members _ _) as [(rc & ms)|]; [|discriminate].
  destruct (Z.eqb_spec rc 0); [|congruence].
  destruct (buW (Z.of_nat (length (n ++ ms)))) as (l & El & Rl). rewrite El in Es. injection Es as <-.
  rewrite !app_length in Hlen.
  unfold LoadClass. cbn [fst snd]. rewrite <- !app_assoc. rewrite Rl, Rn.
  destruct (Z.eqb_spec (Z.of_nat (length (cTypes c))) (Z.of_nat (length (cTypes c')))); [lia|]. cbn [negb].
  rewrite u64_small by (rewrite app_length; lia).
  rewrite (app_assoc n ms rest), skip_app by reflexivity. reflexivity.
Qed.
Print Assumptions C39_other_member_count_refused.

(** *** Concrete case *)
Definition no_sub : storage := fun _ => None.
Definition member (t s : REFType) (sz id n off name hash : Z) : reflType := mkRefl t s sz id n off name hash.
(** struct K { int32 p; std::string s } as class 77;
    struct T { int16 x; Vector-of-3-uint16 v; K k; K ks[2] } *)
Definition K : cls := mkCls 77 [member RInteger RNone 4 0 0 0 500 0; member RString RNone 8 1 0 4 501 0] [].
Definition subs : storage := fun h => if h =? 77 then Some K else None.
Definition T : cls := mkCls 1000
  [ member RInteger RNone 2 0 0 0 600 0;
    member RVector RUnsigned 2 1 3 2 601 (CompileVectorHash RUnsigned 2 3);
    member RClass RNone 12 2 0 8 602 77;
    member RArrayClass RClass 12 3 2 20 603 77 ] [].
Definition objT (x : Z) : obj :=
  mkObj (le_bytes 2 x ++ le_bytes 2 1 ++ le_bytes 2 300 ++ le_bytes 2 65535 ++ le_bytes 4 (x - 70000) ++ le_bytes 8 0
         ++ le_bytes 4 5 ++ le_bytes 8 0 ++ le_bytes 4 (-1) ++ le_bytes 8 0)
        (fun a => if (a =? 12)%nat then [104; 105] else if (a =? 36)%nat then [33] else []).
Definition blank : obj := mkObj (repeat 0 44) (fun _ => [9]).

Example C39_nonvacuous_layout : well_formed T /\ (forall t, In t (cTypes T) -> one_level subs (T, 0%nat) 3 t) /\
  bytes_ok (ob (objT (-7))) /\ length (ob blank) = length (ob (objT (-7))).
Proof.
  assert (KOK : forall n, Forall (flat n) (cTypes K) /\ NoDup (map nameHash (cTypes K)) /\
     Forall (fun m => 0 <= nameHash m < 2 ^ 32) (cTypes K) /\ Z.of_nat (length (cTypes K)) < 2 ^ 32).
  { intros n. split.
    - apply Forall_forall. intros t Ht. cbn in Ht. destruct Ht as [<-|[<-|[]]]; destruct n; left; cbn; lia.
    - split; [cbn; repeat constructor; cbn; intuition lia|]. split; [|cbn; lia].
      apply Forall_forall. intros t Ht. cbn in Ht. destruct Ht as [<-|[<-|[]]]; cbn; lia. }
  split; [split; [cbn; lia|split; [cbn; lia|split]]|split; [|split; [|reflexivity]]].
  - intros t Ht. cbn in Ht. decompose [or] Ht; subst; try contradiction; cbn; lia.
  - cbn. repeat constructor; cbn; intuition lia.
  - intros t Ht. cbn in Ht. decompose [or] Ht; subst; try contradiction.
    + left. left. cbn. lia.
    + left. right. split; [cbn; unfold is_array_kind; cbn; auto|]. intros i Hi. left. cbn. lia.
    + right. left. split; [reflexivity|]. exists (K, 8%nat). exact (conj eq_refl (KOK _)).
    + right. right. split; [unfold is_array_kind; cbn; auto|]. intros i Hi.
      change (Z.to_nat (numItems (member RArrayClass RClass 12 3 2 20 603 77))) with 2%nat in Hi.
      destruct i as [|[|i]]; [| |lia].
      * right. left. split; [reflexivity|]. exists (K, 20%nat). exact (conj eq_refl (KOK _)).
      * right. left. split; [reflexivity|]. exists (K, 32%nat). exact (conj eq_refl (KOK _)).
  - unfold objT, ob. repeat (apply Forall_app; split); apply le_bytes_ok.
Qed.

Example C39_nonvacuous_dump :
  match Save 4 subs T (objT (-7)) with
  | Some (0, d) =>
    match Load 4 subs T blank (d ++ [1; 2; 3]) with
    | Some (0, b', rest) =>
      rest = [1; 2; 3] /\ bytes_at 0 12 (ob b') = bytes_at 0 12 (ob (objT (-7))) /\
      os b' 12%nat = [104; 105] /\ os b' 24%nat = [] /\ os b' 36%nat = [33] /\ os b' 0%nat = [9]
    | _ => False
    end
  | _ => False
  end.
Proof. vm_compute. repeat split. Qed.

(** ** Where the claim fails in the code *)
(** An int64 member with any value in [-2^56, -2^55) comes back as another number. *)
Definition I64 : cls := mkCls 5 [member RInteger RNone 8 0 0 0 9 0] [].
Definition obj64 (v : Z) : obj := mkObj (le_bytes 8 v) (fun _ => []).
Theorem C39_low_signed_refuted : forall v fuel rest, - 2 ^ 56 <= v < - 2 ^ 55 -> (0 < fuel)%nat ->
  exists d b', Save fuel no_sub I64 (obj64 v) = Some (0, d) /\
    Load fuel no_sub I64 (obj64 0) (d ++ rest) = Some (0, b', rest) /\
    ob b' = le_bytes 8 (Z.lnot v + 2 ^ 62) /\ ob b' <> ob (obj64 v).
Proof.
  intros v fuel rest Hv Hf. destruct fuel as [|f]; [lia|].
  destruct (bi_corrupt v [] Hv) as (bs & Ew & _).
  assert (ER : forall r, bint128_Read (bs ++ r) = Some (Z.lnot v + 2 ^ 62, r)).
  { intros r. destruct (bi_corrupt v r Hv) as (bs' & E' & R). congruence. }
  assert (EI : WriteDataItem (S f) no_sub (I64, 0%nat) (obj64 v) (member RInteger RNone 8 0 0 0 9 0) 0 = Some (0, bs)).
  { cbn [WriteDataItem type member subSize]. change (1 <? 8) with true. change (8 <=? 8) with true. cbv iota.
    change (load (Z.to_nat 8) 0 (ob (obj64 v))) with (Some (le_bytes 8 v)). cbv iota.
    rewrite le_value_bytes. change (256 ^ Z.of_nat 8) with (2 ^ 64). change (8 * 8) with 64.
    change (v mod 2 ^ 64) with (wrap 64 v). rewrite wrap_sgn by lia.
    rewrite sgn_small by (unfold is_sword; lia). rewrite Ew. reflexivity. }
  destruct (buW (Z.of_nat (length bs))) as (n & En & Rn).
  set (ms := le_bytes 4 9 ++ n ++ bs ++ []).
  destruct (buW (Z.of_nat (length ([1] ++ ms)))) as (l & El & Rl).
  exists (le_bytes 4 5 ++ l ++ [1] ++ ms). eexists. split; [|split; [|split]].
  - unfold Save, SaveClass. cbn [fst snd cTypes I64 length].
    change (buint128_Write (Z.of_nat 1)) with (Some [1]). cbv iota.
    cbn [save_members]. change (0 + nat_offset (member RInteger RNone 8 0 0 0 9 0))%nat with 0%nat.
    rewrite EI. change (0 =? 0) with true. cbv iota. rewrite En. cbv iota.
    change (nameHash (member RInteger RNone 8 0 0 0 9 0)) with 9. fold ms. rewrite El. reflexivity.
  - unfold Load. rewrite <- !app_assoc. rewrite take_app by apply le_bytes_length.
    change (negb (le_value (le_bytes 4 5) =? cHash I64)) with false. cbv iota.
    unfold LoadClass. cbn [fst snd]. rewrite Rl.
    change (buint128_Read ([1] ++ ms ++ rest)) with (Some (1, ms ++ rest)). cbv iota.
    change (negb (1 =? Z.of_nat (length (cTypes I64)))) with false. cbv iota.
    change (length (cTypes I64)) with 1%nat. cbn [load_members]. unfold ms. rewrite <- !app_assoc.
    rewrite take_app by apply le_bytes_length. rewrite Rn.
    change (by_hash (cTypes I64) (cAlias I64) (le_value (le_bytes 4 9))) with (Some (member RInteger RNone 8 0 0 0 9 0)).
    cbv iota. cbn [LoadDataItem type member subSize]. change (1 <? 8) with true. change (8 <=? 8) with true. cbv iota.
    rewrite ER. reflexivity.
  - cbn [ob]. rewrite app_nil_r. reflexivity.
  - cbn [ob obj64]. rewrite app_nil_r. change (Z.to_nat 8) with 8%nat. intros E.
    apply (f_equal le_value) in E. rewrite !le_value_bytes in E. change (256 ^ Z.of_nat 8) with (2 ^ 64) in E.
    change (le_value (le_bytes 8 (Z.lnot v + 2 ^ 62)) = v mod 2 ^ 64) in E.
    rewrite le_value_bytes in E. change (256 ^ Z.of_nat 8) with (2 ^ 64) in E.
    rewrite (Z.mod_small (Z.lnot v + 2 ^ 62)) in E by (unfold Z.lnot; lia).
    unfold Z.lnot in E. lia.
Qed.
Print Assumptions C39_low_signed_refuted.

(** C strings, members of bit fields and members of no kind cannot be dumped, nor arrays of them:
    Save returns an error and writes nothing but the class hash, whatever the other members are. *)
Definition no_dump (k : REFType) : Prop := k = RNone \/ k = RCString \/ k = RBitMember.
Theorem C39_unsupported_refused : forall n fuel sub c a pre t post,
  cTypes c = pre ++ t :: post -> Z.of_nat (length (cTypes c)) < 2 ^ 64 -> bytes_ok (ob a) ->
  (forall m, In m pre -> one_level sub (c, 0%nat) n m) -> (n < fuel)%nat -> (1 < fuel)%nat ->
  (forall m x k, In m pre -> Value sub (c, 0%nat) m (nat_offset m) x k -> dumpable a x k) ->
  (no_dump (type t) \/ is_array_kind t /\ 0 < numItems t /\ no_dump (subType t)) ->
  exists rc, rc <> 0 /\ Save fuel sub c a = Some (rc, le_bytes 4 (cHash c)).
Proof.
  intros n fuel sub c a pre t post Et Hlen Hok H1 Hf Hf1 Hd Hu.
  assert (U : exists rc bs, rc <> 0 /\ WriteDataItem fuel sub (c, 0%nat) a t (nat_offset t) = Some (rc, bs)).
  { destruct fuel as [|f]; [lia|]. destruct Hu as [Hu|(Ha & Hn & Hu)].
    - exists 1, []. split; [discriminate|]. cbn [WriteDataItem]. destruct Hu as [->|[->| ->]]; reflexivity.
    - exists 2, []. split; [discriminate|]. destruct f as [|f]; [lia|].
      set (w := WriteDataItem (S f) sub (c, 0%nat) a).
      assert (E0 : w (elem t 0) (nat_offset t + Z.to_nat (subSize t) * 0)%nat = Some (1, [])).
      { unfold w. cbn [WriteDataItem]. replace (type (elem t 0)) with (subType t) by (unfold elem; destruct (subType t); reflexivity).
        destruct Hu as [->|[->| ->]]; reflexivity. }
      assert (Ew : write_elems (fun i => w (elem t i) (nat_offset t + Z.to_nat (subSize t) * i)%nat) (Z.to_nat (numItems t)) 0 = Some (2, [])).
      { destruct (Z.to_nat (numItems t)) as [|m] eqn:E; [lia|]. cbn [write_elems]. rewrite E0. reflexivity. }
      remember (S f) as sf. cbn [WriteDataItem]. fold w. destruct Ha as [->|[->| ->]]; exact Ew. }
  destruct U as (rc & bs & Hrc & U).
  assert (P : exists out, save_members (fun m => WriteDataItem fuel sub (c, 0%nat) a m (0 + nat_offset m)%nat) (pre ++ t :: post) = Some (rc, out)).
  { clear Et. induction pre as [|m pre IH]; cbn [app save_members].
    - rewrite Nat.add_0_l, U. replace (rc =? 0) with false by lia. eexists; reflexivity.
    - destruct (item_rt sub (c, 0%nat) (c, 0%nat) a Hok n m (nat_offset m) fuel (H1 m (or_introl eq_refl)) Hf) as (bm & Em & _); [reflexivity|intros x k HV; exact (Hd m x k (or_introl eq_refl) HV)|].
      rewrite Nat.add_0_l, Em. cbn [Z.eqb]. destruct (buW (Z.of_nat (length bm))) as (lb & -> & _).
      destruct IH as (out & ->); [intros m' Hm'; apply H1; right; exact Hm'|intros m' x k Hm' HV; apply (Hd m' x k (or_intror Hm') HV)|].
      eexists; reflexivity. }
  destruct P as (out & P). exists rc. split; [exact Hrc|].
  unfold Save, SaveClass. cbn [fst snd]. rewrite Et in *. rewrite P. replace (rc =? 0) with false by lia.
  rewrite <- (u64_small (Z.of_nat (length (pre ++ t :: post)))) by lia.
  destruct (buW (Z.of_nat (length (pre ++ t :: post)))) as (l & -> & _). rewrite app_nil_r. reflexivity.
Qed.
Print Assumptions C39_unsupported_refused.
Example C39_unsupported_case : Save 3 no_sub (mkCls 5 [member RUnsigned RNone 1 0 0 0 30 0; member RCString RNone 0 1 0 8 31 0] []) (mkObj (repeat 7 16) (fun _ => [])) = Some (1, [5; 0; 0; 0]) /\
  one_level no_sub (mkCls 5 [member RUnsigned RNone 1 0 0 0 30 0; member RCString RNone 0 1 0 8 31 0] [], 0%nat) 0 (member RUnsigned RNone 1 0 0 0 30 0).
Proof. split; [vm_compute; reflexivity|]. left. left. cbn. lia. Qed.

(** Objects nested two deep: the member of the inner class is looked up in the outermost class.
    struct Inner { uint8 v }; struct Mid { Inner m }; struct Outer { Mid k }: saving an Outer
    recurses without end. *)
Definition Inner : cls := mkCls 3 [member RUnsigned RNone 1 0 0 0 30 0] [].
Definition Mid : cls := mkCls 2 [member RClass RNone 1 0 0 0 20 3] [].
Definition Outer : cls := mkCls 1 [member RClass RNone 1 0 0 0 10 2] [].
Definition nested : storage := fun h => if h =? 3 then Some Inner else if h =? 2 then Some Mid else None.
Theorem C39_two_levels_refuted : forall fuel o, Save fuel nested Outer o = None.
Proof.
  assert (H : forall fuel o addr name hash,
    WriteDataItem fuel nested (Outer, 0%nat) o (member RClass RNone 1 0 0 0 name hash) addr = None).
  { induction fuel as [|f IH]; intros o addr name hash; [reflexivity|].
    cbn [WriteDataItem member type ID numItems].
    change (SubClass nested (Outer, 0%nat) 0 0) with (Some (Mid, 0%nat)). cbv iota.
    unfold SaveClass. cbn [fst snd cTypes Mid length save_members]. unfold member in IH. unfold member.
    rewrite IH. now destruct (buint128_Write _). }
  intros fuel o. unfold Save, SaveClass. cbn [fst snd cTypes Outer length save_members].
  rewrite H. now destruct (buint128_Write _).
Qed.
Print Assumptions C39_two_levels_refuted.

(** A member that could not be loaded is not reported when a later member can: the dump below holds
    a sub-object with two members; the loading class declares one; Load returns 0 and the member
    keeps its old value. *)
Definition K1 : cls := mkCls 77 [member RUnsigned RNone 1 0 0 0 500 0] [].
Definition K2 : cls := mkCls 77 [member RUnsigned RNone 1 0 0 0 500 0; member RUnsigned RNone 1 1 0 1 501 0] [].
Definition U : cls := mkCls 6 [member RClass RNone 2 0 0 0 600 77; member RUnsigned RNone 1 1 0 2 601 0] [].
Theorem C39_member_error_lost_refuted : exists (sub sub' : storage) a b d b',
  Save 5 sub U a = Some (0, d) /\ Load 5 sub' U b d = Some (0, b', []) /\
  nth_error (ob b') 0 = nth_error (ob b) 0 /\ nth_error (ob b') 0 <> nth_error (ob a) 0.
Proof.
  exists (fun _ => Some K2), (fun _ => Some K1), (mkObj [1; 2; 3] (fun _ => [])), (mkObj [7; 8; 9] (fun _ => [])).
  eexists. eexists. split; [vm_compute; reflexivity|]. split; [vm_compute; reflexivity|].
  vm_compute. split; congruence.
Qed.
Print Assumptions C39_member_error_lost_refuted.
