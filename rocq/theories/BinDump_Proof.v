(** Proofs for C39. *)
From Verif Require Import Base Base128_Model Base128_Proof Reflector_Model Reflector_Spec Reflector_Proof
  BinDump_Model BinDump_Spec.

Definition byteF (V : nat -> reflType -> Prop) (i : nat) : Prop :=
  exists x k, V x k /\ ~ is_text k /\ (x <= i < x + Z.to_nat (subSize k))%nat.
Definition textF (V : nat -> reflType -> Prop) (i : nat) : Prop := exists k, V i k /\ is_text k.
Definition ov (V : nat -> reflType -> Prop) (a b b' : obj) : Prop :=
  length (ob b') = length (ob b) /\
  (forall i, byteF V i -> nth_error (ob b') i = nth_error (ob a) i) /\
  (forall i, nth_error (ob b) i = nth_error (ob a) i -> nth_error (ob b') i = nth_error (ob a) i) /\
  (forall i, ~ byteF V i -> nth_error (ob b') i = nth_error (ob b) i) /\
  (forall i, textF V i -> os b' i = os a i) /\
  (forall i, os b i = os a i -> os b' i = os a i) /\
  (forall i, ~ textF V i -> os b' i = os b i).

Lemma ov_equiv V W a b b' : (forall x k, V x k <-> W x k) -> ov V a b b' -> ov W a b b'.
Proof.
  intros E (L & B1 & B2 & B3 & T1 & T2 & T3).
  assert (EB : forall i, byteF V i <-> byteF W i).
  { intros i. split; intros (x & k & HV & R); exists x, k; (split; [apply E; exact HV|exact R]). }
  assert (ET : forall i, textF V i <-> textF W i).
  { intros i. split; intros (k & HV & R); exists k; (split; [apply E; exact HV|exact R]). }
  repeat split; auto.
  - intros i Hi. apply B1, EB, Hi.
  - intros i Hi. apply B3. rewrite EB. exact Hi.
  - intros i Hi. apply T1, ET, Hi.
  - intros i Hi. apply T3. rewrite ET. exact Hi.
Qed.

Lemma ov_empty V a b : (forall x k, ~ V x k) -> ov V a b b.
Proof.
  intros E. repeat split; auto.
  - intros i (x & k & HV & _). destruct (E x k HV).
  - intros i (k & HV & _). destruct (E i k HV).
Qed.

Lemma ov_compose V W a b b1 b2 : ov V a b b1 -> ov W a b1 b2 -> ov (fun x k => V x k \/ W x k) a b b2.
Proof.
  intros (L & B1 & B2 & B3 & T1 & T2 & T3) (L' & C1 & C2 & C3 & U1 & U2 & U3).
  repeat split.
  - congruence.
  - intros i (x & k & [HV|HW] & R).
    + apply C2, B1. exists x, k. auto.
    + apply C1. exists x, k. auto.
  - intros i Hi. apply C2, B2, Hi.
  - intros i Hi. rewrite C3, B3; auto; intros (x & k & HV & R); apply Hi; exists x, k; auto.
  - intros i (k & [HV|HW] & R).
    + apply U2, T1. exists k. auto.
    + apply U1. exists k. auto.
  - intros i Hi. apply U2, T2, Hi.
  - intros i Hi. rewrite U3, T3; auto; intros (k & HV & R); apply Hi; exists k; auto.
Qed.

Lemma nth_error_firstn_lt {A} n i (l : list A) : (i < n)%nat -> nth_error (firstn n l) i = nth_error l i.
Proof.
  revert i l. induction n as [|n IH]; intros i l H; [lia|].
  destruct l, i; cbn; auto. apply IH. lia.
Qed.
Lemma nth_error_firstn_ge {A} n i (l : list A) : (n <= i)%nat -> nth_error (firstn n l) i = None.
Proof. intros H. apply nth_error_None. rewrite firstn_length. lia. Qed.

Lemma nth_bytes_at x n mem i :
  nth_error (bytes_at x n mem) i = if (i <? n)%nat then nth_error mem (x + i) else None.
Proof.
  unfold bytes_at. destruct (Nat.ltb_spec i n).
  - rewrite nth_error_firstn_lt by auto. apply nth_error_skipn.
  - now apply nth_error_firstn_ge.
Qed.

Lemma restored_of_ov V a b b' : ov V a b b' -> restored V a b b'.
Proof.
  intros (L & B1 & B2 & B3 & T1 & T2 & T3). repeat split; auto.
  - intros x k HV Hk. apply list_ext. intros i. rewrite !nth_bytes_at.
    destruct (Nat.ltb_spec i (Z.to_nat (subSize k))); [|reflexivity].
    apply B1. exists x, k. repeat split; auto; lia.
  - intros x k HV Hk. apply T1. exists k. auto.
  - intros i Hi. apply B3. intros (x & k & HV & Hk & R). exact (Hi x k HV Hk R).
  - intros i Hi. apply T3. intros (k & HV & Hk). exact (Hi k HV Hk).
Qed.

(** ** Leaves *)
Lemma take_app n l r : length l = n -> take n (l ++ r) = Some (l, r).
Proof.
  intros <-. unfold take. rewrite app_length. destruct (Nat.leb_spec (length l) (length l + length r)); [|lia].
  now rewrite firstn_app_exact, skipn_app_exact.
Qed.

Lemma skip_app n l r : n = Z.of_nat (length l) -> skip n (l ++ r) = Some r.
Proof.
  intros ->. unfold skip. rewrite app_length. destruct (Z.leb_spec (Z.of_nat (length l)) (Z.of_nat (length l + length r))); [|lia].
  rewrite Nat2Z.id. now rewrite skipn_app_exact.
Qed.

Lemma nth_replaced mem addr bs new i : replaced mem addr bs new ->
  nth_error new i = if ((addr <=? i) && (i <? addr + length bs))%nat then nth_error bs (i - addr) else nth_error mem i.
Proof.
  intros (u & m & z & -> & Hu & Hm & ->). subst addr.
  destruct (Nat.leb_spec (length u) i), (Nat.ltb_spec i (length u + length bs)); cbn [andb].
  - rewrite nth_error_app2 by lia. now rewrite nth_error_app1 by lia.
  - rewrite !nth_error_app2 by lia. f_equal. lia.
  - rewrite !nth_error_app1 by lia. reflexivity.
  - rewrite !nth_error_app1 by lia. reflexivity.
Qed.

Definition only (x : nat) (k : reflType) : nat -> reflType -> Prop := fun y l => y = x /\ l = k.

Lemma put_ov a b x k : ~ is_text k -> 
  inside x (Z.to_nat (subSize k)) (ob a) -> length (ob b) = length (ob a) ->
  exists b', put (bytes_at x (Z.to_nat (subSize k)) (ob a)) x b = Some b' /\ ov (only x k) a b b'.
Proof.
  intros Hk Hin Hl.
  pose proof (bytes_at_length _ _ _ Hin) as Hb.
  assert (Hin' : inside x (length (bytes_at x (Z.to_nat (subSize k)) (ob a))) (ob b))
    by (unfold inside in *; lia).
  destruct (store_ok _ _ _ Hin') as (new & E & R).
  unfold put. rewrite E. cbn. eexists; split; [reflexivity|].
  assert (N : forall i, nth_error new i = if ((x <=? i) && (i <? x + Z.to_nat (subSize k)))%nat
                 then nth_error (ob a) i else nth_error (ob b) i).
  { intros i. rewrite (nth_replaced _ _ _ _ _ R), Hb.
    destruct (Nat.leb_spec x i), (Nat.ltb_spec i (x + Z.to_nat (subSize k))); cbn [andb]; auto.
    rewrite nth_bytes_at. destruct (Nat.ltb_spec (i - x) (Z.to_nat (subSize k))); [|lia].
    f_equal. lia. }
  repeat split; cbn [ob os].
  - now apply replaced_length in R.
  - intros i (y & l & (-> & ->) & _ & Hi). rewrite N.
    destruct (Nat.leb_spec x i), (Nat.ltb_spec i (x + Z.to_nat (subSize k))); cbn [andb]; auto; lia.
  - intros i Hi. rewrite N. now destruct (_ && _).
  - intros i Hi. rewrite N.
    destruct (Nat.leb_spec x i), (Nat.ltb_spec i (x + Z.to_nat (subSize k))); cbn [andb]; auto.
    exfalso. apply Hi. exists x, k. repeat split; auto.
  - intros i (l & (-> & ->) & Hl'). contradiction.
  - auto.
Qed.

Lemma put_string_ov a b x k : is_text k -> ov (only x k) a b (put_string (os a x) x b).
Proof.
  intros Hk. unfold put_string. repeat split; cbn [ob os]; auto.
  - intros i (y & l & (-> & ->) & Hn & _). contradiction.
  - intros i (l & (-> & ->) & _). now rewrite Nat.eqb_refl.
  - intros i Hi. destruct (Nat.eqb_spec i x); [now subst|exact Hi].
  - intros i Hi. destruct (Nat.eqb_spec i x); [|auto].
    exfalso. apply Hi. exists k. subst. split; [split; auto|auto].
Qed.

Lemma le_bytes_wrap n x y : x mod 256 ^ Z.of_nat n = y mod 256 ^ Z.of_nat n -> le_bytes n x = le_bytes n y.
Proof.
  intros H.
  rewrite <- (le_bytes_value (le_bytes n x) (le_bytes_ok n x)).
  rewrite <- (le_bytes_value (le_bytes n y) (le_bytes_ok n y)).
  rewrite !le_bytes_length, !le_value_bytes, H. reflexivity.
Qed.

Lemma bytes_at_ok x n mem : bytes_ok mem -> bytes_ok (bytes_at x n mem).
Proof.
  intros H. unfold bytes_at. unfold bytes_ok in *. rewrite Forall_forall in *. intros y Hy.
  apply H. rewrite <- (firstn_skipn x mem). apply in_or_app. right.
  rewrite <- (firstn_skipn n (skipn x mem)). apply in_or_app. now left.
Qed.

(** What writing an item and reading it back has to satisfy. *)
Definition transfers (a : obj) (V : nat -> reflType -> Prop) (bs : list Z)
  (r : obj -> list Z -> option loaded) : Prop :=
  Z.of_nat (length bs) < 2 ^ 64 ->
  forall b rest, length (ob b) = length (ob a) ->
  exists b', r b (bs ++ rest) = Some (0, b', rest) /\ ov V a b b'.

Lemma single_rt sub top own a t addr f : bytes_ok (ob a) -> single t -> dumpable a addr t ->
  exists bs, WriteDataItem (S f) sub top a t addr = Some (0, bs) /\
    transfers a (only addr t) bs (LoadDataItem (S f) sub own t addr).
Proof.
  intros Hok Hs Hd.
  assert (RAW : ~ is_text t -> inside addr (Z.to_nat (subSize t)) (ob a) ->
    exists bs, write_raw (subSize t) addr a = Some (0, bs) /\
      transfers a (only addr t) bs (read_raw (subSize t) addr)).
  { intros Hk Hin. unfold write_raw. rewrite load_ok by exact Hin. cbn.
    eexists; split; [reflexivity|]. intros _ b rest Hl. cbv beta. unfold read_raw.
    rewrite take_app by now apply bytes_at_length.
    destruct (put_ov a b addr t Hk Hin Hl) as (b' & -> & Ho). cbn. eauto. }
  unfold single in Hs. unfold dumpable in Hd.
  assert (SGN : ~ is_text t -> 1 <= subSize t <= 8 -> inside addr (Z.to_nat (subSize t)) (ob a) ->
     - 2 ^ 55 <= sgn (8 * subSize t) (le_value (bytes_at addr (Z.to_nat (subSize t)) (ob a))) ->
    exists bs, option_map (fun out => (0, out)) (bint128_Write (sgn (8 * subSize t)
         (le_value (bytes_at addr (Z.to_nat (subSize t)) (ob a))))) = Some (0, bs) /\
      transfers a (only addr t) bs (fun o s => match bint128_Read s with
          | Some (v, s') => option_map (fun o' => (0, o', s')) (put (le_bytes (Z.to_nat (subSize t)) v) addr o)
          | None => None end)).
  { intros Hk Hsz Hin Hlo.
    pose proof (bytes_at_length _ _ _ Hin) as Hb.
    pose proof (bytes_at_ok addr (Z.to_nat (subSize t)) _ Hok) as Hbok.
    set (bs := bytes_at addr (Z.to_nat (subSize t)) (ob a)) in *.
    pose proof (sgn_range (8 * subSize t) (le_value bs) ltac:(lia)) as [_ Hhi].
    assert (2 ^ (8 * subSize t - 1) <= 2 ^ 63) by (apply Z.pow_le_mono_r; lia).
    assert (Hv : - 2 ^ 55 <= sgn (8 * subSize t) (le_value bs) < 2 ^ 63) by lia.
    destruct (bi_roundtrip _ [] Hv) as (out & Ew & _). rewrite Ew. cbn [option_map].
    eexists; split; [reflexivity|]. intros _ b rest Hl. cbv beta.
    destruct (bi_roundtrip _ rest Hv) as (out' & Ew' & Er).
    rewrite Ew in Ew'. injection Ew' as <-. rewrite Er.
    replace (le_bytes (Z.to_nat (subSize t)) (sgn (8 * subSize t) (le_value bs))) with bs.
    2:{ rewrite <- (le_bytes_value bs Hbok) at 1. rewrite Hb.
        apply le_bytes_wrap. rewrite Z2Nat.id by lia. rewrite pow256 by lia.
        symmetry. exact (sgn_wrap (8 * subSize t) (le_value bs) ltac:(lia)). }
    destruct (put_ov a b addr t Hk Hin Hl) as (b' & E & Ho). fold bs in E. rewrite E. cbn. eauto. }
  assert (UNS : ~ is_text t -> 1 <= subSize t <= 8 -> inside addr (Z.to_nat (subSize t)) (ob a) ->
    exists bs, option_map (fun out => (0, out)) (buint128_Write
         (le_value (bytes_at addr (Z.to_nat (subSize t)) (ob a)))) = Some (0, bs) /\
      transfers a (only addr t) bs (fun o s => match buint128_Read s with
          | Some (v, s') => option_map (fun o' => (0, o', s')) (put (le_bytes (Z.to_nat (subSize t)) v) addr o)
          | None => None end)).
  { intros Hk Hsz Hin.
    pose proof (bytes_at_length _ _ _ Hin) as Hb.
    pose proof (bytes_at_ok addr (Z.to_nat (subSize t)) _ Hok) as Hbok.
    set (bs := bytes_at addr (Z.to_nat (subSize t)) (ob a)) in *.
    pose proof (le_value_bound bs Hbok) as Hr. rewrite Hb, Z2Nat.id, pow256 in Hr by lia.
    assert (2 ^ (8 * subSize t) <= 2 ^ 64) by (apply Z.pow_le_mono_r; lia).
    assert (Hv : 0 <= le_value bs < 2 ^ 64) by lia.
    destruct (bu_roundtrip _ [] Hv) as (out & Ew & _). rewrite Ew. cbn [option_map].
    eexists; split; [reflexivity|]. intros _ b rest Hl. cbv beta.
    destruct (bu_roundtrip _ rest Hv) as (out' & Ew' & Er).
    rewrite Ew in Ew'. injection Ew' as <-. rewrite Er.
    rewrite <- Hb, le_bytes_value by exact Hbok.
    destruct (put_ov a b addr t Hk Hin Hl) as (b' & E & Ho). fold bs in E. rewrite E. cbn. eauto. }
  cbn [WriteDataItem LoadDataItem]. unfold transfers in *. cbn [LoadDataItem].
  destruct (type t) eqn:Et; try contradiction;
    try (apply RAW; [unfold is_text; congruence | now apply Hd]; fail).
  all: try (assert (Hk : ~ is_text t) by (unfold is_text; congruence)).
  1,2,3,5,6: destruct (Z.ltb_spec 1 (subSize t)); [destruct (Z.leb_spec (subSize t) 8); [|lia]; rewrite load_ok by (apply Hd) | apply RAW; [exact Hk|apply Hd]].
  1,3: apply SGN; [exact Hk|lia| |]; apply Hd.
  1,2,3: apply UNS; [exact Hk|lia|exact Hd].
  (* string *)
  eexists; split; [reflexivity|]. intros _ b rest Hl. cbv beta.
  rewrite <- app_assoc, take_app by apply le_bytes_length.
  rewrite le_value_bytes. change (256 ^ Z.of_nat 4) with (2 ^ 32).
  unfold u32. rewrite Z.mod_small by (apply wrap_range; lia). rewrite wrap_small by lia.
  rewrite take_app by lia. eexists; split; [reflexivity|].
  now apply put_string_ov.
Qed.

(** ** Arrays *)
Lemma elems_rt a (V : nat -> nat -> reflType -> Prop) w r n : forall i,
  (forall j, (i <= j < i + n)%nat -> exists bs, w j = Some (0, bs) /\ transfers a (V j) bs (r j)) ->
  exists bs, write_elems w n i = Some (0, bs) /\
    transfers a (fun x k => exists j, (i <= j < i + n)%nat /\ V j x k) bs (read_elems r n i).
Proof.
  induction n as [|n IH]; intros i H.
  - exists []. split; [reflexivity|]. intros _ b rest Hl. cbn. eexists; split; [reflexivity|].
    apply ov_empty. intros x k (j & Hj & _). lia.
  - destruct (H i ltac:(lia)) as (bs & Ew & Ht).
    destruct (IH (S i)) as (bs' & Ew' & Ht'). { intros j Hj. apply H. lia. }
    exists (bs ++ bs'). cbn [write_elems]. rewrite Ew, Ew'. split; [reflexivity|].
    intros Hlen b rest Hl. rewrite app_length in Hlen. cbn [read_elems].
    rewrite <- app_assoc. destruct (Ht ltac:(lia) b (bs' ++ rest) Hl) as (b1 & -> & O1).
    change (0 =? 0) with true. cbv iota.
    destruct (Ht' ltac:(lia) b1 rest) as (b2 & -> & O2).
    { destruct O1 as (L & _). congruence. }
    eexists; split; [reflexivity|].
    eapply ov_equiv; [|exact (ov_compose _ _ _ _ _ _ O1 O2)].
    intros x k. split.
    + intros [HV|(j & Hj & HV)]; [exists i|exists j]; (split; [lia|exact HV]).
    + intros (j & Hj & HV). destruct (Nat.eq_dec j i) as [->|]; [now left|].
      right. exists j. split; [lia|exact HV].
Qed.

(** ** Classes.  [c1] is the class that was saved, [c2] the one that is loaded. *)
Lemma buW x : exists bs, buint128_Write (u64 x) = Some bs /\
  forall rest, buint128_Read (bs ++ rest) = Some (u64 x, rest).
Proof.
  assert (H : 0 <= u64 x < 2 ^ 64) by (apply wrap_range; lia).
  destruct (bu_roundtrip _ [] H) as (bs & E & _). exists bs. split; [exact E|].
  intros rest. destruct (bu_roundtrip _ rest H) as (bs' & E' & R). congruence.
Qed.
Lemma u64_small x : 0 <= x < 2 ^ 64 -> u64 x = x.
Proof. apply wrap_small. Qed.

Definition known (c2 : cls) (t : reflType) : Prop := by_hash (cTypes c2) (cAlias c2) (nameHash t) = Some t.
Definition unknown (c2 : cls) (t : reflType) : Prop := by_hash (cTypes c2) (cAlias c2) (nameHash t) = None.

Lemma members_rt a (V : reflType -> nat -> reflType -> Prop) w r c2 : forall ts,
  (forall t, In t ts -> 0 <= nameHash t < 2 ^ 32) ->
  (forall t, In t ts -> known c2 t \/ unknown c2 t) ->
  (forall t, In t ts -> exists bs, w t = Some (0, bs) /\ (known c2 t -> transfers a (V t) bs (r t))) ->
  exists bs, save_members w ts = Some (0, bs) /\
    (Z.of_nat (length bs) < 2 ^ 64 -> forall b rest, length (ob b) = length (ob a) ->
     exists e b', load_members r c2 (length ts) 0 b (bs ++ rest) = Some (e, b', rest) /\ e = 0 /\
        ov (fun x k => exists t, In t ts /\ known c2 t /\ V t x k) a b b').
Proof.
  induction ts as [|t ts IH]; intros Hh Hk H.
  - exists []. split; [reflexivity|]. intros _ b rest Hl. cbn. exists 0, b. repeat split; auto.
    + intros i (x & k & (u & [] & _) & _).
    + intros i (k & (u & [] & _) & _).
  - destruct (H t (or_introl eq_refl)) as (bs & Ew & Ht).
    destruct IH as (bs' & Ew' & Ht').
    { intros u Hu. apply Hh. now right. } { intros u Hu. apply Hk. now right. } { intros u Hu. apply H. now right. }
    destruct (buW (Z.of_nat (length bs))) as (n & En & Rn).
    exists (le_bytes 4 (nameHash t) ++ n ++ bs ++ bs').
    cbn [save_members]. rewrite Ew. change (0 =? 0) with true. cbv iota. rewrite En, Ew'. split; [reflexivity|].
    intros Hlen b rest Hl. rewrite !app_length in Hlen.
    cbn [length load_members]. rewrite <- !app_assoc. rewrite take_app by apply le_bytes_length.
    rewrite Rn. rewrite le_value_bytes. change (256 ^ Z.of_nat 4) with (2 ^ 32).
    rewrite Z.mod_small by (apply Hh; now left). rewrite u64_small by lia.
    destruct (Hk t (or_introl eq_refl)) as [K|K].
    + unfold known in K. rewrite K.
      destruct (Ht K ltac:(lia) b (bs' ++ rest) Hl) as (b1 & -> & O1).
      change (0 =? 0) with true. cbv iota.
      destruct (Ht' ltac:(lia) b1 rest) as (e & b2 & -> & He & O2).
      { destruct O1 as (L & _). congruence. }
      exists e, b2. split; [reflexivity|]. split; [exact He|].
      eapply ov_equiv; [|exact (ov_compose _ _ _ _ _ _ O1 O2)].
      intros x k. split.
      * intros [HV|(u & Hu & HK & HV)]; [exists t|exists u]; repeat split; auto; [now left|now right].
      * intros (u & [<-|Hu] & HK & HV); [now left|]. right. exists u. auto.
    + unfold unknown in K. rewrite K. rewrite skip_app by reflexivity.
      destruct (Ht' ltac:(lia) b rest Hl) as (e & b2 & -> & He & O2).
      exists e, b2. split; [reflexivity|]. split; [exact He|].
      eapply ov_equiv; [|exact O2]. intros x k. split.
      * intros (u & Hu & HK & HV). exists u. repeat split; auto. now right.
      * intros (u & [<-|Hu] & HK & HV); [unfold known in HK; congruence|]. exists u. auto.
Qed.

Lemma class_rt a (V : reflType -> nat -> reflType -> Prop) w r c1 c2 base :
  length (cTypes c2) = length (cTypes c1) -> Z.of_nat (length (cTypes c1)) < 2 ^ 32 ->
  (forall t, In t (cTypes c1) -> 0 <= nameHash t < 2 ^ 32) ->
  (forall t, In t (cTypes c1) -> known c2 t \/ unknown c2 t) ->
  (forall t, In t (cTypes c1) -> exists bs, w t (base + nat_offset t)%nat = Some (0, bs) /\
      (known c2 t -> transfers a (V t) bs (r (c2, base) t (base + nat_offset t)%nat))) ->
  exists bs, SaveClass w (c1, base) = Some (0, bs) /\
    transfers a (fun x k => exists t, In t (cTypes c1) /\ known c2 t /\ V t x k) bs (LoadClass r (c2, base)).
Proof.
  intros Hn Hn32 Hh Hk H.
  destruct (members_rt a V (fun t => w t (base + nat_offset t)%nat)
              (fun t => r (c2, base) t (base + nat_offset t)%nat) c2 (cTypes c1) Hh Hk H)
    as (bs & Ew & Ht).
  destruct (buW (Z.of_nat (length (cTypes c1)))) as (n & En & Rn).
  rewrite u64_small in En by lia. rewrite u64_small in Rn by lia.
  destruct (buW (Z.of_nat (length (n ++ bs)))) as (l & El & Rl).
  exists (l ++ n ++ bs). unfold SaveClass. cbn [fst snd]. rewrite En, Ew.
  change (0 =? 0) with true. cbv iota. rewrite El. split; [reflexivity|].
  intros Hlen b rest Hl. unfold LoadClass. cbn [fst snd].
  rewrite <- !app_assoc. rewrite Rl, Rn, Hn, Z.eqb_refl. cbn [negb].
  rewrite !app_length in Hlen.
  destruct (Ht ltac:(lia) b rest Hl) as (e & b' & -> & -> & O). eauto.
Qed.

Lemma find_nodup ts : NoDup (map nameHash ts) -> forall t, In t ts ->
  find (fun u => nameHash u =? nameHash t) ts = Some t.
Proof.
  induction ts as [|u ts IH]; intros N t Ht; [destruct Ht|].
  cbn in N. apply NoDup_cons_iff in N as [N1 N2]. cbn [find].
  destruct (Z.eqb_spec (nameHash u) (nameHash t)) as [E|E].
  - destruct Ht as [->|Ht]; [reflexivity|]. exfalso. apply N1. rewrite E. now apply in_map.
  - destruct Ht as [->|Ht]; [congruence|]. now apply IH.
Qed.
Lemma known_nodup c : NoDup (map nameHash (cTypes c)) -> forall t, In t (cTypes c) -> known c t.
Proof. intros N t Ht. unfold known, by_hash. now rewrite find_nodup. Qed.

(** ** Items *)
Lemma single_value sub own t addr x k : single t -> (Value sub own t addr x k <-> only addr t x k).
Proof.
  intros Hs. split.
  - intros H. inversion H; subst.
    + split; reflexivity.
    + exfalso. unfold single in Hs. destruct H0 as [E|[E|E]]; rewrite E in Hs; exact Hs.
    + exfalso. unfold single in Hs. rewrite H0 in Hs. exact Hs.
  - intros (-> & ->). now constructor.
Qed.
Lemma array_value sub own t addr x k : is_array_kind t ->
  (Value sub own t addr x k <-> exists j, (0 <= j < 0 + Z.to_nat (numItems t))%nat /\
     Value sub own (elem t j) (addr + Z.to_nat (subSize t) * j)%nat x k).
Proof.
  intros Ha. split.
  - intros H. inversion H; subst.
    + exfalso. unfold single in *. destruct Ha as [E|[E|E]]; rewrite E in *; contradiction.
    + exists i. split; [lia|assumption].
    + exfalso. destruct Ha as [E|[E|E]]; congruence.
  - intros (j & Hj & HV). apply value_elem with (i := j); auto. lia.
Qed.

Lemma transfers_equiv a V W bs r : (forall x k, V x k <-> W x k) -> transfers a V bs r -> transfers a W bs r.
Proof.
  intros E H Hlen b rest Hl. destruct (H Hlen b rest Hl) as (b' & R & O).
  exists b'. split; [exact R|]. eapply ov_equiv; eauto.
Qed.

Lemma array_rt sub top own a t addr f (V : nat -> nat -> reflType -> Prop) : is_array_kind t ->
  (forall j, (0 <= j < 0 + Z.to_nat (numItems t))%nat -> exists bs,
     WriteDataItem f sub top a (elem t j) (addr + Z.to_nat (subSize t) * j)%nat = Some (0, bs) /\
     transfers a (Value sub own (elem t j) (addr + Z.to_nat (subSize t) * j)%nat) bs
       (LoadDataItem f sub own (elem t j) (addr + Z.to_nat (subSize t) * j)%nat)) ->
  exists bs, WriteDataItem (S f) sub top a t addr = Some (0, bs) /\
    transfers a (Value sub own t addr) bs (LoadDataItem (S f) sub own t addr).
Proof.
  intros Ha H.
  destruct (elems_rt a (fun j => Value sub own (elem t j) (addr + Z.to_nat (subSize t) * j)%nat)
      (fun i => WriteDataItem f sub top a (elem t i) (addr + Z.to_nat (subSize t) * i)%nat)
      (fun i => LoadDataItem f sub own (elem t i) (addr + Z.to_nat (subSize t) * i)%nat)
      (Z.to_nat (numItems t)) 0 H) as (bs & Ew & Ht).
  exists bs. split.
  - cbn [WriteDataItem]. destruct Ha as [E|[E|E]]; rewrite E; exact Ew.
  - eapply transfers_equiv with (V := fun x k => exists j, _ /\ _).
    + intros x k. symmetry. apply array_value. exact Ha.
    + intros Hlen b rest Hl. destruct (Ht Hlen b rest Hl) as (b' & R & O).
      exists b'. split; [|exact O]. cbn [LoadDataItem]. destruct Ha as [E|[E|E]]; rewrite E; exact R.
Qed.

Lemma flat_rt sub top a : bytes_ok (ob a) -> forall n own t addr f, flat n t -> (n < f)%nat ->
  (forall x k, Value sub own t addr x k -> dumpable a x k) ->
  exists bs, WriteDataItem f sub top a t addr = Some (0, bs) /\
    transfers a (Value sub own t addr) bs (LoadDataItem f sub own t addr).
Proof.
  intros Hok. induction n as [|n IH]; intros own t addr f Hf Hlt Hd; (destruct f as [|f]; [lia|]).
  - destruct Hf as [Hs|[]].
    destruct (single_rt sub top own a t addr f Hok Hs) as (bs & Ew & Ht).
    { apply Hd. now constructor. }
    exists bs. split; [exact Ew|]. eapply transfers_equiv; [|exact Ht].
    intros x k. symmetry. now apply single_value.
  - destruct Hf as [Hs|[Ha Hf]].
    + destruct (single_rt sub top own a t addr f Hok Hs) as (bs & Ew & Ht).
      { apply Hd. now constructor. }
      exists bs. split; [exact Ew|]. eapply transfers_equiv; [|exact Ht].
      intros x k. symmetry. now apply single_value.
    + apply (array_rt sub top own a t addr f (fun _ _ _ => True) Ha). intros j Hj.
      apply IH; [apply Hf; lia|lia|]. intros x k HV. apply Hd.
      apply value_elem with (i := j); auto. lia.
Qed.

Lemma item_rt sub own own2 a : bytes_ok (ob a) -> forall n t addr f, one_level sub own n t -> (n < f)%nat ->
  (forall s, SubClass sub own2 (ID t) s = SubClass sub own (ID t) s) ->
  (forall x k, Value sub own2 t addr x k -> dumpable a x k) ->
  exists bs, WriteDataItem f sub own a t addr = Some (0, bs) /\
    transfers a (Value sub own2 t addr) bs (LoadDataItem f sub own2 t addr).
Proof.
  intros Hok. induction n as [|n IH]; intros t addr f H1 Hlt HS Hd; (destruct f as [|f]; [lia|]).
  - destruct H1 as [Hf|[]]. now apply (flat_rt sub own a Hok 0 own2).
  - destruct H1 as [Hf|[(Et & (c & base) & ES & Hflat & Hnd & Hh & Hn)|[Ha H1]]].
    + now apply (flat_rt sub own a Hok (S n) own2).
    + cbn [fst] in *.
      destruct (class_rt a (fun m => Value sub (c, base) m (base + nat_offset m)%nat)
                 (WriteDataItem f sub own a) (LoadDataItem f sub) c c base) as (bs & Ew & Ht).
      * reflexivity.
      * exact Hn.
      * intros u Hu. rewrite Forall_forall in Hh. now apply Hh.
      * intros u Hu. left. now apply known_nodup.
      * intros u Hu. rewrite Forall_forall in Hflat.
        destruct (flat_rt sub own a Hok n (c, base) u (base + nat_offset u)%nat f (Hflat u Hu) ltac:(lia))
          as (bs & Ew & Ht).
        { intros x k HV. apply Hd. apply value_class with (c := c) (base := base) (m := u); auto. rewrite HS. exact ES. }
        exists bs. split; [exact Ew|]. intros _. exact Ht.
      * exists bs. split.
        { cbn [WriteDataItem]. rewrite Et, ES. exact Ew. }
        intros Hlen b rest Hl. destruct (Ht Hlen b rest Hl) as (b' & R & O).
        exists b'. split.
        { cbn [LoadDataItem]. rewrite Et, HS, ES. exact R. }
        eapply ov_equiv; [|exact O]. intros x k. split.
        { intros (u & Hu & _ & HV). apply value_class with (c := c) (base := base) (m := u); auto. rewrite HS. exact ES. }
        { intros HV. inversion HV; subst.
          - exfalso. unfold single in *. rewrite Et in *. contradiction.
          - exfalso. destruct H as [E|[E|E]]; congruence.
          - rewrite HS, ES in H0. injection H0 as -> ->. exists m. repeat split; auto. now apply known_nodup. }
    + apply (array_rt sub own own2 a t addr f (fun _ _ _ => True) Ha). intros j Hj.
      apply IH; [apply H1; lia|lia| |].
      * intros s. replace (ID (elem t j)) with (ID t); [apply HS|]. unfold elem. now destruct (subType t).
      * intros x k HV. apply Hd. apply value_elem with (i := j); auto. lia.
Qed.
