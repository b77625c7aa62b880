(** C35 (arrays) and C38: arrays, vectors and their elements. *)
From Verif Require Import Base Supercore_Model StringView_Model StringView_Spec Bitfield_Model Reflector_Model Reflector_Spec
  Reflector_Proof Reflector_Fmt_Proof Reflector_Array_Proof Reflector_Props.

Definition array_kind (t : reflType) : Prop := type t = RArray \/ type t = RVector \/ type t = RArrayClass.
(** the whole member lies in the object *)
Definition holds_array (t : reflType) (mem : list Z) : Prop :=
  0 <= offset t /\ 0 <= subSize t /\ 0 <= numItems t /\ inside (Z.to_nat (offset t)) (Z.to_nat (numItems t * subSize t)) mem.
Definition int_elements (t : reflType) : Prop := (subType t = RInteger \/ subType t = RUnsigned) /\ int_width t.

(** ** Round trips *)
Lemma all_some_map {A} (g : nat -> option A) (h : nat -> A) n : (forall i, (i < n)%nat -> g i = Some (h i)) ->
  all_some (map g (seq 0 n)) = Some (map h (seq 0 n)).
Proof.
  intros H. assert (G : forall l, (forall i, In i l -> g i = Some (h i)) -> all_some (map g l) = Some (map h l)).
  { induction l as [|x l IH]; intros Hl; [reflexivity|]. cbn [map all_some]. rewrite Hl by (left; reflexivity).
    rewrite IH by (intros; apply Hl; right; assumption). reflexivity. }
  apply G. intros i Hi. apply H. apply in_seq in Hi. lia.
Qed.
Definition spaced (lead : list Z) (l : list (list Z)) : list (list Z * list Z) :=
  match l with [] => [] | x :: r => (lead, x) :: map (fun y => ([32], y)) r end.
Lemma join_text l : forall lead, l <> [] -> array_text (spaced lead l) = lead ++ join_elems l.
Proof.
  induction l as [|x l IH]; intros lead H; [congruence|]. destruct l as [|y l]; [reflexivity|].
  change (array_text (spaced lead (x :: y :: l))) with (lead ++ x ++ [44] ++ array_text (spaced [32] (y :: l))).
  rewrite IH by discriminate. change (join_elems (x :: y :: l)) with (x ++ [44; 32] ++ join_elems (y :: l)). reflexivity.
Qed.
Lemma spaced_ok l lead : blanks lead -> Forall element_text l -> Forall (fun p => blanks (fst p) /\ element_text (snd p)) (spaced lead l).
Proof.
  intros Hl F. destruct l as [|x l]; [constructor|]. inversion F as [|? ? H1 H2]; subst. cbn [spaced]. constructor; [auto|].
  apply Forall_map. eapply Forall_impl; [|exact H2]. cbn. intros. split; [constructor; [auto|constructor]|assumption].
Qed.
Lemma spaced_snd l lead : map snd (spaced lead l) = l.
Proof. destruct l as [|x l]; [reflexivity|]. cbn [spaced map snd]. rewrite map_map. cbn. rewrite map_id. reflexivity. Qed.

Lemma spaced_nonempty l lead : l <> [] -> Forall element_text l -> array_text (spaced lead l) <> [].
Proof. intros Hn F. destruct F as [|x l H F]; [congruence|]. apply array_text_nonempty. exact H. Qed.

Lemma braces_ok t : array_kind t -> In (fst (braces (type t))) [91; 40; 123] /\ In (snd (braces (type t))) [93; 41; 125].
Proof. intros [-> |[-> | ->]]; cbn; lia. Qed.

(** an array whose elements survive, survives *)
Lemma array_round_trip e t addr mem f1 f2 (h : nat -> list Z) :
  array_kind t -> 0 < numItems t -> 0 <= subSize t ->
  (forall i, (i < Z.to_nat (numItems t))%nat ->
     GetReflectedPrimitive f1 e (element_type t) (addr + Z.to_nat (subSize t * Z.of_nat i))%nat mem = Some (h i) /\
     element_text (h i) /\
     exists err, SetReflectedMember f2 e (element_type t) (h i) (addr + Z.to_nat (subSize t * Z.of_nat i))%nat mem = Some (err, mem)) ->
  let s := fst (braces (type t)) :: join_elems (map h (seq 0 (Z.to_nat (numItems t)))) ++ [snd (braces (type t))] in
  GetReflectedPrimitive (S f1) e t addr mem = Some s /\
  (Z.of_nat (length s) < 2 ^ 64 -> SetReflectedMember (S f2) e t s addr mem = Some (ENone, mem)).
Proof.
  intros Hk Hn Hs H s. set (l := map h (seq 0 (Z.to_nat (numItems t)))) in *.
  assert (Hne : l <> []) by (unfold l; destruct (Z.to_nat (numItems t)) eqn:E; [lia|discriminate]).
  assert (Hl : length l = Z.to_nat (numItems t)) by (unfold l; rewrite map_length, seq_length; reflexivity).
  assert (Hel : Forall element_text l).
  { apply Forall_forall. intros x Hx. unfold l in Hx. apply in_map_iff in Hx. destruct Hx as (i & <- & Hi). apply in_seq in Hi. apply H. lia. }
  split.
  - assert (E : all_some (map (fun i => GetReflectedPrimitive f1 e (element_type t) (addr + Z.to_nat (subSize t * Z.of_nat i))%nat mem)
                     (seq 0 (Z.to_nat (numItems t)))) = Some l) by (apply all_some_map; intros i Hi; apply H; exact Hi).
    destruct Hk as [Hk|[Hk|Hk]]; unfold s; rewrite Hk; cbn [GetReflectedPrimitive]; rewrite Hk;
      (destruct (Z.eqb_spec (numItems t) 0); [lia|]); rewrite E; reflexivity.
  - intros Hlen. pose proof (braces_ok t Hk) as [Ho Hc].
    assert (Estart : skip_start s = s) by (unfold s; apply skip_start_id; cbn [In] in Ho; lia).
    assert (Hj : join_elems l = array_text (spaced [] l)) by (rewrite join_text by assumption; reflexivity).
    assert (Hjne : join_elems l <> []).
    { rewrite Hj. apply spaced_nonempty; assumption. }
    assert (Hset : SetReflectedArray (SetReflectedMember f2 e) (fst (braces (type t))) (snd (braces (type t))) addr s t mem = Some (ENone, mem)).
    { unfold s in Hlen |- *. rewrite SetReflectedArray_braced; [|cbn [length] in Hlen; rewrite app_length in Hlen; cbn [length] in Hlen; lia|exact Hjne].
      rewrite Hj. rewrite loop_elements.
      - rewrite spaced_snd. apply set_all_same; [lia|]. intros i x Hi.
        unfold l in Hi. assert (Hi' : (i < Z.to_nat (numItems t))%nat) by (rewrite <- Hl; apply nth_error_Some; unfold l; congruence).
        rewrite nth_error_map in Hi. rewrite (nth_error_nth' _ 0%nat) in Hi by (rewrite seq_length; lia).
        rewrite seq_nth in Hi by lia. cbn [option_map] in Hi. injection Hi as <-. cbn [Nat.add]. rewrite Z.add_0_l.
        destruct (H i Hi') as (_ & _ & err & E). exists err. exact E.
      - apply spaced_ok; [constructor|exact Hel].
      - destruct l; [congruence|discriminate].
      - rewrite Z.add_0_l. destruct l as [|x l']; [congruence|]. cbn [spaced length]. rewrite map_length. cbn [length] in Hl. lia. }
    destruct Hk as [Hk|[Hk|Hk]]; cbn [SetReflectedMember]; rewrite Estart; rewrite Hk in Hset |- *; exact Hset.
Qed.

Lemma int_text_plain t addr mem : plain_element (int_text t addr mem).
Proof.
  unfold int_text. cbv zeta. set (x := match type t with RInteger => _ | _ => _ end). clearbody x. pose proof (to_string_chars x) as F. split.
  - eapply Forall_impl; [|exact F]. cbn. unfold special. cbn [In]. intros; lia.
  - pose proof (to_string_nonempty x) as Hn. destruct (to_string x) as [|c r]; [congruence|]. exists c, r.
    inversion F; subst. repeat split; lia.
Qed.
Lemma element_type_plain t : subType t <> RVector ->
  element_type t = mkRefl (subType t) (subType t) (subSize t) (ID t) (numItems t) (offset t) (nameHash t) (typeHash t).
Proof. intros H. unfold element_type. destruct (subType t); try reflexivity. congruence. Qed.

Lemma inside_element addr size num mem i : 0 <= size -> 0 <= i < num -> inside addr (Z.to_nat (num * size)) mem ->
  inside (addr + Z.to_nat (size * i)) (Z.to_nat size) mem.
Proof. unfold inside. intros H1 H2 H3. assert (size * i + size <= num * size) by nia. assert (0 <= size * i) by nia. lia. Qed.

Lemma int_array_round_trip e t addr mem : array_kind t -> int_elements t -> 0 < numItems t -> bytes_ok mem ->
  inside addr (Z.to_nat (numItems t * subSize t)) mem ->
  exists s, forall f1 f2, GetReflectedPrimitive (S f1) e t addr mem = Some s /\
    (Z.of_nat (length s) < 2 ^ 64 -> SetReflectedMember (S f2) e t s addr mem = Some (ENone, mem)) /\
    exists l, s = fst (braces (type t)) :: join_elems l ++ [snd (braces (type t))] /\
              Forall (fun x => Forall (fun c => c = 45 \/ 48 <= c <= 57) x) l.
Proof.
  intros Hk [Hst Hw] Hn Hb Hin.
  assert (Hne : subType t <> RVector) by (destruct Hst as [-> | ->]; discriminate).
  pose proof (element_type_plain t Hne) as Et.
  assert (Him : int_member (element_type t)).
  { rewrite Et. split; [exact Hst|exact Hw]. }
  set (h := fun i : nat => int_text (element_type t) (addr + Z.to_nat (subSize t * Z.of_nat i))%nat mem).
  exists (fst (braces (type t)) :: join_elems (map h (seq 0 (Z.to_nat (numItems t)))) ++ [snd (braces (type t))]). intros f1 f2.
  assert (H : forall i, (i < Z.to_nat (numItems t))%nat ->
     GetReflectedPrimitive f1 e (element_type t) (addr + Z.to_nat (subSize t * Z.of_nat i))%nat mem = Some (h i) /\
     element_text (h i) /\
     exists err, SetReflectedMember f2 e (element_type t) (h i) (addr + Z.to_nat (subSize t * Z.of_nat i))%nat mem = Some (err, mem)).
  { intros i Hi. assert (Hin' : inside (addr + Z.to_nat (subSize t * Z.of_nat i)) (Z.to_nat (subSize (element_type t))) mem).
    { rewrite Et. cbn [subSize]. apply (inside_element addr (subSize t) (numItems t)); [unfold int_width in Hw; lia|lia|exact Hin]. }
    destruct (int_round_trip e (element_type t) _ mem Him Hb Hin' f1 f2) as [G S].
    split; [exact G|]. split; [left; apply int_text_plain|]. exists ENone. exact S. }
  destruct (array_round_trip e t addr mem f1 f2 h Hk Hn ltac:(unfold int_width in Hw; lia) H) as [G S].
  split; [exact G|]. split; [exact S|]. eexists. split; [reflexivity|].
  apply Forall_forall. intros x Hx. apply in_map_iff in Hx. destruct Hx as (i & <- & _). unfold h, int_text. apply to_string_chars.
Qed.

(** Arrays and vectors of integers survive get and set. *)
Theorem C35_int_arrays e cls id t mem :
  member_of cls id t -> array_kind t -> int_elements t -> 0 < numItems t -> holds_array t mem -> bytes_ok mem ->
  exists s, GetReflectedValue e cls (Z.of_nat id) mem = Some s /\
    (Z.of_nat (length s) < 2 ^ 64 -> SetReflectedValue e cls (Z.of_nat id) s mem = Some (ENone, mem)).
Proof.
  intros Hm Hk Hi Hn (Ho & Hs & _ & Hin) Hb.
  destruct (int_array_round_trip e t (nat_offset t) mem Hk Hi Hn Hb Hin) as (s & H). exists s.
  destruct (H 1%nat (length s)) as (G & S & _).
  unfold GetReflectedValue, SetReflectedValue. rewrite (by_id_ok _ _ _ Hm). unfold set_value, set_fuel.
  destruct Hk as [Hk|[Hk|Hk]]; rewrite Hk; (split; [exact G|exact S]).
Qed.

(** Arrays of integer vectors: [k] the kind, [w] the width in bytes and [n] the number of the
    elements of a vector. *)
Lemma dec_hash k w n : 0 <= w < 256 -> 0 <= n < 2 ^ 16 ->
  let h := CompileVectorHash k w n in dec_type h = k /\ dec_size h = w /\ dec_num h = n.
Proof.
  intros Hw Hn h. assert (Hk : 0 <= ref_code k < 15) by (destruct k; cbn; lia).
  change (2 ^ 16) with 65536 in Hn.
  unfold dec_type, dec_size, dec_num, h, CompileVectorHash. change (2 ^ 8) with 256. change (2 ^ 16) with 65536.
  assert (E1 : (ref_code k + w * 256 + n * 65536) mod 256 = ref_code k) by lia.
  assert (E2 : (ref_code k + w * 256 + n * 65536) / 256 mod 256 = w) by lia.
  assert (E3 : (ref_code k + w * 256 + n * 65536) / 65536 mod 65536 = n) by lia.
  rewrite E1, E2, E3. split; [destruct k; reflexivity|auto].
Qed.
Theorem C35_vector_arrays e cls id t k w n mem :
  member_of cls id t -> is_array t = true -> subType t = RVector ->
  typeHash t = CompileVectorHash k w n -> k = RInteger \/ k = RUnsigned -> w = 1 \/ w = 2 \/ w = 4 \/ w = 8 ->
  0 < n < 2 ^ 16 -> subSize t = n * w -> 0 < numItems t -> holds_array t mem -> bytes_ok mem ->
  exists s, GetReflectedValue e cls (Z.of_nat id) mem = Some s /\
    (Z.of_nat (length s) < 2 ^ 64 -> SetReflectedValue e cls (Z.of_nat id) s mem = Some (ENone, mem)).
Proof.
  intros Hm Ha Hst Hh Hk Hw Hn Hsz Hnum (Ho & Hs & _ & Hin) Hb.
  assert (Hkind : array_kind t) by (unfold is_array in Ha; unfold array_kind; destruct (type t); try discriminate; auto).
  destruct (dec_hash k w n ltac:(lia) ltac:(lia)) as (D1 & D2 & D3). rewrite <- Hh in D1, D2, D3.
  assert (Et : element_type t = mkRefl RVector k w (ID t) n (offset t) (nameHash t) (typeHash t)).
  { unfold element_type. rewrite Hst, D1, D2, D3. reflexivity. }
  set (et := mkRefl RVector k w (ID t) n (offset t) (nameHash t) (typeHash t)) in *.
  assert (Hev : array_kind et) by (right; left; reflexivity).
  assert (Hei : int_elements et) by (split; [exact Hk|exact Hw]).
  assert (Hin' : forall i, (i < Z.to_nat (numItems t))%nat ->
    inside (nat_offset t + Z.to_nat (subSize t * Z.of_nat i)) (Z.to_nat (numItems et * subSize et)) mem).
  { intros i Hi. cbn [numItems subSize et]. rewrite <- Hsz. apply (inside_element _ (subSize t) (numItems t)); [lia|lia|exact Hin]. }
  assert (Hv : forall i, (i < Z.to_nat (numItems t))%nat -> exists s, forall f1 f2,
    let addr := (nat_offset t + Z.to_nat (subSize t * Z.of_nat i))%nat in
    GetReflectedPrimitive (S f1) e et addr mem = Some s /\
    (Z.of_nat (length s) < 2 ^ 64 -> SetReflectedMember (S f2) e et s addr mem = Some (ENone, mem)) /\
    exists l, s = fst (braces (type et)) :: join_elems l ++ [snd (braces (type et))] /\
              Forall (fun x => Forall (fun c => c = 45 \/ 48 <= c <= 57) x) l).
  { intros i Hi. apply (int_array_round_trip e et _ mem Hev Hei ltac:(cbn; lia) Hb (Hin' i Hi)). }
  (* the texts of the vectors *)
  set (h := fun i : nat => match GetReflectedPrimitive 1 e et (nat_offset t + Z.to_nat (subSize t * Z.of_nat i))%nat mem with Some s => s | None => [] end).
  set (s := fst (braces (type t)) :: join_elems (map h (seq 0 (Z.to_nat (numItems t)))) ++ [snd (braces (type t))]).
  assert (Hh1 : forall i, (i < Z.to_nat (numItems t))%nat ->
     GetReflectedPrimitive 1 e (element_type t) (nat_offset t + Z.to_nat (subSize t * Z.of_nat i))%nat mem = Some (h i) /\ element_text (h i)).
  { intros i Hi. destruct (Hv i Hi) as (x & Hx). destruct (Hx 0%nat 0%nat) as (G & _ & (l & El & Fl)). rewrite Et. unfold h. rewrite G.
    split; [reflexivity|]. right. rewrite El. cbn [braces type et fst snd].
    exists 91, (join_elems l), 93. repeat split; [cbn; auto..|].
    clear -Fl. assert (Fx : forall x, In x l -> Forall (fun c => ~ In c [93; 34; 41; 125]) x).
    { intros x Hx. rewrite Forall_forall in Fl. specialize (Fl x Hx). eapply Forall_impl; [|exact Fl]. cbn [In]. intros; lia. }
    clear Fl. induction l as [|x l IH]; [constructor|]. destruct l as [|y l]; [apply Fx; left; reflexivity|].
    change (join_elems (x :: y :: l)) with (x ++ [44; 32] ++ join_elems (y :: l)).
    apply Forall_app. split; [apply Fx; left; reflexivity|]. apply Forall_app. split.
    - repeat constructor; cbn; lia.
    - apply IH. intros z Hz. apply Fx. right. exact Hz. }
  exists s. unfold GetReflectedValue, SetReflectedValue. rewrite (by_id_ok _ _ _ Hm). unfold set_value, set_fuel.
  assert (Hfin : Z.of_nat (length s) < 2 ^ 64 -> exists f3, length s = S f3 /\
    (forall i, (i < Z.to_nat (numItems t))%nat ->
      exists err, SetReflectedMember (S f3) e (element_type t) (h i) (nat_offset t + Z.to_nat (subSize t * Z.of_nat i))%nat mem = Some (err, mem))).
  { intros Hlen. exists (Nat.pred (length s)). split; [unfold s; reflexivity|]. intros i Hi.
    destruct (Hv i Hi) as (x & Hx). destruct (Hx 0%nat (Nat.pred (length s))) as (G & S & _).
    assert (Ex : h i = x) by (unfold h; rewrite G; reflexivity). rewrite Et, Ex. exists ENone. apply S.
    (* an element is no longer than the whole *)
    assert (Hle : (length x <= length s)%nat).
    { unfold s. cbn [length]. rewrite app_length. rewrite <- Ex.
      assert (G2 : forall l, In (h i) l -> (length (h i) <= length (join_elems l))%nat).
      { induction l as [|y l IH]; intros H; [destruct H|]. destruct l as [|z l].
        - destruct H as [->|[]]. cbn. lia.
        - change (join_elems (y :: z :: l)) with (y ++ [44; 32] ++ join_elems (z :: l)). rewrite !app_length.
          destruct H as [->|H]; [lia|]. specialize (IH H). lia. }
      specialize (G2 (map h (seq 0 (Z.to_nat (numItems t))))). assert (X : In (h i) (map h (seq 0 (Z.to_nat (numItems t))))).
      { apply in_map, in_seq. lia. }
      specialize (G2 X). lia. }
    lia. }
  assert (G : GetReflectedPrimitive 2 e t (nat_offset t) mem = Some s).
  { assert (E : all_some (map (fun i => GetReflectedPrimitive 1 e (element_type t) (nat_offset t + Z.to_nat (subSize t * Z.of_nat i))%nat mem)
                     (seq 0 (Z.to_nat (numItems t)))) = Some (map h (seq 0 (Z.to_nat (numItems t))))) by (apply all_some_map; intros i Hi; apply Hh1; exact Hi).
    unfold s. remember 1%nat as one eqn:E1. destruct Hkind as [Hkd|[Hkd|Hkd]]; rewrite Hkd; cbn [GetReflectedPrimitive]; rewrite Hkd;
      (destruct (Z.eqb_spec (numItems t) 0); [lia|]); rewrite E; reflexivity. }
  assert (Sx : Z.of_nat (length s) < 2 ^ 64 -> SetReflectedMember (S (length s)) e t s (nat_offset t) mem = Some (ENone, mem)).
  { intros Hlen. destruct (Hfin Hlen) as (f3 & E3 & Hset). rewrite E3.
    destruct (array_round_trip e t (nat_offset t) mem 1 (S f3) h Hkind Hnum Hs) as [_ S2].
    - intros i Hi. destruct (Hh1 i Hi) as [A B]. split; [exact A|]. split; [exact B|]. apply Hset. exact Hi.
    - apply S2. exact Hlen. }
  destruct Hkind as [Hkd|[Hkd|Hkd]]; rewrite Hkd; (split; [exact G|exact Sx]).
Qed.

(** ** C38 *)
(** Text of numbers in the member's braces, separated by commas, with any blanks: element i gets
    the i-th number, nothing else changes. *)
Definition stored_value (t : reflType) (text : list Z) (v : Z) : Prop := exists neg m, literal text neg m /\
  v = match subType t with
      | RInteger => clamp (- 2 ^ (8 * subSize t - 1)) (2 ^ (8 * subSize t - 1) - 1) (if neg then - m else m)
      | _ => if 2 ^ 64 <=? m then 2 ^ (8 * subSize t) - 1
             else if neg then (- m) mod 2 ^ (8 * subSize t) else Z.min (2 ^ (8 * subSize t) - 1) m
      end.
Lemma set_int_element e t text v addr mem f : int_elements t -> stored_value t text v -> inside addr (Z.to_nat (subSize t)) mem ->
  exists err new, SetReflectedMember f e (element_type t) text addr mem = Some (err, new) /\
    replaced mem addr (le_bytes (Z.to_nat (subSize t)) v) new.
Proof.
  intros [Hst Hw] (neg & m & Hl & ->) Hin.
  assert (Hne : subType t <> RVector) by (destruct Hst as [-> | ->]; discriminate).
  set (t' := mkRefl (subType t) (subType t) (subSize t) 0 0 (Z.of_nat addr) 0 0).
  assert (Hh : holds t' mem) by (repeat split; cbn; try lia; [unfold int_width in Hw; lia|rewrite Nat2Z.id; exact Hin]).
  assert (Es : SetReflectedMember f e (element_type t) text addr mem = SetReflectedValue e [t'] 0 text mem).
  { rewrite (element_type_plain t Hne). unfold SetReflectedValue. cbn [by_id nth_error Z.to_nat Z.leb Z.ltb Z.compare length Z.of_nat andb].
    unfold set_value, set_fuel, nat_offset. cbn [type offset t']. rewrite Nat2Z.id.
    unfold t'. destruct Hst as [E|E]; rewrite E; destruct f; cbn [SetReflectedMember type subSize]; reflexivity. }
  rewrite Es. destruct Hst as [E|E]; rewrite E.
  - destruct (C34_signed e [t'] 0 t' text neg m mem eq_refl E Hw Hh Hl) as (new & E2 & R). cbv zeta in E2, R.
    change (offset t') with (Z.of_nat addr) in R. rewrite Nat2Z.id in R. eexists _, new. split; [exact E2|exact R].
  - destruct (C34_unsigned e [t'] 0 t' text neg m mem eq_refl E Hw Hh Hl) as (new & E2 & R). cbv zeta in E2, R.
    change (offset t') with (Z.of_nat addr) in R. rewrite Nat2Z.id in R. eexists _, new. split; [exact E2|exact R].
Qed.
Lemma replaced_seq mem a bs mem1 cs mem2 : replaced mem a bs mem1 -> replaced mem1 (a + length bs) cs mem2 -> replaced mem a (bs ++ cs) mem2.
Proof.
  intros (x & m & z & -> & Lx & Lm & ->) (y & m2 & z2 & E & Ly & Lm2 & ->).
  assert (E2 : x ++ bs ++ z = (x ++ bs) ++ z) by (rewrite app_assoc; reflexivity). rewrite E2 in E.
  assert (Ez : y = x ++ bs /\ z = m2 ++ z2).
  { assert (L : length (x ++ bs) = length y) by (rewrite app_length; lia).
    revert E L. generalize (x ++ bs). clear. revert y. induction y as [|c y IH]; intros [|d l] E L; try discriminate L; [auto|].
    cbn [app] in E. injection E as -> E. cbn in L. destruct (IH l E ltac:(lia)) as [-> ->]. auto. }
  destruct Ez as [-> ->]. exists x, (m ++ m2), z2. repeat split; try assumption.
  - rewrite <- !app_assoc. reflexivity.
  - rewrite !app_length. lia.
  - rewrite <- !app_assoc. reflexivity.
Qed.
Lemma set_all_ints e t f base mem es vs : int_elements t -> Forall2 (stored_value t) es vs -> forall k mem0, 0 <= k ->
  mem0 = mem -> inside (base + Z.to_nat (subSize t * k)) (Z.to_nat (Z.of_nat (length es) * subSize t)) mem ->
  exists new, set_all (SetReflectedMember f e (element_type t)) (subSize t) base es k mem0 = Some (ENone, new) /\
    replaced mem0 (base + Z.to_nat (subSize t * k)) (concat (map (le_bytes (Z.to_nat (subSize t))) vs)) new.
Proof.
  intros Hi F. pose proof Hi as [_ Hw]. revert mem. induction F as [|x v es vs Hx F IH]; intros mem k mem0 Hk -> Hin.
  - exists mem. split; [reflexivity|]. cbn [map concat]. unfold inside in Hin.
    exists (firstn (base + Z.to_nat (subSize t * k)) mem), [], (skipn (base + Z.to_nat (subSize t * k)) mem).
    repeat split; cbn [app]; try (symmetry; apply firstn_skipn). rewrite firstn_length. lia.
  - cbn [set_all length] in *. rewrite Nat2Z.inj_succ in Hin.
    assert (Hpos : 0 <= subSize t) by (unfold int_width in Hw; lia).
    assert (0 <= Z.of_nat (length es) * subSize t) by nia.
    destruct (set_int_element e t x v (base + Z.to_nat (subSize t * k)) mem f Hi Hx) as (err & mem1 & -> & R1).
    { unfold inside in *. lia. }
    assert (Ea : (base + Z.to_nat (subSize t * k) + length (le_bytes (Z.to_nat (subSize t)) v) = base + Z.to_nat (subSize t * (k + 1)))%nat).
    { rewrite le_bytes_length. assert (0 <= subSize t * k) by nia. lia. }
    destruct (IH mem1 (k + 1) mem1 ltac:(lia) eq_refl) as (new & -> & R2).
    { unfold inside in *. rewrite (replaced_length _ _ _ _ R1). rewrite <- Ea, le_bytes_length. lia. }
    exists new. split; [reflexivity|]. cbn [map concat]. rewrite <- Ea in R2. apply (replaced_seq _ _ _ _ _ _ R1 R2).
Qed.
Theorem C38_set_array e cls id t elems vs mem :
  member_of cls id t -> array_kind t -> int_elements t -> holds_array t mem ->
  Forall (fun p => blanks (fst p) /\ plain_element (snd p)) elems -> elems <> [] ->
  Z.of_nat (length elems) <= numItems t ->
  Forall2 (stored_value t) (map snd elems) vs ->
  let text := [fst (braces (type t))] ++ array_text elems ++ [snd (braces (type t))] in
  Z.of_nat (length text) < 2 ^ 64 ->
  exists new, SetReflectedValue e cls (Z.of_nat id) text mem = Some (ENone, new) /\
    replaced mem (Z.to_nat (offset t)) (concat (map (le_bytes (Z.to_nat (subSize t))) vs)) new.
Proof.
  intros Hm Hk Hi (Ho & Hs & Hn & Hin) F Hne Hlen F2 text Ht.
  assert (F' : Forall (fun p => blanks (fst p) /\ element_text (snd p)) elems).
  { eapply Forall_impl; [|exact F]. cbn. intros p [A B]. split; [exact A|left; exact B]. }
  destruct (set_all_ints e t (length text) (nat_offset t) mem (map snd elems) vs Hi F2 0 mem ltac:(lia) eq_refl) as (new & E & R).
  { rewrite Z.mul_0_r. cbn [Z.to_nat]. rewrite Nat.add_0_r. rewrite map_length. unfold inside in *. unfold nat_offset.
    assert (Z.of_nat (length elems) * subSize t <= numItems t * subSize t) by nia. lia. }
  rewrite Z.mul_0_r in R. cbn [Z.to_nat] in R. rewrite Nat.add_0_r in R.
  exists new. split; [|exact R].
  pose proof (braces_ok t Hk) as [Hob Hcb].
  assert (Estart : skip_start text = text) by (unfold text; cbn [app]; apply skip_start_id; cbn [In] in Hob; lia).
  assert (Ene : array_text elems <> []).
  { destruct elems as [|[b x] elems]; [congruence|]. apply array_text_nonempty. inversion F'; subst. tauto. }
  assert (Es : SetReflectedArray (SetReflectedMember (length text) e) (fst (braces (type t))) (snd (braces (type t))) (nat_offset t) text t mem = Some (ENone, new)).
  { assert (Hb : Z.of_nat (length (array_text elems)) + 2 < 2 ^ 64).
    { unfold text in Ht. cbn [app length] in Ht. rewrite app_length in Ht. cbn [length] in Ht. lia. }
    remember (length text) as fuel eqn:Ef. unfold text. cbn [app]. rewrite SetReflectedArray_braced.
    - rewrite loop_elements by (assumption || lia). exact E.
    - exact Hb.
    - exact Ene. }
  unfold SetReflectedValue. rewrite (by_id_ok _ _ _ Hm). unfold set_value, set_fuel.
  destruct Hk as [Hk|[Hk|Hk]]; rewrite Hk; cbn [SetReflectedMember]; rewrite Estart; rewrite Hk in Es |- *; exact Es.
Qed.

(** Whatever the text, an array of integers or enums is only changed inside its own bytes. *)
Definition small_elements (t : reflType) : Prop := int_elements t \/ subType t = REnum /\ 1 <= subSize t <= 8.
Lemma small_set e t f : small_elements t ->
  (forall txt addr mem, inside addr (Z.to_nat (subSize t)) mem ->
    exists err new, SetReflectedMember f e (element_type t) txt addr mem = Some (err, new) /\
      same_outside addr (Z.to_nat (subSize t)) mem new) /\
  (forall addr mem, exists err, SetReflectedMember f e (element_type t) [] addr mem = Some (err, mem)).
Proof.
  intros H.
  assert (Hass : forall r addr mem, inside addr (Z.to_nat (subSize t)) mem -> exists err new,
    assign (Z.to_nat (subSize t)) r addr mem = Some (err, new) /\ same_outside addr (Z.to_nat (subSize t)) mem new).
  { intros [err [x|]] addr mem Hin; [|exists err, mem; split; [reflexivity|split; auto]].
    destruct (assign_value (Z.to_nat (subSize t)) err x addr mem Hin) as (new & E & R). exists err, new. split; [exact E|].
    apply replaced_outside in R. rewrite le_bytes_length in R. exact R. }
  destruct H as [[Hst Hw]|[Hst Hw]].
  - rewrite element_type_plain by (destruct Hst as [-> | ->]; discriminate).
    pose proof (int_width_size t Hw) as Hsz.
    destruct Hst as [E|E]; rewrite E; (split; [intros txt addr mem Hin|intros addr mem]);
      destruct f; cbn [SetReflectedMember type subSize]; rewrite Hsz;
      first [apply Hass; exact Hin|eexists; reflexivity].
  - rewrite element_type_plain by (rewrite Hst; discriminate). rewrite Hst. split; [intros txt addr mem Hin|intros addr mem].
    + assert (G : exists err new, copy_value (subSize t) (SetEnum e (skip_start txt) (typeHash t)) addr mem = Some (err, new) /\
        same_outside addr (Z.to_nat (subSize t)) mem new).
      { unfold copy_value. destruct (SetEnum e (skip_start txt) (typeHash t)) as [err [v|]]; [|exists err, mem; split; [reflexivity|split; auto]].
        destruct (Z.leb_spec (subSize t) 8); [|lia].
        destruct (store_ok (le_bytes (Z.to_nat (subSize t)) v) addr mem) as (new & -> & R); [rewrite le_bytes_length; exact Hin|].
        exists err, new. split; [reflexivity|]. apply replaced_outside in R. rewrite le_bytes_length in R. exact R. }
      destruct f; exact G.
    + destruct f; eexists; reflexivity.
Qed.
Theorem C38_array_any_text e cls id t text mem :
  member_of cls id t -> array_kind t -> small_elements t -> holds_array t mem -> Z.of_nat (length text) < 2 ^ 64 ->
  exists err new, SetReflectedValue e cls (Z.of_nat id) text mem = Some (err, new) /\
    same_outside (Z.to_nat (offset t)) (Z.to_nat (numItems t * subSize t)) mem new.
Proof.
  intros Hm Hk Hsm (Ho & Hs & Hn & Hin) Hlen.
  assert (Hl2 : StringView_Model.size (skip_start text) < 2 ^ 64).
  { unfold StringView_Model.size. destruct (skip_start_split text) as (b & E & _ & _). rewrite E in Hlen. rewrite app_length in Hlen. lia. }
  assert (G : exists err new, SetReflectedArray (SetReflectedMember (length text) e) (fst (braces (type t))) (snd (braces (type t)))
      (nat_offset t) (skip_start text) t mem = Some (err, new) /\
    same_outside (Z.to_nat (offset t)) (Z.to_nat (numItems t * subSize t)) mem new).
  { destruct (SetReflectedArray_cases (SetReflectedMember (length text) e) (fst (braces (type t))) (snd (braces (type t)))
      (nat_offset t) (skip_start text) t mem Hl2) as [(err & ->)|(inner & ->)].
    - exists err, mem. split; [reflexivity|split; auto].
    - destruct (small_set e t (length text) Hsm) as [A B].
      apply loop_safe; try assumption; try lia. intros txt addr mem' _ H. apply A. exact H. }
  destruct G as (err & new & G & S). exists err, new. split; [|exact S].
  unfold SetReflectedValue. rewrite (by_id_ok _ _ _ Hm). unfold set_value, set_fuel.
  destruct Hk as [Hk|[Hk|Hk]]; rewrite Hk; cbn [SetReflectedMember]; rewrite Hk in G |- *; exact G.
Qed.

(** Setting one element inside the range changes that element only. *)
Theorem C38_set_element e cls id t text i mem :
  member_of cls id t -> array_kind t -> small_elements t -> holds_array t mem -> 0 <= i < numItems t ->
  exists err new, SetReflectedSub e cls (Z.of_nat id) text i mem = Some (err, new) /\
    same_outside (Z.to_nat (offset t) + Z.to_nat (subSize t * i)) (Z.to_nat (subSize t)) mem new.
Proof.
  intros Hm Hk Hsm (Ho & Hs & Hn & Hin) Hi.
  destruct (small_set e t (set_fuel text) Hsm) as [A _].
  destruct (A text (nat_offset t + Z.to_nat (subSize t * i))%nat mem) as (err & new & E & S).
  { apply (inside_element _ _ (numItems t)); assumption. }
  exists err, new. split; [|exact S]. unfold SetReflectedSub. rewrite (by_id_ok _ _ _ Hm).
  destruct Hk as [Hk|[Hk|Hk]]; rewrite Hk; exact E.
Qed.
(** It stores the number. *)
Theorem C38_set_element_value e cls id t text v i mem :
  member_of cls id t -> array_kind t -> int_elements t -> holds_array t mem -> 0 <= i < numItems t -> stored_value t text v ->
  exists err new, SetReflectedSub e cls (Z.of_nat id) text i mem = Some (err, new) /\
    replaced mem (Z.to_nat (offset t) + Z.to_nat (subSize t * i)) (le_bytes (Z.to_nat (subSize t)) v) new.
Proof.
  intros Hm Hk Hie (Ho & Hs & Hn & Hin) Hi Hv.
  destruct (set_int_element e t text v (nat_offset t + Z.to_nat (subSize t * i)) mem (set_fuel text) Hie Hv) as (err & new & E & R).
  { apply (inside_element _ _ (numItems t)); assumption. }
  exists err, new. split; [|exact R]. unfold SetReflectedSub. rewrite (by_id_ok _ _ _ Hm).
  destruct Hk as [Hk|[Hk|Hk]]; rewrite Hk; exact E.
Qed.
(** Reading: indices past the end give the empty string, whatever the object. *)
Theorem C38_get_out_of_range e cls id t mem i j :
  member_of cls id t ->
  (array_kind t -> numItems t <= i -> GetReflectedSub e cls (Z.of_nat id) i mem = Some []) /\
  (type t = REnumFlags -> 8 * subSize t <= i -> GetReflectedSub e cls (Z.of_nat id) i mem = Some []) /\
  (is_array t = true -> subType t = RVector -> (numItems t <= i \/ dec_num (typeHash t) <= j) ->
     GetReflectedElement e cls (Z.of_nat id) i j mem = Some []) /\
  (is_array t = true -> subType t = REnumFlags -> (numItems t <= i \/ 8 * subSize t <= j) ->
     GetReflectedElement e cls (Z.of_nat id) i j mem = Some []).
Proof.
  intros Hm. unfold GetReflectedSub, GetReflectedElement. rewrite (by_id_ok _ _ _ Hm). repeat split.
  - intros [Hk|[Hk|Hk]] Hi; rewrite Hk; (destruct (Z.leb_spec (numItems t) i); [reflexivity|lia]).
  - intros Hk Hi. rewrite Hk. destruct (Z.leb_spec (subSize t * 8) i); [reflexivity|lia].
  - intros Ha Hv H. rewrite Ha, Hv. cbn [negb]. replace ((numItems t <=? i) || (dec_num (typeHash t) <=? j)) with true by lia. reflexivity.
  - intros Ha Hv H. rewrite Ha, Hv. cbn [negb]. replace ((subSize t * 8 <=? j) || (numItems t <=? i)) with true by lia. reflexivity.
Qed.
(** Inside the range the element's number is printed, and setting it back changes nothing. *)
Theorem C38_get_element e cls id t mem i :
  member_of cls id t -> array_kind t -> int_elements t -> holds_array t mem -> bytes_ok mem -> 0 <= i < numItems t ->
  exists s, GetReflectedSub e cls (Z.of_nat id) i mem = Some s /\ SetReflectedSub e cls (Z.of_nat id) s i mem = Some (ENone, mem) /\
    exists neg m, literal s neg m /\
      le_bytes (Z.to_nat (subSize t)) (if neg then - m else m) =
      bytes_at (Z.to_nat (offset t) + Z.to_nat (subSize t * i)) (Z.to_nat (subSize t)) mem.
Proof.
  intros Hm Hk [Hst Hw] (Ho & Hs & Hn & Hin) Hb Hi.
  assert (Hne : subType t <> RVector) by (destruct Hst as [-> | ->]; discriminate).
  pose proof (element_type_plain t Hne) as Et.
  assert (Him : int_member (element_type t)) by (rewrite Et; split; assumption).
  assert (Hin' : inside (nat_offset t + Z.to_nat (subSize t * i)) (Z.to_nat (subSize (element_type t))) mem).
  { rewrite Et. cbn [subSize]. apply (inside_element _ _ (numItems t)); assumption. }
  set (s := int_text (element_type t) (nat_offset t + Z.to_nat (subSize t * i)) mem).
  destruct (int_round_trip e (element_type t) _ mem Him Hb Hin' 2 (set_fuel s)) as [G S]. fold s in G, S.
  exists s. unfold GetReflectedSub, SetReflectedSub. rewrite (by_id_ok _ _ _ Hm).
  split; [|split].
  - destruct Hk as [Hk|[Hk|Hk]]; rewrite Hk; (destruct (Z.leb_spec (numItems t) i); [lia|exact G]).
  - destruct Hk as [Hk|[Hk|Hk]]; rewrite Hk; exact S.
  - set (t' := mkRefl (subType t) (subType t) (subSize t) 0 0 (Z.of_nat (nat_offset t + Z.to_nat (subSize t * i))) 0 0).
    assert (Hh : holds t' mem).
    { rewrite Et in Hin'. repeat split; cbn [offset subSize t']; try lia. rewrite Nat2Z.id. exact Hin'. }
    destruct (C35_integers_text e [t'] 0 t' mem eq_refl Hst Hw Hh Hb) as (s' & v & E1 & L & B & _).
    assert (Es : s' = s).
    { unfold GetReflectedValue in E1. change (by_id [t'] (Z.of_nat 0)) with (Some t') in E1. cbv iota in E1.
      rewrite Et in G. assert (Ea : (match type t' with RBitMember => 0%nat | _ => nat_offset t' end) = (nat_offset t + Z.to_nat (subSize t * i))%nat).
      { unfold t'. cbn [type]. destruct Hst as [-> | ->]; unfold nat_offset at 1; cbn [offset]; apply Nat2Z.id. }
      rewrite Ea in E1. unfold t' in E1. cbn [GetReflectedPrimitive type subSize] in E1, G. destruct Hst as [E|E]; rewrite E in E1, G; congruence. }
    subst s'. exists (v <? 0), (Z.abs v). split; [exact L|].
    replace (if v <? 0 then - Z.abs v else Z.abs v) with v by (destruct (Z.ltb_spec v 0); lia).
    change (offset t') with (Z.of_nat (nat_offset t + Z.to_nat (subSize t * i))) in B. rewrite Nat2Z.id in B. exact B.
Qed.

(** ** Where element access is not as a user would expect *)
Definition ex_array := mkRefl RArray RUnsigned 1 0 2 1 0 0.
(** a write outside: element 5 of a two-element array *)
Theorem C38_set_no_bound_refuted :
  SetReflectedSub no_env [ex_array] 0 [57] 5 [0; 0; 0; 0; 0; 0; 0; 0] = Some (ENone, [0; 0; 0; 0; 0; 0; 9; 0]).
Proof. reflexivity. Qed.
(** an array of two 4-byte vectors of 2 shorts: the element index is compared with the element
    size in bytes, so component 1 is fine, component 2 (outside) is refused by luck, and with
    three components of one byte component 1 is refused *)
Definition ex_vectors2 := mkRefl RArray RVector 4 0 2 0 0 (CompileVectorHash RUnsigned 2 2).
Definition ex_vectors1 := mkRefl RArray RVector 3 0 2 0 0 (CompileVectorHash RUnsigned 1 3).
Definition ex_vectors4 := mkRefl RArray RVector 8 0 2 0 0 (CompileVectorHash RUnsigned 4 2).
Theorem C38_element_bound_refuted :
  SetReflectedElement no_env [ex_vectors1] 0 [57] 0 1 (repeat 0 6) = Some (EOutOfRange, repeat 0 6) /\
  SetReflectedElement no_env [ex_vectors4] 0 [57] 0 2 (repeat 0 16) = Some (ENone, repeat 0 8 ++ [9] ++ repeat 0 7).
Proof. split; reflexivity. Qed.
(** the number setters refuse element 0 of an array *)
Theorem C38_number_element_zero_refuted :
  SetReflectedValueUInt [ex_array] 0 9 0 [0; 0; 0; 0] = Some (EInvalidDestination, [0; 0; 0; 0]) /\
  SetReflectedValueUInt [ex_array] 0 9 1 [0; 0; 0; 0] = Some (ENone, [0; 0; 9; 0]).
Proof. split; reflexivity. Qed.
(** a trailing comma and blank writes one boolean past the array *)
Definition ex_bools := mkRefl RArray RBool 1 0 2 0 0 0.
Theorem C38_bool_overrun_refuted :
  SetReflectedValue no_env [ex_bools] 0 ([123] ++ s_true ++ [44] ++ s_false ++ [44; 32; 125]) [9; 9; 9; 9] = Some (ENone, [1; 0; 0; 9]).
Proof. reflexivity. Qed.
(** errors of elements and missing elements go unnoticed *)
Theorem C38_silent_refuted :
  SetReflectedValue no_env [ex_array] 0 [123; 120; 44; 55; 125] [1; 2; 3; 4] = Some (ENone, [1; 2; 7; 4]) /\
  SetReflectedValue no_env [ex_array] 0 [123; 55; 125] [1; 2; 3; 4] = Some (ENone, [1; 7; 3; 4]).
Proof. split; reflexivity. Qed.
(** setting one flag by index does nothing *)
Theorem C38_flag_set_refuted : SetReflectedSub no_env [ex_flags] 0 s_true 0 [0; 0] = Some (ENone, [0; 0]).
Proof. reflexivity. Qed.
(** reading flag 32 of a 64-bit flag member is undefined *)
Theorem C38_flag_get_refuted : GetReflectedSub no_env [mkRefl REnumFlags RNone 8 0 0 0 0 0] 0 32 (repeat 255 8) = None.
Proof. reflexivity. Qed.

Example C38_example : array_kind ex_array /\ int_elements ex_array /\ holds_array ex_array [1; 2; 3; 4] /\
  GetReflectedValue no_env [ex_array] 0 [1; 2; 3; 4] = Some [123; 50; 44; 32; 51; 125] /\
  SetReflectedValue no_env [ex_array] 0 [123; 55; 44; 32; 45; 49; 125] [1; 2; 3; 4] = Some (ENone, [1; 7; 255; 4]) /\
  GetReflectedValue no_env [ex_vectors2] 0 [1; 0; 2; 0; 3; 0; 0; 1] =
    Some [123; 91; 49; 44; 32; 50; 93; 44; 32; 91; 51; 44; 32; 50; 53; 54; 93; 125].
Proof.
  split; [left; reflexivity|]. split; [split; [right; reflexivity|left; reflexivity]|].
  split; [unfold holds_array, inside; cbn; lia|]. repeat split; vm_compute; reflexivity.
Qed.

Print Assumptions C35_int_arrays.
Print Assumptions C35_vector_arrays.
Print Assumptions C38_set_array.
Print Assumptions C38_array_any_text.
Print Assumptions C38_set_element.
Print Assumptions C38_set_element_value.
Print Assumptions C38_get_out_of_range.
Print Assumptions C38_get_element.
Print Assumptions C38_set_no_bound_refuted.
Print Assumptions C38_element_bound_refuted.
Print Assumptions C38_number_element_zero_refuted.
Print Assumptions C38_bool_overrun_refuted.
Print Assumptions C38_silent_refuted.
Print Assumptions C38_flag_set_refuted.
Print Assumptions C38_flag_get_refuted.
