(** C67: an object written to XML and read back. *)
From Verif Require Import Base Jenkins_Model FileInfo_Model StringView_Model Reflector_Model Reflector_Spec
  Reflector_Proof Reflector_Props RefAccess_Model XmlRefl_Model XmlRefl_Spec XmlRefl_Leaf_Proof XmlRefl_Bits_Proof XmlRefl_Names_Proof XmlRefl_Proof.

(** Everything the object holds, nested objects and arrays included, arrives in any other object
    of the class; nothing else changes there. *)
Theorem C67_round_trip : forall n e reg own a name attrs fs fl,
  writable n e reg own a -> bytes_ok a -> (n <= fs)%nat -> (n <= fl)%nat ->
  exists doc, Save fs e reg own a (Elem name attrs []) false = Some doc /\
    forall b, length b = length a -> bytes_ok b ->
      exists b', Load fl e reg own doc false b = Some b' /\ copied (Bits reg own) a b b'.
Proof.
  intros n e reg own a name attrs fs fl W Ha Hs Hl. destruct (xml_round_trip n e reg own a W Ha) as (kids & E & P & _).
  unfold Save. rewrite (E fs Hs). eexists. split; [reflexivity|]. intros b L B. cbn [xkids app Load].
  destruct (P fl Hl b L B) as (b' & F & _ & C). exists b'. auto.
Qed.
Print Assumptions C67_round_trip.

(** When members leave no gaps the bytes are the same. *)
Theorem C67_bytes : forall (R : nat -> Prop) a b b' base size,
  bytes_ok a -> bytes_ok b' -> length b = length a -> copied R a b b' ->
  (forall k, (8 * base <= k < 8 * (base + size))%nat -> R k) ->
  forall i, (base <= i < base + size)%nat -> nth i b' 0 = nth i a 0.
Proof.
  intros R a b b' base size Ha Hb L [_ C] H i Hi. apply Z.bits_inj'. intros j Hj.
  assert (Hbyte : forall m, bytes_ok m -> 0 <= nth i m 0 < 2 ^ 8).
  { intros m Hm. destruct (Nat.lt_ge_cases i (length m)); [|rewrite nth_overflow by lia; lia].
    unfold bytes_ok in Hm. rewrite Forall_forall in Hm. apply (Hm (nth i m 0)). apply nth_In. assumption. }
  destruct (Z.lt_ge_cases j 8) as [J|J].
  - specialize (C (8 * i + Z.to_nat j)%nat). unfold bit in C.
    assert (E1 : ((8 * i + Z.to_nat j) / 8 = i)%nat) by (symmetry; apply Nat.div_unique with (r := Z.to_nat j); lia).
    assert (E2 : ((8 * i + Z.to_nat j) mod 8 = Z.to_nat j)%nat) by (symmetry; apply Nat.mod_unique with (q := i); lia).
    rewrite E1, E2, Z2Nat.id in C by lia. destruct C as [[_ C]|[C _]]; [exact C|]. exfalso. apply C, H. lia.
  - pose proof (Hbyte a Ha) as X. pose proof (Hbyte b' Hb) as Y.
    assert (S : forall x, 0 <= x < 2 ^ 8 -> Z.testbit x j = false).
    { intros x Hx. rewrite <- (Z.mod_small x (2 ^ 8)) by exact Hx. apply Z.mod_pow2_bits_high. lia. }
    rewrite !S by assumption. reflexivity.
Qed.
Print Assumptions C67_bytes.

(** The class has a name of its own that hashes to the class's hash, or hashes are used. *)
Definition class_named (c : xcls) : Prop :=
  match xNames c with
  | Some _ => word (xClassName c) /\ jenkins 64 (xClassName c) = xClassHash c
  | None => 0 <= xClassHash c < 2 ^ 32
  end.
(** With a node of its own the object is found among others, of other classes. *)
Theorem C67_class_node : forall n e reg own a name attrs kids fs fl,
  writable n e reg own a -> bytes_ok a -> class_named (fst own) -> (n <= fs)%nat -> (n <= fl)%nat ->
  Forall (fun x => MakeHash (xname x) <> xClassHash (fst own)) kids ->
  exists doc, Save fs e reg own a (Elem name attrs kids) true = Some doc /\
    forall more b, length b = length a -> bytes_ok b ->
      exists b', Load fl e reg own (Elem (xname doc) (xattrs doc) (xkids doc ++ more)) true b = Some b' /\ copied (Bits reg own) a b b'.
Proof.
  intros n e reg own a name attrs kids fs fl W Ha Hc Hs Hl Hn. destruct (xml_round_trip n e reg own a W Ha) as (l & E & P & _).
  unfold Save. rewrite (E fs Hs). eexists. split; [reflexivity|]. intros more b L B. cbn [xkids xname xattrs Load].
  assert (Eh : MakeHash (NodeName (fst own)) = xClassHash (fst own)).
  { unfold class_named in Hc. unfold NodeName. destruct (xNames (fst own)); [|apply hash_name_read; exact Hc].
    destruct Hc as [Hw Hj]. destruct (word_read _ Hw) as [_ ->]. exact Hj. }
  assert (F : find (fun x => MakeHash (xname x) =? xClassHash (fst own)) ((kids ++ [Elem (NodeName (fst own)) [] l]) ++ more) = Some (Elem (NodeName (fst own)) [] l)).
  { induction Hn as [|x kids Hx Hn IHn]; cbn [app find].
    - cbn [xname]. rewrite Eh, Z.eqb_refl. reflexivity.
    - destruct (Z.eqb_spec (MakeHash (xname x)) (xClassHash (fst own))); [contradiction|]. apply IHn. }
  rewrite F. cbn [xkids]. destruct (P fl Hl b L B) as (b' & G & _ & C). exists b'. auto.
Qed.
Print Assumptions C67_class_node.
(** Of two objects of one class in the same node only the first is ever read. *)
Theorem C67_second_refuted : forall fuel e reg own name attrs kids x more b,
  Forall (fun y => MakeHash (xname y) <> xClassHash (fst own)) kids -> MakeHash (xname x) = xClassHash (fst own) ->
  Load fuel e reg own (Elem name attrs (kids ++ x :: more)) true b = LoadKids fuel e reg own (xkids x) b.
Proof.
  intros fuel e reg own name attrs kids x more b Hn Hx. cbn [Load xkids].
  assert (F : find (fun y => MakeHash (xname y) =? xClassHash (fst own)) (kids ++ x :: more) = Some x).
  { induction Hn as [|y kids Hy Hn IHn]; cbn [app find]; [rewrite Hx, Z.eqb_refl; reflexivity|].
    destruct (Z.eqb_spec (MakeHash (xname y)) (xClassHash (fst own))); [contradiction|]. exact IHn. }
  rewrite F. reflexivity.
Qed.
Print Assumptions C67_second_refuted.
(** Without a node of the class nothing changes. *)
Theorem C67_no_class_node : forall fuel e reg own node b,
  Forall (fun x => MakeHash (xname x) <> xClassHash (fst own)) (xkids node) -> Load fuel e reg own node true b = Some b.
Proof.
  intros fuel e reg own node b F. unfold Load. destruct (find _ _) as [x|] eqn:E; [|reflexivity].
  apply find_some in E. destruct E as [Hi Hx]. rewrite Forall_forall in F. specialize (F x Hi). cbn beta in F. lia.
Qed.
Print Assumptions C67_no_class_node.

(** Elements may come in any order, repeated or not at all: exactly the members present are copied. *)
Theorem C67_any_elements : forall n e reg own a fs fl,
  writable n e reg own a -> bytes_ok a -> (n <= fs)%nat -> (n <= fl)%nat ->
  exists kids, SaveKids fs e reg own a = Some kids /\ length kids = length (xTypes (fst own)) /\
    forall js b, Forall (fun j => (j < length kids)%nat) js -> length b = length a -> bytes_ok b ->
      exists b', LoadKids fl e reg own (map (fun j => nth j kids (Txt [])) js) b = Some b' /\
        copied (fun k => exists j t, In j js /\ nth_error (xTypes (fst own)) j = Some t /\ part_bits reg own t k) a b b'.
Proof.
  intros n e reg own a fs fl W Ha Hs Hl. destruct (xml_round_trip n e reg own a W Ha) as (kids & E & _ & Lk & P).
  exists kids. split; [apply E; exact Hs|]. split; [exact Lk|]. intros js. destruct fl as [|fl]; [destruct n; [destruct W|lia]|].
  induction js as [|j js IH]; intros b Hj L B.
  - exists b. split; [reflexivity|]. apply copied_none. intros k (j & t & [] & _).
  - inversion Hj as [|? ? Hj1 Hj2]; subst.
    assert (Ej : nth_error kids j = Some (nth j kids (Txt []))) by (apply nth_error_nth'; exact Hj1).
    destruct (nth_error (xTypes (fst own)) j) as [t|] eqn:Et; [|apply nth_error_None in Et; lia].
    destruct (P j t _ Et Ej (S fl) Hl b L B) as (b1 & E1 & B1 & C1).
    destruct (IH b1 Hj2 ltac:(destruct C1; congruence) B1) as (b2 & E2 & C2). exists b2. split.
    + cbn [map LoadKids fold_mem] in *. cbv zeta in *.
      match goal with |- match ?z with _ => _ end = _ => destruct z as [m|]; [|discriminate E1] end. injection E1 as ->. exact E2.
    + eapply copied_ext; [|apply (copied_seq _ _ _ _ _ _ C1 C2)]. intros k. cbn [In]. split.
      * intros [Hk|(i & u & Hi & Eu & Hk)]; [exists j, t; auto|exists i, u; auto].
      * intros (i & u & [<-|Hi] & Eu & Hk); [left; congruence|right; exists i, u; auto].
Qed.
Print Assumptions C67_any_elements.

(** Children that name no member are skipped. *)
Theorem C67_unknown : forall f e reg own before x after b,
  GetReflectedType (xinfo (fst own)) (MakeHash (xname x)) = None ->
  LoadKids (S f) e reg own (before ++ x :: after) b = LoadKids (S f) e reg own (before ++ after) b.
Proof.
  intros f e reg own before x after. induction before as [|y l IH]; intros b Hx.
  - cbn [app LoadKids fold_mem]. cbv zeta. unfold via_hash at 1, SetAt, SetByHash. rewrite Hx. cbn [put_back]. rewrite firstn_skipn. reflexivity.
  - specialize (IH) . cbn [app LoadKids fold_mem] in *. cbv zeta in *.
    match goal with |- match ?z with _ => _ end = _ => destruct z as [m|]; [|reflexivity] end. apply IH. exact Hx.
Qed.
Print Assumptions C67_unknown.

(** A class with a bit field, an enum, flags, arrays and an array of objects, and one without names. *)
Definition nm (s : list Z) : Z := jenkins 64 s.
Definition x_env : env := mkEnv (fun h => if h =? 5 then Some [([79; 110; 101], 1); ([84; 119; 111], 2)]            (* One Two *)
                                          else if h =? 6 then Some [([65], 0); ([66], 1); ([67], 7)] else None)
                                (fun _ _ old => (EInvalidFormat, old)) (fun _ _ => []).
(* Inner: u (16 bits), set (flags) *)
Definition x_inner : xcls := Eval vm_compute in mkX [73] (nm [73])
  [mkRefl RUnsigned RNone 2 0 0 0 (nm [117]) 0; mkRefl REnumFlags RNone 1 1 0 2 (nm [115; 101; 116]) 6]
  (Some [[117]; [115; 101; 116]]) None.
(* bits, without names *)
Definition x_bits : xcls := Eval vm_compute in mkX [66] (nm [66])
  [mkRefl RBitMember RUnsigned 3 0 0 0 17 0; mkRefl RBitMember RUnsigned 10 1 0 3 4294967295 0] None None.
Definition x_outer : xcls := Eval vm_compute in mkX [79] (nm [79])
  [mkRefl RInteger RNone 4 0 0 0 (nm [97]) 0; mkRefl RArrayClass RClass 3 1 2 4 (nm [105; 116]) 77;
   mkRefl REnum RNone 1 2 0 10 (nm [101]) 5; mkRefl RArray RInteger 1 3 2 11 (nm [118]) 0; mkRefl RBitClass RNone 2 4 0 13 (nm [98]) 78]
  (Some [[97]; [105; 116]; [101]; [118]; [98]]) None.
Definition x_reg : registry := fun h => if h =? 77 then Some x_inner else if h =? 78 then Some x_bits else None.
Definition x_mem : list Z := [254; 255; 255; 255; 7; 0; 129; 255; 255; 2; 2; 250; 5; 165; 255; 0; 9; 8; 7; 6; 5; 4].

Definition word_b (n : list Z) : bool :=
  negb (length n =? 0)%nat && forallb (fun c => ((48 <=? c) && (c <=? 57)) || ((65 <=? c) && (c <=? 90)) || (c =? 95) || ((97 <=? c) && (c <=? 122))) n.
Lemma word_b_ok n : word_b n = true -> word n.
Proof.
  unfold word_b. intros H. apply andb_true_iff in H. destruct H as [H1 H2]. split; [destruct n; [discriminate|discriminate]|].
  apply Forall_forall. intros c Hc. rewrite forallb_forall in H2. specialize (H2 c Hc). cbn beta in H2. lia.
Qed.
Ltac x_described := split; [|split; [|split; [|]]]; [cbn [map nameHash xTypes x_outer x_inner x_bits]; repeat (apply NoDup_cons; [cbn [In]; lia|]); apply NoDup_nil
  | intros i t H; repeat (destruct i as [|i]; [injection H as <-; split; [reflexivity|vm_compute; split; congruence]|]); destruct i; discriminate
  | reflexivity | first [exact I | split; [reflexivity|split; [repeat (constructor; [apply word_b_ok; reflexivity|]); constructor|vm_compute; reflexivity]]]].
Example x_described_outer : described x_outer. Proof. x_described. Qed.
Example x_described_inner : described x_inner. Proof. x_described. Qed.
Example x_described_bits : described x_bits. Proof. x_described. Qed.
Example x_writable : writable 2 x_env x_reg (x_outer, 0%nat) x_mem.
Proof.
  assert (NX : forall t, In t (xTypes x_inner) \/ In t (xTypes x_bits) -> ~ is_object t /\ ~ is_object_array t).
  { unfold is_object, is_object_array, object_kind. cbn [xTypes x_inner x_bits In]. intros t H.
    destruct H as [[<-|[<-|[]]]|[<-|[<-|[]]]]; cbn [type subType]; split; intros K; repeat destruct K as [K|K]; try discriminate K; destruct K as [[K|K] _]; discriminate K. }
  assert (WI : forall base, base = 4%nat \/ base = 7%nat -> writable 1 x_env x_reg (x_inner, base) x_mem).
  { intros base Hb. cbn [writable]. split; [apply x_described_inner|]. split; [destruct Hb as [-> | ->]; cbn; lia|].
    intros t Ht. destruct (NX t (or_introl Ht)) as [N1 N2]. split; [intros [H|H]; contradiction|]. intros _ _.
    cbn [fst snd xTypes x_inner In] in *. split.
    - unfold textual. destruct Ht as [<-|[<-|[]]]; (split; [cbn; lia|]); left; (split; [unfold inside; destruct Hb as [-> | ->]; cbn; lia|]); cbn [type subSize].
      + tauto.
      + split; [lia|]. eexists. split; [reflexivity|]. split; [repeat (apply NoDup_cons; [cbn [In map fst]; intuition congruence|]); apply NoDup_nil|].
        split; [repeat (constructor; [apply word_b_ok; reflexivity|]); constructor|]. split; [cbn; intuition congruence|].
        intros i Hi. change (8 * 1) with 8 in Hi.
        assert (Hc : i = 0 \/ i = 1 \/ i = 2 \/ i = 3 \/ i = 4 \/ i = 5 \/ i = 6 \/ i = 7) by lia.
        destruct Hb as [-> | ->]; repeat (destruct Hc as [-> | Hc]; [vm_compute; intros; (discriminate || tauto)|]); subst i; vm_compute; intros; (discriminate || tauto).
    - intros s Hs. destruct Hb as [-> | ->]; destruct Ht as [<-|[<-|[]]]; vm_compute in Hs; injection Hs as <-; reflexivity. }
  assert (WB : writable 1 x_env x_reg (x_bits, 13%nat) x_mem).
  { cbn [writable]. split; [apply x_described_bits|]. split; [cbn; lia|].
    intros t Ht. destruct (NX t (or_intror Ht)) as [N1 N2]. split; [intros [H|H]; contradiction|]. intros _ _.
    cbn [fst snd xTypes x_bits In] in *. split.
    - unfold textual. destruct Ht as [<-|[<-|[]]]; (split; [cbn; lia|]); right; right; cbn [type subType subSize offset];
        (split; [reflexivity|]); (split; [reflexivity|]); (split; [lia|]); (split; [lia|]); unfold inside; cbn; lia.
    - intros s Hs. destruct Ht as [<-|[<-|[]]]; vm_compute in Hs; injection Hs as <-; reflexivity. }
  change (writable 2 x_env x_reg (x_outer, 0%nat) x_mem) with
    (described x_outer /\ (0 <= length x_mem)%nat /\ forall t, In t (xTypes x_outer) ->
      (is_object t \/ is_object_array t -> 0 <= offset t /\ 0 <= subSize t /\ 0 <= numItems t < 2 ^ 63 /\ x_reg (typeHash t) <> None /\
         forall o, child x_reg (x_outer, 0%nat) t o -> writable 1 x_env x_reg o x_mem) /\
      (~ is_object t -> ~ is_object_array t -> textual x_env t x_mem /\
         forall s, GetReflectedValue x_env [t] 0 x_mem = Some s -> Z.of_nat (length s) < 2 ^ 64)).
  split; [apply x_described_outer|]. split; [lia|]. intros t Ht. cbn [xTypes x_outer In] in Ht.
  assert (HO : forall o, child x_reg (x_outer, 0%nat) t o -> writable 1 x_env x_reg o x_mem).
  { intros [c base] [Hr Hc]. cbn [fst snd] in *. unfold is_object, is_object_array, object_kind in Hc.
    destruct Ht as [<-|[<-|[<-|[<-|[<-|[]]]]]]; cbn [type subType typeHash offset subSize numItems] in *;
      [exfalso| |exfalso|exfalso|].
    1,3,4: destruct Hc as [[[K|K] _]|[[[K|K] [K2|K2]] _]]; congruence.
    - injection Hr as <-. destruct Hc as [[[K|K] _]|[_ (s & Hs & E)]]; [discriminate K|discriminate K|]. apply WI. lia.
    - injection Hr as <-. destruct Hc as [[_ E]|[[[K|K] _] _]]; [|discriminate K|discriminate K].
      replace base with 13%nat by lia. exact WB. }
  split; [|].
  - intros H. split; [|split; [|split; [|split; [|exact HO]]]]; try (destruct Ht as [<-|[<-|[<-|[<-|[<-|[]]]]]]; cbn; lia).
    unfold is_object, is_object_array, object_kind in H.
    destruct Ht as [<-|[<-|[<-|[<-|[<-|[]]]]]]; cbn [type subType typeHash] in *; try (vm_compute; discriminate);
      exfalso; destruct H as [[K|K]|[[K|K] [K2|K2]]]; congruence.
  - intros N1 N2. unfold is_object, is_object_array, object_kind in N1, N2.
    assert (L : forall s, GetReflectedValue x_env [t] 0 x_mem = Some s -> Z.of_nat (length s) < 2 ^ 64).
    { destruct Ht as [<-|[<-|[<-|[<-|[<-|[]]]]]]; intros s Hs; vm_compute in Hs; try discriminate Hs; injection Hs as <-; reflexivity. }
    split; [|exact L]. destruct Ht as [<-|[<-|[<-|[<-|[<-|[]]]]]]; cbn [type subType] in *.
    + split; [cbn; lia|]. left. split; [unfold inside; cbn; lia|]. cbn. tauto.
    + exfalso. apply N2. tauto.
    + split; [cbn; lia|]. left. split; [unfold inside; cbn; lia|]. cbn [type subSize]. split; [lia|]. eexists. split; [reflexivity|].
      split; [repeat (apply NoDup_cons; [cbn [In map fst]; intuition congruence|]); apply NoDup_nil|].
      split; [repeat (constructor; [apply word_b_ok; reflexivity|]); constructor|]. vm_compute. tauto.
    + split; [cbn; lia|]. right. left. split; [left; reflexivity|]. split; [cbn; lia|]. split; [cbn; lia|]. split; [unfold inside; cbn; lia|].
      left. split; [discriminate|]. intros i Hi. cbn [numItems] in Hi. change (Z.to_nat 2) with 2%nat in Hi. split.
      * unfold inside. destruct i as [|[|i]]; [cbn; lia|cbn; lia|lia].
      * cbn. tauto.
    + exfalso. apply N1. tauto.
Qed.
(** what is written, and that reading it makes a zeroed object the same up to padding *)
Example x_case : exists doc, Save 2 x_env x_reg (x_outer, 0%nat) x_mem (Elem [114] [] []) true = Some doc /\
  Load 2 x_env x_reg (x_outer, 0%nat) doc true (repeat 0 22) = Some (firstn 14 x_mem ++ [31; 0; 0; 0; 0; 0; 0; 0]) /\
  match xkids doc with
  | [Elem n [] [Elem _ [] [Txt s]; Elem _ [] [Elem i0 [] _; Elem i1 [] [_; Elem _ [] [Txt fl]]]; Elem _ [] [Txt en]; Elem _ [] [Txt v];
                Elem _ [] [Elem h0 [] [Txt b0]; Elem h1 [] [Txt b1]]]] =>
    n = [79] /\ s = [45; 50] /\ i1 = [105; 58; 49] /\ en = [84; 119; 111] /\ v = [123; 45; 54; 44; 32; 53; 125] /\
    h1 = [104; 58; 70; 70; 70; 70; 70; 70; 70; 70] /\ b0 = [53]
  | _ => False
  end.
Proof. eexists. split; [vm_compute; reflexivity|]. split; [vm_compute; reflexivity|]. vm_compute. repeat split. Qed.

(** What the text does not carry: a signed bit field, a value without an enumerator and a boolean
    that is neither 0 nor 1 come back different (the second not at all). *)
Theorem C67_signed_bits_refuted :
  let c := mkX [83] 1 [mkRefl RBitMember RInteger 3 0 0 0 17 0] None None in
  exists doc, Save 1 x_env x_reg (c, 0%nat) [6; 0; 0; 0; 0; 0; 0; 0] (Elem [] [] []) false = Some doc /\
    Load 1 x_env x_reg (c, 0%nat) doc false (repeat 0 8) = Some [7; 0; 0; 0; 0; 0; 0; 0].
Proof. eexists. split; [vm_compute; reflexivity|]. vm_compute. reflexivity. Qed.
Theorem C67_unnamed_refuted :
  let c := mkX [83] 1 [mkRefl REnum RNone 1 0 0 0 17 5; mkRefl RBool RNone 1 1 0 1 18 0] None None in
  exists doc, Save 1 x_env x_reg (c, 0%nat) [3; 2] (Elem [] [] []) false = Some doc /\
    Load 1 x_env x_reg (c, 0%nat) doc false [9; 9] = Some [9; 1].
Proof. eexists. split; [vm_compute; reflexivity|]. vm_compute. reflexivity. Qed.
Print Assumptions C67_signed_bits_refuted.
Print Assumptions C67_unnamed_refuted.
