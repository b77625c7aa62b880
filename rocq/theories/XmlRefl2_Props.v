(** C68: an object written to XML as attributes and elements, and read back. *)
From Coq Require Import Permutation.
From Verif Require Import Base Jenkins_Model FileInfo_Model StringView_Model Reflector_Model Reflector_Spec
  Reflector_Proof Reflector_Props RefAccess_Model XmlRefl_Model XmlRefl_Spec XmlRefl_Leaf_Proof XmlRefl_Bits_Proof XmlRefl_Names_Proof XmlRefl_Proof
  XmlRefl_Props XmlRefl2_Model XmlRefl2_Spec XmlRefl2_Leaf_Proof XmlRefl2_Cover_Proof XmlRefl2_Proof.

(** Everything the object holds, nested objects and arrays included, arrives in any other object
    of the class; nothing else changes there. *)
Theorem C68_round_trip : forall n e reg own a name fs fl,
  writable2 n e reg own a -> bytes_ok a -> (n <= fs)%nat -> (n <= fl)%nat ->
  exists doc, SaveV2 fs e reg own a (Elem name [] []) false = Some doc /\
    forall b, length b = length a -> bytes_ok b ->
      exists b', LoadV2 fl e reg own doc false b = Some b' /\ copied (Bits reg own) a b b'.
Proof.
  intros n e reg own a name fs fl W Ha Hs Hl. destruct (xml2_round_trip n e reg own a W Ha) as (x & E & P).
  unfold SaveV2. rewrite (E fs Hs). eexists. split; [reflexivity|]. intros b L B. cbn [xkids xattrs app LoadV2].
  destruct n as [|n]; [destruct W|]. destruct (covers2_load _ _ _ _ _ _ _ P fl Hl b L B) as (b' & F & _ & C). exists b'. auto.
Qed.
Print Assumptions C68_round_trip.

(** With a node of its own the object is found among others, of other classes. *)
Theorem C68_class_node : forall n e reg own a name attrs kids fs fl,
  writable2 n e reg own a -> bytes_ok a -> class_named (fst own) -> (n <= fs)%nat -> (n <= fl)%nat ->
  Forall (fun x => MakeHash (xname x) <> xClassHash (fst own)) kids ->
  exists doc, SaveV2 fs e reg own a (Elem name attrs kids) true = Some doc /\
    forall more b, length b = length a -> bytes_ok b ->
      exists b', LoadV2 fl e reg own (Elem (xname doc) (xattrs doc) (xkids doc ++ more)) true b = Some b' /\ copied (Bits reg own) a b b'.
Proof.
  intros n e reg own a name attrs kids fs fl W Ha Hc Hs Hl Hn. destruct (xml2_round_trip n e reg own a W Ha) as (x & E & P).
  unfold SaveV2. rewrite (E fs Hs). eexists. split; [reflexivity|]. intros more b L B. cbn [xkids xname xattrs LoadV2].
  assert (Eh : MakeHash (NodeName (fst own)) = xClassHash (fst own)).
  { unfold class_named in Hc. unfold NodeName. destruct (xNames (fst own)); [|apply hash_name_read; exact Hc].
    destruct Hc as [Hw Hj]. destruct (word_read _ Hw) as [_ ->]. exact Hj. }
  set (nd := Elem (NodeName (fst own)) (fst x) (snd x)).
  assert (F : find (fun x => MakeHash (xname x) =? xClassHash (fst own)) ((kids ++ [nd]) ++ more) = Some nd).
  { induction Hn as [|y kids Hy Hn IHn]; cbn [app find].
    - unfold nd at 1. cbn [xname]. rewrite Eh, Z.eqb_refl. reflexivity.
    - destruct (Z.eqb_spec (MakeHash (xname y)) (xClassHash (fst own))); [contradiction|]. apply IHn. }
  rewrite F. unfold nd. cbn [xkids xattrs].
  destruct n as [|n]; [destruct W|]. destruct (covers2_load _ _ _ _ _ _ _ P fl Hl b L B) as (b' & G & _ & C). exists b'. auto.
Qed.
Print Assumptions C68_class_node.
(** Without a node of the class nothing changes. *)
Theorem C68_no_class_node : forall fuel e reg own node b,
  Forall (fun x => MakeHash (xname x) <> xClassHash (fst own)) (xkids node) -> LoadV2 fuel e reg own node true b = Some b.
Proof.
  intros fuel e reg own node b F. unfold LoadV2. destruct (find _ _) as [x|] eqn:E; [|reflexivity].
  apply find_some in E. destruct E as [Hi Hx]. rewrite Forall_forall in F. specialize (F x Hi). cbn beta in F. lia.
Qed.
Print Assumptions C68_no_class_node.

(** The attributes and the elements may come in any order. *)
Lemma covers_perm {A} a f (l m : list A) P : covers a f l P -> Permutation l m -> covers a f m P.
Proof.
  intros (it & <- & F & H) Hp. apply Permutation_sym in Hp.
  destruct (Permutation_map_inv _ _ Hp) as (it' & -> & Hp'). exists it'. split; [reflexivity|]. split.
  - apply Permutation_sym in Hp'. eapply Permutation_Forall; [apply Permutation_sym; exact Hp'|exact F].
  - intros k. rewrite H. split; intros (p & Hi & Hk); exists p; (split; [|exact Hk]).
    + eapply Permutation_in; [exact Hp'|exact Hi].
    + eapply Permutation_in; [apply Permutation_sym; exact Hp'|exact Hi].
Qed.
Theorem C68_any_order : forall n e reg own a fs fl,
  writable2 n e reg own a -> bytes_ok a -> (n <= fs)%nat -> (n <= fl)%nat ->
  exists x, SaveV2 fs e reg own a (Elem [] [] []) false = Some x /\
    forall name attrs kids b, Permutation (xattrs x) attrs -> Permutation (xkids x) kids -> length b = length a -> bytes_ok b ->
      exists b', LoadV2 fl e reg own (Elem name attrs kids) false b = Some b' /\ copied (Bits reg own) a b b'.
Proof.
  intros n e reg own a fs fl W Ha Hs Hl. destruct (xml2_round_trip n e reg own a W Ha) as (x & E & PA & PK & H1 & H2 & H).
  unfold SaveV2. rewrite (E fs Hs). eexists. split; [reflexivity|]. cbn [xkids xattrs app LoadV2]. intros _ attrs kids b X Y L B.
  destruct n as [|n]; [destruct W|].
  assert (C : covers2 a (LoadAttr e own) n (fun d => LoadKid2 (Load2Content d e reg) e reg own) (attrs, kids) (Bits reg own)).
  { exists PA, PK. split; [apply (covers_perm _ _ _ _ _ H1 X)|]. split; [|exact H]. intros d Hd. apply (covers_perm _ _ _ _ _ (H2 d Hd) Y). }
  destruct (covers2_load _ _ _ _ _ _ _ C fl Hl b L B) as (b' & G & _ & C'). exists b'. auto.
Qed.
Print Assumptions C68_any_order.
(** Any of them may be missing or repeated: what is copied is a part of the object and comes from it. *)
Theorem C68_any_part : forall n e reg own a fs fl,
  writable2 n e reg own a -> bytes_ok a -> (n <= fs)%nat -> (n <= fl)%nat ->
  exists x, SaveV2 fs e reg own a (Elem [] [] []) false = Some x /\
    forall name attrs kids, incl attrs (xattrs x) -> incl kids (xkids x) ->
      exists R : nat -> Prop, (forall k, R k -> Bits reg own k) /\
        forall b, length b = length a -> bytes_ok b ->
          exists b', LoadV2 fl e reg own (Elem name attrs kids) false b = Some b' /\ copied R a b b'.
Proof.
  intros n e reg own a fs fl W Ha Hs Hl. destruct (xml2_round_trip n e reg own a W Ha) as (x & E & PA & PK & H1 & H2 & H).
  unfold SaveV2. rewrite (E fs Hs). eexists. split; [reflexivity|]. cbn [xkids xattrs app LoadV2]. intros _ attrs kids X Y.
  destruct n as [|n]; [destruct W|]. cbn [pred] in *. destruct fl as [|fl]; [lia|]. cbn [Load2Content].
  destruct (covers_sub _ _ _ attrs _ H1 X) as (RA & HA & CA).
  destruct (covers_sub _ _ _ kids _ (H2 fl ltac:(lia)) Y) as (RK & HK & CK).
  exists (fun k => RA k \/ RK k). split; [intros k [Hk|Hk]; apply H; auto|].
  intros b L B. destruct (moves_then _ _ _ _ _ (covers_moves _ _ _ _ CA) (covers_moves _ _ _ _ CK) b L B) as (b' & G & _ & C). exists b'. auto.
Qed.
Print Assumptions C68_any_part.

(** Attributes, and elements without attributes, that name no member are skipped. *)
Lemma fold_mem_app {A} (f : A -> list Z -> option (list Z)) l m b :
  fold_mem f (l ++ m) b = match fold_mem f l b with None => None | Some b' => fold_mem f m b' end.
Proof. revert b. induction l as [|x l IH]; intros b; [reflexivity|]. cbn [app fold_mem]. destruct (f x b); [apply IH|reflexivity]. Qed.
Lemma fold_mem_skip {A} (f : A -> list Z -> option (list Z)) l x m b : (forall b, f x b = Some b) ->
  fold_mem f (l ++ x :: m) b = fold_mem f (l ++ m) b.
Proof. intros H. rewrite !fold_mem_app. cbn [fold_mem]. destruct (fold_mem f l b); [rewrite H|]; reflexivity. Qed.
Theorem C68_unknown_attribute : forall f e reg own before x after kids b h i,
  read_name (fst x) = Some (h, i) -> GetReflectedType (xinfo (fst own)) h = None ->
  Load2Content (S f) e reg own (before ++ x :: after) kids b = Load2Content (S f) e reg own (before ++ after) kids b.
Proof.
  intros f e reg own before x after kids b h i Hn Hx. cbn [Load2Content]. rewrite fold_mem_skip; [reflexivity|].
  intros m. unfold LoadAttr. rewrite Hn. destruct i; unfold SetSubByHash, SetAt, SetByHash; rewrite Hx; [reflexivity|].
  cbn [put_back]. rewrite firstn_skipn. reflexivity.
Qed.
Print Assumptions C68_unknown_attribute.
Theorem C68_unknown_element : forall f e reg own attrs before x after b h i,
  read_name (xname x) = Some (h, i) -> GetReflectedType (xinfo (fst own)) h = None -> xattrs x = [] ->
  Load2Content (S f) e reg own attrs (before ++ x :: after) b = Load2Content (S f) e reg own attrs (before ++ after) b.
Proof.
  intros f e reg own attrs before x after b h i Hn Hx Ha. cbn [Load2Content].
  destruct (fold_mem (LoadAttr e own) attrs b) as [m|]; [|reflexivity]. apply fold_mem_skip. intros q.
  unfold LoadKid2. cbv zeta. rewrite Hn, Ha. unfold via_hash at 1, SetAt, SetByHash. rewrite Hx. cbn [put_back]. rewrite firstn_skipn. reflexivity.
Qed.
Print Assumptions C68_unknown_element.
(** With an attribute such an element dereferences a null pointer. *)
Theorem C68_unknown_element_refuted : forall f e reg own attrs before x after b m h i,
  fold_mem (LoadAttr e own) attrs b = Some m -> fold_mem (LoadKid2 (Load2Content f e reg) e reg own) before m <> None ->
  read_name (xname x) = Some (h, i) -> GetReflectedType (xinfo (fst own)) h = None -> xattrs x <> [] ->
  Load2Content (S f) e reg own attrs (before ++ x :: after) b = None.
Proof.
  intros f e reg own attrs before x after b m h i Hm Hb Hn Hx Ha. cbn [Load2Content]. rewrite Hm, fold_mem_app.
  destruct (fold_mem _ before m) as [q|]; [|congruence]. cbn [fold_mem]. unfold LoadKid2 at 1. cbv zeta. rewrite Hn. unfold via_hash at 1.
  rewrite Hx. destruct (xattrs x); [congruence|reflexivity].
Qed.
Print Assumptions C68_unknown_element_refuted.

(** A class with an enum, flags, a vector, arrays of each and objects. *)
Definition y_outer : xcls := Eval vm_compute in mkX [79] (nm [79])
  [mkRefl RInteger RNone 4 0 0 0 (nm [97]) 0; mkRefl REnum RNone 1 1 0 4 (nm [101]) 5; mkRefl REnumFlags RNone 1 2 1 5 (nm [102]) 6;
   mkRefl RVector RUnsigned 1 3 3 6 (nm [118]) (CompileVectorHash RUnsigned 1 3);
   mkRefl RArray RInteger 1 4 2 9 (nm [97; 114]) 0; mkRefl RArray REnumFlags 1 5 2 11 (nm [102; 108]) 6;
   mkRefl RArray RVector 4 6 2 13 (nm [97; 118]) (CompileVectorHash RUnsigned 2 2);
   mkRefl RArrayClass RClass 3 7 2 21 (nm [105; 116]) 77; mkRefl RBitClass RNone 2 8 0 27 (nm [98]) 78]
  (Some [[97]; [101]; [102]; [118]; [97; 114]; [102; 108]; [97; 118]; [105; 116]; [98]]) None.
Definition y_mem : list Z := [254; 255; 255; 255; 2; 130; 7; 8; 9; 250; 5; 1; 128; 1; 2; 3; 4; 5; 6; 7; 8; 7; 0; 129; 255; 255; 2; 165; 255; 0; 9; 8; 7; 6; 5].
Example y_described_outer : described y_outer.
Proof.
  split; [|split; [|split; [|]]]; [cbn [map nameHash xTypes y_outer]; repeat (apply NoDup_cons; [cbn [In]; lia|]); apply NoDup_nil
  | intros i t H; repeat (destruct i as [|i]; [injection H as <-; split; [reflexivity|vm_compute; split; congruence]|]); destruct i; discriminate
  | reflexivity | split; [reflexivity|split; [repeat (constructor; [apply word_b_ok; reflexivity|]); constructor|vm_compute; reflexivity]]].
Qed.
(* the flags of this table *)
Lemma y_flag t addr a v : type t = REnumFlags -> typeHash t = 6 -> subSize t = 1 -> inside addr 1 a -> value_at addr 1 a = v -> In v [0; 1; 2; 3; 128; 129; 130; 131] ->
  flag_value x_env t addr a.
Proof.
  intros Ht Hh Hs Hin Hv Hr. split; [exact Ht|]. split.
  - split; [rewrite Hs; exact Hin|]. rewrite Ht, Hs, Hh. split; [lia|]. eexists. split; [reflexivity|].
    split; [repeat (apply NoDup_cons; [cbn [In map fst]; intuition congruence|]); apply NoDup_nil|].
    split; [repeat (constructor; [apply word_b_ok; reflexivity|]); constructor|]. split; [cbn; intuition congruence|].
    change (Z.to_nat 1) with 1%nat. rewrite Hv. intros i Hi. change (8 * 1) with 8 in Hi.
    assert (Hc : i = 0 \/ i = 1 \/ i = 2 \/ i = 3 \/ i = 4 \/ i = 5 \/ i = 6 \/ i = 7) by lia.
    cbn [In] in Hr. repeat (destruct Hr as [<-|Hr]; [repeat (destruct Hc as [-> | Hc]; [vm_compute; intros; (discriminate || tauto)|]); subst i; vm_compute; intros; (discriminate || tauto)|]). contradiction.
  - intros tab E. rewrite Hh in E. injection E as <-. split; [discriminate|]. repeat constructor; cbn; lia.
Qed.
Example y_writable : writable2 2 x_env x_reg (y_outer, 0%nat) y_mem.
Proof.
  assert (NX : forall t, In t (xTypes x_inner) \/ In t (xTypes x_bits) -> ~ is_object t /\ ~ is_object_array t).
  { unfold is_object, is_object_array, object_kind. cbn [xTypes x_inner x_bits In]. intros t H.
    destruct H as [[<-|[<-|[]]]|[<-|[<-|[]]]]; cbn [type subType]; split; intros K; repeat destruct K as [K|K]; try discriminate K; destruct K as [[K|K] _]; discriminate K. }
  assert (WI : forall base, base = 21%nat \/ base = 24%nat -> writable2 1 x_env x_reg (x_inner, base) y_mem).
  { intros base Hb. cbn [writable2]. split; [apply x_described_inner|]. split; [discriminate|].
    split; [intros ns E; injection E as <-; repeat constructor|]. split; [destruct Hb as [-> | ->]; cbn; lia|].
    intros t Ht. destruct (NX t (or_introl Ht)) as [N1 N2]. split; [intros [H|H]; contradiction|]. intros _ _.
    cbn [fst snd xTypes x_inner In] in *. unfold textual2. destruct Ht as [<-|[<-|[]]]; (split; [cbn; lia|]).
    - left. split; [discriminate|]. split; [unfold inside; destruct Hb as [-> | ->]; cbn; lia|]. cbn. tauto.
    - right. left. destruct Hb as [-> | ->]; (eapply y_flag; [reflexivity|reflexivity|reflexivity|unfold inside; cbn; lia|vm_compute; reflexivity|cbn; tauto]). }
  assert (WB : writable2 1 x_env x_reg (x_bits, 27%nat) y_mem).
  { cbn [writable2]. split; [apply x_described_bits|].
    split; [intros _ t; cbn [xTypes x_bits In fst]; intros [<-|[<-|[]]] [K|K]; discriminate K|].
    split; [discriminate|]. split; [cbn; lia|].
    intros t Ht. destruct (NX t (or_intror Ht)) as [N1 N2]. split; [intros [H|H]; contradiction|]. intros _ _.
    cbn [fst snd xTypes x_bits In] in *. unfold textual2. destruct Ht as [<-|[<-|[]]]; (split; [cbn; lia|]); right; right; left; unfold bit_field; cbn [type subType subSize offset];
        (split; [reflexivity|]); (split; [reflexivity|]); (split; [lia|]); (split; [lia|]); unfold inside; cbn; lia. }
  change (writable2 2 x_env x_reg (y_outer, 0%nat) y_mem) with
    (described y_outer /\ (xNames y_outer = None -> forall t, In t (xTypes y_outer) -> ~ an_array t) /\
    (forall ns, xNames y_outer = Some ns -> Forall (fun nm => Z.of_nat (length nm) < 2 ^ 63) ns) /\
    (0 <= length y_mem)%nat /\ forall t, In t (xTypes y_outer) ->
      (is_object t \/ is_object_array t -> 0 <= offset t /\ 0 <= subSize t /\ 0 <= numItems t < 2 ^ 63 /\ x_reg (typeHash t) <> None /\
         forall o, child x_reg (y_outer, 0%nat) t o -> writable2 1 x_env x_reg o y_mem) /\
      (~ is_object t -> ~ is_object_array t -> textual2 x_env t y_mem)).
  split; [apply y_described_outer|]. split; [discriminate|]. split; [intros ns E; injection E as <-; repeat constructor|]. split; [lia|].
  intros t Ht. cbn [xTypes y_outer In] in Ht.
  assert (HO : forall o, child x_reg (y_outer, 0%nat) t o -> writable2 1 x_env x_reg o y_mem).
  { intros [c base] [Hr Hc]. cbn [fst snd] in *. unfold is_object, is_object_array, object_kind in Hc.
    destruct Ht as [<-|[<-|[<-|[<-|[<-|[<-|[<-|[<-|[<-|[]]]]]]]]]]; cbn [type subType typeHash offset subSize numItems] in *;
      try (exfalso; destruct Hc as [[[K|K] _]|[[[K|K] [K2|K2]] _]]; congruence).
    - injection Hr as <-. destruct Hc as [[[K|K] _]|[_ (s & Hs & E)]]; [discriminate K|discriminate K|]. apply WI. lia.
    - injection Hr as <-. destruct Hc as [[_ E]|[[[K|K] _] _]]; [|discriminate K|discriminate K].
      replace base with 27%nat by lia. exact WB. }
  split; [|].
  - intros H. split; [|split; [|split; [|split; [|exact HO]]]]; try (destruct Ht as [<-|[<-|[<-|[<-|[<-|[<-|[<-|[<-|[<-|[]]]]]]]]]]; cbn; lia).
    unfold is_object, is_object_array, object_kind in H.
    destruct Ht as [<-|[<-|[<-|[<-|[<-|[<-|[<-|[<-|[<-|[]]]]]]]]]]; cbn [type subType typeHash] in *; try (vm_compute; discriminate);
      exfalso; destruct H as [[K|K]|[[K|K] [K2|K2]]]; congruence.
  - intros N1 N2. unfold is_object, is_object_array, object_kind in N1, N2.
    destruct Ht as [<-|[<-|[<-|[<-|[<-|[<-|[<-|[<-|[<-|[]]]]]]]]]]; cbn [type subType] in *; (split; [cbn; lia|]).
    + left. split; [discriminate|]. split; [unfold inside; cbn; lia|]. cbn. tauto.
    + left. split; [discriminate|]. split; [unfold inside; cbn; lia|]. cbn [type subSize]. split; [lia|]. eexists. split; [reflexivity|].
      split; [repeat (apply NoDup_cons; [cbn [In map fst]; intuition congruence|]); apply NoDup_nil|].
      split; [repeat (constructor; [apply word_b_ok; reflexivity|]); constructor|]. vm_compute. tauto.
    + right. left. eapply y_flag; [reflexivity|reflexivity|reflexivity|unfold inside; cbn; lia|vm_compute; reflexivity|cbn; tauto].
    + right. right. right. left. split; [reflexivity|]. split; [reflexivity|]. split; [cbn; lia|]. split; [cbn; lia|].
      intros i Hi. change (i < 3)%nat in Hi. split; [|cbn; tauto]. destruct i as [|[|[|i]]]; unfold inside; cbn; lia.
    + right. right. right. right. split; [cbn; lia|]. split; [cbn; lia|]. left. split; [left; reflexivity|]. split; [discriminate|]. split; [cbn; tauto|].
      intros i Hi. change (i < 2)%nat in Hi. split; [|cbn; tauto]. destruct i as [|[|i]]; unfold inside; cbn; lia.
    + right. right. right. right. split; [cbn; lia|]. split; [cbn; lia|]. right. left. split; [reflexivity|]. split; [reflexivity|]. split; [discriminate|].
      intros i Hi. change (i < 2)%nat in Hi.
      destruct i as [|[|i]]; [| |lia]; (eapply y_flag; [reflexivity|reflexivity|reflexivity|unfold inside; cbn; lia|vm_compute; reflexivity|cbn; tauto]).
    + right. right. right. right. split; [cbn; lia|]. split; [cbn; lia|]. right. right. split; [reflexivity|]. split; [reflexivity|].
      split; [vm_compute; split; congruence|]. split; [vm_compute; congruence|]. split; [vm_compute; reflexivity|].
      intros i j Hi Hj. change (i < 2)%nat in Hi. change (j < 2)%nat in Hj. split; [|vm_compute; auto].
      destruct i as [|[|i]]; [| |lia]; (destruct j as [|[|j]]; [| |lia]); unfold inside; vm_compute; lia.
    + exfalso. apply N2. tauto.
    + exfalso. apply N1. tauto.
Qed.
Example y_named : class_named y_outer.
Proof. split; [apply word_b_ok; reflexivity|vm_compute; reflexivity]. Qed.
(** what is written, and that reading it makes a zeroed object the same up to padding *)
Example y_case : exists doc, SaveV2 2 x_env x_reg (y_outer, 0%nat) y_mem (Elem [114] [] []) true = Some doc /\
  LoadV2 2 x_env x_reg (y_outer, 0%nat) doc true (repeat 0 35) = Some (firstn 28 y_mem ++ [31; 0; 0; 0; 0; 0; 0]) /\
  match xkids doc with
  | [Elem n [(_, s); (_, en); (ar0, v0); (ar1, v1)] (Elem fn fa [] :: Elem vn va [] :: Elem fl0 _ [] :: Elem fl1 _ [] :: Elem av0 _ [] :: Elem av1 ava [] :: _)] =>
    n = [79] /\ s = [45; 50] /\ en = [84; 119; 111] /\ ar1 = [97; 114; 45; 49] /\ v0 = [45; 54] /\
    fn = [102] /\ fa = [([65], s_false); ([66], s_true); ([67], s_true)] /\ va = [([120], [55]); ([121], [56]); ([122], [57])] /\
    fl1 = [102; 108; 45; 49] /\ av1 = [97; 118; 45; 49] /\ ava = [([120], [49; 53; 52; 49]); ([121], [50; 48; 53; 53])]
  | _ => False
  end.
Proof. eexists. split; [vm_compute; reflexivity|]. split; [vm_compute; reflexivity|]. vm_compute. repeat split. Qed.

(** What goes wrong beyond [writable2]. *)
(** The elements of an array in a class without names all lose their index and the second overwrites the first *)
Theorem C68_hashed_array_refuted :
  let c := mkX [83] 1 [mkRefl RArray RUnsigned 1 0 2 0 17 0] None None in
  exists doc, SaveV2 1 x_env x_reg (c, 0%nat) [6; 7] (Elem [] [] []) false = Some doc /\
    LoadV2 1 x_env x_reg (c, 0%nat) doc false [0; 0] <> Some [6; 7].
Proof. eexists. split; [vm_compute; reflexivity|]. vm_compute. discriminate. Qed.
(** Of vectors in an array only as many components are read as one of them has bytes *)
Theorem C68_vector_array_refuted :
  let c := mkX [83] 1 [mkRefl RArray RVector 3 0 1 0 (nm [118]) (CompileVectorHash RUnsigned 1 3)] (Some [[118]]) None in
  exists doc, SaveV2 1 x_env x_reg (c, 0%nat) [6; 7; 8] (Elem [] [] []) false = Some doc /\
    LoadV2 1 x_env x_reg (c, 0%nat) doc false [0; 0; 0] = Some [6; 0; 0].
Proof. eexists. split; [vm_compute; reflexivity|]. vm_compute. reflexivity. Qed.
(** Vectors and flags in an array class are written but not read *)
Theorem C68_array_class_refuted :
  let c := mkX [83] 1 [mkRefl RArrayClass REnumFlags 1 0 2 0 (nm [102]) 6] (Some [[102]]) None in
  exists doc, SaveV2 1 x_env x_reg (c, 0%nat) [1; 2] (Elem [] [] []) false = Some doc /\ length (xkids doc) = 2%nat /\
    LoadV2 1 x_env x_reg (c, 0%nat) doc false [0; 0] = Some [0; 0].
Proof. eexists. split; [vm_compute; reflexivity|]. vm_compute. split; reflexivity. Qed.
(** More than four components: names beyond the table are read *)
Theorem C68_components_refuted : forall e reg mem fuel,
  let c := mkX [83] 1 [mkRefl RVector RUnsigned 1 0 5 0 (nm [118]) (CompileVectorHash RUnsigned 1 5)] (Some [[118]]) None in
  SaveV2 fuel e reg (c, 0%nat) mem (Elem [] [] []) false = None.
Proof.
  intros e reg mem fuel c. unfold SaveV2. destruct fuel as [|fuel]; [reflexivity|]. cbn [Save2Content fst xTypes c save_members2].
  unfold SaveMember2. cbn [GetName fst xNames c nth_error]. unfold SaveValue. cbn [type plain_kind typeHash].
  change (dec_num (CompileVectorHash RUnsigned 1 5)) with 5. unfold vector_attrs. change (seq 0 (Z.to_nat 5)) with [0; 1; 2; 3; 4]%nat.
  cbn [map nth_error axes all_some one_node]. repeat (match goal with |- context [match GetSubAt ?a ?b ?c ?d ?e with _ => _ end] => destruct (GetSubAt a b c d e) end; try reflexivity).
Qed.
(** The fourth name is accepted for a vector of three and overwrites what follows; any other name writes at
    an address outside memory *)
Theorem C68_axis_refuted : forall e reg mem, Z.of_nat (length mem) < 2 ^ 64 - 1 ->
  let c := mkX [83] 1 [mkRefl RVector RUnsigned 1 0 3 0 (nm [118]) (CompileVectorHash RUnsigned 1 3)] (Some [[118]]) None in
  LoadV2 1 e reg (c, 0%nat) (Elem [] [] [Elem [118] [([119], [53])] []]) false [1; 2; 3; 4] = Some [1; 2; 3; 5] /\
  LoadV2 1 e reg (c, 0%nat) (Elem [] [] [Elem [118] [([114], [53])] []]) false mem = None.
Proof.
  intros e reg mem Hm c. split; [vm_compute; reflexivity|]. cbn [LoadV2 Load2Content xattrs xkids fold_mem]. unfold LoadKid2. cbv zeta.
  cbn [xname xattrs xkids fst].
  replace (read_name [118]) with (Some (nm [118], @None Z)) by (vm_compute; reflexivity).
  replace (via_hash (xinfo c) false (IsReflectedSubClass (xinfo c)) (nm [118])) with false by (vm_compute; reflexivity).
  replace (GetReflectedType (xinfo c) (nm [118])) with (Some (mkRefl RVector RUnsigned 1 0 3 0 (nm [118]) (CompileVectorHash RUnsigned 1 3))) by (vm_compute; reflexivity).
  cbn [type ID]. unfold DoVector. cbn [fold_mem fst snd]. unfold SetSubAt, SetReflectedSub. cbn [fst snd xTypes c].
  replace (by_id [mkRefl RVector RUnsigned 1 0 3 0 (nm [118]) (CompileVectorHash RUnsigned 1 3)] 0)
    with (Some (mkRefl RVector RUnsigned 1 0 3 0 (nm [118]) (CompileVectorHash RUnsigned 1 3))) by reflexivity.
  cbn [type subSize skipn axis]. change (nat_offset _) with 0%nat. rewrite Z.mul_1_l, Nat.add_0_l.
  assert (HN : forall a, a = Z.to_nat (2 ^ 64 - 1) -> (length mem < a)%nat) by (intros a ->; lia).
  remember (Z.to_nat (2 ^ 64 - 1)) as a eqn:Ea. specialize (HN a eq_refl). clear Ea Hm.
  assert (St : store (le_bytes 1 5) a mem = None). { unfold store. cbn [length le_bytes]. destruct (Nat.leb_spec (a + 1) (length mem)); [lia|reflexivity]. }
  set (el := element_type _). change (type el) with RUnsigned. unfold SetReflectedMember, set_fuel. cbn [length]. change (type el) with RUnsigned.
  cbv beta iota. change (subSize el) with 1. change (int_size 1) with true. cbv iota.
  replace (SetUnsigned (wrap (8 * 1)) (2 ^ (8 * 1) - 1) (skip_start [53])) with (ENone, Some 5) by (vm_compute; reflexivity).
  unfold assign. change (Z.to_nat 1) with 1%nat. rewrite St. reflexivity.
Qed.
(** Objects of an array are read from the element without an index as the first *)
Theorem C68_no_index : forall f e reg own x b h o,
  read_name (xname x) = Some (h, None) -> via_hash (xinfo (fst own)) false (IsReflectedSubClass (xinfo (fst own))) h = true ->
  via_hash (xinfo (fst own)) None (fun id => XSub reg own id 0) h = Some o ->
  Load2Content (S f) e reg own [] [x] b = Load2Content f e reg o (xattrs x) (xkids x) b.
Proof.
  intros f e reg own x b h o Hn Hs Ho. cbn [Load2Content fold_mem]. unfold LoadKid2. cbv zeta. rewrite Hn, Hs, Ho.
  destruct (Load2Content f e reg o (xattrs x) (xkids x) b); reflexivity.
Qed.
Print Assumptions C68_hashed_array_refuted.
Print Assumptions C68_vector_array_refuted.
Print Assumptions C68_array_class_refuted.
Print Assumptions C68_components_refuted.
Print Assumptions C68_axis_refuted.
Print Assumptions C68_no_index.
(** A flag numbered 31 of a 4-byte member that is not set: bytes beyond the member decide what is written *)
Theorem C68_flag31_refuted :
  let e := mkEnv (fun _ => Some [([65], 31)]) (fun _ _ old => (EInvalidFormat, old)) (fun _ _ => []) in
  let c := mkX [83] 1 [mkRefl REnumFlags RNone 4 0 1 0 (nm [102]) 6] (Some [[102]]) None in
  SaveV2 1 e x_reg (c, 0%nat) [1; 0; 0; 0] (Elem [] [] []) false = None.
Proof. vm_compute. reflexivity. Qed.
Print Assumptions C68_flag31_refuted.
