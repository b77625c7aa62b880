(** Proofs for C88. *)
From Verif Require Import Base Supercore_Model StringView_Model Bitfield_Model Reflector_Model Reflector_Spec
  Reflector_Proof Reflector_Fmt_Proof Reflector_Flags_Proof Reflector_Array_Proof Reflector_Props Reflector_Array_Props
  RefAccess_Model XmlRefl_Model XmlRefl_Spec XmlRefl_Names_Proof XmlRefl_Leaf_Proof XmlRefl_Bits_Proof XmlRefl_Proof XmlRefl_Props
  XmlRefl2_Model XmlRefl2_Spec XmlRefl2_Leaf_Proof XmlRefl2_Member_Proof XmlRefl2_Cover_Proof XmlRefl2_Proof XmlAgain_Spec XmlAgain_Proof XmlAgain2_Spec.

(** ** The shape of an object *)
Lemma object2_mono (V V' : nat -> reflType -> nat -> Prop) (M M' : nat -> reflType -> Prop) e reg len :
  (forall base t, (base <= len)%nat -> values2 V e len base t -> M base t -> values2 V' e len base t /\ M' base t) ->
  forall n own, object2_of V M n e reg own len -> object2_of V' M' n e reg own len.
Proof.
  intros H. induction n as [|n IH]; intros own W; [exact W|]. cbn [object2_of] in *. destruct W as (D & N1 & N2 & B & W).
  split; [exact D|]. split; [exact N1|]. split; [exact N2|]. split; [exact B|].
  intros t Ht. destruct (W t Ht) as [W1 W2]. split.
  - intros Ho. destruct (W1 Ho) as (A1 & A2 & A3 & A4 & A5). repeat split; try assumption; try lia. intros o Hc. apply IH, A5, Hc.
  - intros X1 X2. destruct (W2 X1 X2) as [X Y]. apply H; assumption.
Qed.
Lemma values2_mono (V V' : nat -> reflType -> nat -> Prop) e len base t : (forall u addr, V base u addr -> V' base u addr) -> values2 V e len base t -> values2 V' e len base t.
Proof.
  intros H (Ho & X). split; [exact Ho|]. destruct X as [(A & X)|[(A & X & B)|[X|[(A & B & C & D & X)|(A & B & X)]]]].
  - left. auto.
  - right. left. auto.
  - right. right. left. exact X.
  - right. right. right. left. repeat (split; [assumption|]). auto.
  - right. right. right. right. split; [exact A|]. split; [exact B|]. destruct X as [(X1 & X2 & X3 & X)|[(X1 & X2 & X3 & X)|(X1 & X2 & X3 & X4 & X5 & X)]].
    + left. repeat (split; [assumption|]). auto.
    + right. left. repeat (split; [assumption|]). intros i Hi. destruct (X i Hi). auto.
    + right. right. repeat (split; [assumption|]). auto.
Qed.
Lemma object2_bits V M e reg len : forall n own, object2_of V M n e reg own len ->
  object2_of V (fun base t => M base t /\ forall k, member_bits t k -> Bits reg own (8 * base + k)%nat) n e reg own len.
Proof.
  induction n as [|n IH]; intros own W; [exact W|]. cbn [object2_of] in *. destruct W as (D & N1 & N2 & B & W).
  split; [exact D|]. split; [exact N1|]. split; [exact N2|]. split; [exact B|].
  intros t Ht. destruct (W t Ht) as [W1 W2]. split.
  - intros Ho. destruct (W1 Ho) as (A1 & A2 & A3 & A4 & A5). repeat split; try assumption; try lia. intros o Hc.
    eapply object2_mono; [|apply IH, A5, Hc]. cbv beta. intros base u _ X [Y Z]. split; [exact X|]. split; [exact Y|]. intros k Hk.
    eapply bits_child; [exact Ht|exact Hc|]. apply Z. exact Hk.
  - intros X1 X2. destruct (W2 X1 X2) as [X Y]. split; [exact X|]. split; [exact Y|]. intros k Hk. apply (bits_member reg own t k); assumption.
Qed.
Lemma writable2_object n e reg own a : writable2 n e reg own a ->
  object2_of (fun base t addr => single_value e t addr (skipn base a)) (fun _ _ => True) n e reg own (length a).
Proof.
  revert own. induction n as [|n IH]; intros own W; [exact W|]. cbn [object2_of writable2] in *. destruct W as (D & N1 & N2 & B & W).
  split; [exact D|]. split; [exact N1|]. split; [exact N2|]. split; [exact B|].
  intros t Ht. destruct (W t Ht) as [W1 W2]. split.
  - intros Ho. destruct (W1 Ho) as (A1 & A2 & A3 & A4 & A5). repeat split; try assumption; try lia. intros o Hc. apply IH, A5, Hc.
  - intros X1 X2. split; [|exact I]. destruct (W2 X1 X2) as (Ho & X). split; [exact Ho|]. destruct X as [X|[(A & X & C)|[(A1 & A2 & A3 & A4 & X)|[X|X]]]].
    + left. exact X.
    + right. left. auto.
    + right. right. left. repeat (split; [assumption|]). unfold inside in X. rewrite skipn_length in X. lia.
    + right. right. right. left. exact X.
    + right. right. right. right. destruct X as (Y1 & Y2 & X). split; [exact Y1|]. split; [exact Y2|]. destruct X as [X|[(Z1 & Z2 & Z3 & X)|X]]; [left; exact X| |right; right; exact X].
      right. left. repeat (split; [assumption|]). intros i Hi. destruct (X i Hi) as (_ & P & Q). split; [exact P|exact Q].
Qed.
Lemma object2_writable n e reg own a M :
  object2_of (fun base t addr => single_value e t addr (skipn base a)) M n e reg own (length a) -> writable2 n e reg own a.
Proof.
  revert own. induction n as [|n IH]; intros own W; [exact W|]. cbn [object2_of writable2] in *. destruct W as (D & N1 & N2 & B & W).
  split; [exact D|]. split; [exact N1|]. split; [exact N2|]. split; [exact B|].
  intros t Ht. destruct (W t Ht) as [W1 W2]. split.
  - intros Ho. destruct (W1 Ho) as (A1 & A2 & A3 & A4 & A5). repeat split; try assumption; try lia. intros o Hc. apply IH, A5, Hc.
  - intros X1 X2. destruct (W2 X1 X2) as [(Ho & X) _]. split; [exact Ho|]. destruct X as [X|[(A & X & C)|[(A1 & A2 & A3 & A4 & X)|[X|X]]]].
    + left. exact X.
    + right. left. split; [exact A|]. split; [exact X|exact C].
    + right. right. left. unfold bit_field. repeat (split; [assumption|]). unfold inside. rewrite skipn_length. lia.
    + right. right. right. left. exact X.
    + right. right. right. right. destruct X as (Y1 & Y2 & X). split; [exact Y1|]. split; [exact Y2|]. destruct X as [X|[(Z1 & Z2 & Z3 & X)|X]]; [left; exact X| |right; right; exact X].
      right. left. repeat (split; [assumption|]). intros i Hi. destruct (X i Hi) as (P & Q). split; [|split; [exact P|exact Q]]. unfold element_of. rewrite Z2. reflexivity.
Qed.

(** ** The same texts give the same document *)
Lemma all_some_ext {A B} (f g : A -> option B) l : (forall x, In x l -> f x = g x) -> all_some (map f l) = all_some (map g l).
Proof. intros H. f_equal. apply map_ext_in. exact H. Qed.
Lemma each_same t f g : (forall j, (j < Z.to_nat (numItems t))%nat -> f (Z.of_nat j) = g (Z.of_nat j)) -> each_element t f = each_element t g.
Proof. intros H. unfold each_element. f_equal. apply map_ext_in. intros j Hj. apply in_seq in Hj. apply H. lia. Qed.
Lemma vector_same f g n : (forall j, (j < Z.to_nat n)%nat -> f (Z.of_nat j) = g (Z.of_nat j)) -> vector_attrs f n = vector_attrs g n.
Proof. intros H. unfold vector_attrs. apply all_some_ext. intros j Hj. apply in_seq in Hj. rewrite H by lia. reflexivity. Qed.
Lemma flags_same f g tab : (forall v, f v = g v) -> flag_attrs f tab = flag_attrs g tab.
Proof. intros H. unfold flag_attrs. apply all_some_ext. intros p _. rewrite H. reflexivity. Qed.
Lemma members2_same f g ts : forall i, (forall j t, nth_error ts j = Some t -> f t (i + j)%nat = g t (i + j)%nat) -> save_members2 f ts i = save_members2 g ts i.
Proof.
  induction ts as [|t ts IH]; intros i H; [reflexivity|]. cbn [save_members2]. pose proof (H 0%nat t eq_refl) as H0. rewrite Nat.add_0_r in H0. rewrite H0.
  rewrite (IH (S i)); [reflexivity|]. intros j u Hu. specialize (H (S j) u Hu). rewrite Nat.add_succ_r in H. exact H.
Qed.

(** a value whose text is the same in both, and whose bytes are if it is not a float *)
Definition alike (e : env) (a a' : list Z) (base : nat) (t : reflType) (addr : nat) : Prop :=
  In (type t) [RInteger; RUnsigned; RBool; REnum; REnumFlags; RFloat] /\
  (forall f, GetReflectedPrimitive f e t addr (skipn base a) = GetReflectedPrimitive f e t addr (skipn base a')) /\
  (type t = REnumFlags -> bytes_at addr (Z.to_nat (subSize t)) (skipn base a) = bytes_at addr (Z.to_nat (subSize t)) (skipn base a')).
Lemma alike_same e a a' base t t' addr : type t = type t' -> subSize t = subSize t' -> typeHash t = typeHash t' -> alike e a a' base t addr -> alike e a a' base t' addr.
Proof.
  intros E1 E2 E3 (K & T & B). unfold alike. rewrite <- E1, <- E2. split; [exact K|]. split; [|exact B].
  assert (G : forall f m, GetReflectedPrimitive f e t addr m = GetReflectedPrimitive f e t' addr m).
  { intros f m. destruct f; cbn [GetReflectedPrimitive]; rewrite <- E1, <- E2, <- E3; cbn [In] in K; destruct K as [<-|[<-|[<-|[<-|[<-|[<-|[]]]]]]]; reflexivity. }
  intros f. rewrite <- !G. apply T.
Qed.

Section Member.
  Context (e : env) (reg : registry) (own : xinst) (a a' : list Z) (Ba : bytes_ok a) (Ba' : bytes_ok a') (L : length a' = length a) (Hb : (snd own <= length a)%nat)
          (Hd : described (fst own)) (i : nat) (t : reflType) (Et : nth_error (xTypes (fst own)) i = Some t)
          (N1 : ~ is_object t) (N2 : ~ is_object_array t).
  Local Notation base := (snd own).
  Local Notation off := (Z.to_nat (offset t)).
  Lemma same_load addr n : bytes_at addr n (skipn base a) = bytes_at addr n (skipn base a') -> load n addr (skipn base a) = load n addr (skipn base a').
  Proof. intros E. apply load_same; [rewrite !skipn_length, L; reflexivity|exact E]. Qed.
  Lemma single_get : match type t with RBitMember => 0%nat | _ => nat_offset t end = off -> 
    (forall f, GetReflectedPrimitive f e t off (skipn base a) = GetReflectedPrimitive f e t off (skipn base a')) -> GetAt e own (Z.of_nat i) a = GetAt e own (Z.of_nat i) a'.
  Proof. intros E G. unfold GetAt, GetReflectedValue. rewrite (leaf_by_id own Hd i t Et), E. apply G. Qed.
  Lemma element_get_same j : listing t -> alike e a a' base (element_of t) (element_addr off t j) -> GetSubAt e own (Z.of_nat i) (Z.of_nat j) a = GetSubAt e own (Z.of_nat i) (Z.of_nat j) a'.
  Proof.
    intros Hl (_ & G & _). unfold GetSubAt, GetReflectedSub. rewrite (leaf_by_id own Hd i t Et). specialize (G 2%nat). rewrite element_of_type in G. unfold element_addr in G.
    unfold nat_offset. rewrite G. destruct Hl as [-> | [-> | ->]]; reflexivity.
  Qed.
  Lemma member2_same : values2 (alike e a a') e (length a) base t ->
    (type t = RBitMember -> forall k, member_bits t k -> bit (skipn base a') k = bit (skipn base a) k) ->
    forall rec rec', SaveMember2 rec e reg own a t i = SaveMember2 rec' e reg own a' t i.
  Proof.
    intros (Ho & X) HM rec rec'. unfold SaveMember2. cbv zeta. destruct (GetName (fst own) t i) as [nm|]; [|reflexivity].
    rewrite (leaf_sub own Hd i t Et N1 N2).
    destruct X as [(A & K & G & _)|[(A & (_ & _ & E) & _)|[(A1 & A2 & A3 & A4 & X)|[(A & Hdn & H4 & Hs & H)|(Hn & Hs & X)]]]].
    - assert (Pk : plain_kind (type t) = true) by (cbn [In] in K; destruct K as [K|[K|[K|[K|[K|[K|[]]]]]]]; rewrite <- K; (reflexivity || congruence)).
      unfold SaveValue. rewrite Pk. rewrite single_get; [|cbn [In] in K; destruct K as [<-|[<-|[<-|[<-|[<-|[<-|[]]]]]]]; reflexivity|exact G].
      destruct (GetAt e own (Z.of_nat i) a'); reflexivity.
    - unfold SaveValue. rewrite A. cbn [plain_kind]. destruct (enums e (typeHash t)) as [tab|]; [|].
      + rewrite (flags_same _ (fun v => GetSubAt e own (Z.of_nat i) v a')); [destruct (flag_attrs (fun v => GetSubAt e own (Z.of_nat i) v a') tab); reflexivity|].
        intros v. unfold GetSubAt, GetReflectedSub. rewrite (leaf_by_id own Hd i t Et), A. unfold nat_offset. rewrite (same_load _ _ (E A)). reflexivity.
      + assert (Ia : IsArray (xinfo (fst own)) (Z.of_nat i) = false) by (destruct (subclass_id _ i t Hd Et) as [_ ->]; unfold is_array; rewrite A; reflexivity). rewrite Ia.
        replace (GetAt e own (Z.of_nat i) a) with (GetAt e own (Z.of_nat i) a'); [reflexivity|].
        unfold GetAt, GetReflectedValue. rewrite (leaf_by_id own Hd i t Et). cbn [GetReflectedPrimitive]. rewrite A. unfold nat_offset. rewrite (same_load _ _ (E A)). reflexivity.
    - unfold SaveValue. rewrite A1. cbn [plain_kind].
      replace (GetAt e own (Z.of_nat i) a) with (GetAt e own (Z.of_nat i) a'); [destruct (GetAt e own (Z.of_nat i) a'); reflexivity|].
      unfold GetAt, GetReflectedValue. rewrite (leaf_by_id own Hd i t Et), A1. symmetry. apply field_same; try assumption; try (apply bytes_ok_skipn; assumption);
        [rewrite !skipn_length, L; reflexivity|unfold inside; rewrite skipn_length; lia|apply HM; exact A1].
    - assert (Hl : listing t) by (right; left; exact A). unfold SaveValue. rewrite A. cbn [plain_kind].
      rewrite (vector_same _ (fun x => GetSubAt e own (Z.of_nat i) x a')); [destruct (vector_attrs (fun x => GetSubAt e own (Z.of_nat i) x a') (dec_num (typeHash t))); reflexivity|].
      intros j Hj. rewrite Hdn in Hj. apply element_get_same; [exact Hl|apply H; exact Hj].
    - assert (Sv : forall m, an_array t -> SaveValue e own m t (Z.of_nat i) nm = Some None) by (intros m [T|T]; unfold SaveValue; rewrite T; reflexivity).
      assert (Ia : an_array t -> IsArray (xinfo (fst own)) (Z.of_nat i) = true) by (intros T; destruct (subclass_id _ i t Hd Et) as [_ ->]; unfold is_array; destruct T as [-> | ->]; reflexivity).
      destruct X as [(T & Nf & K & X)|[(T & Ts & Et' & X)|(T & Ts & D1 & D2 & D3 & X)]].
      + rewrite !Sv, Ia by exact T. assert (Pk : plain_kind (subType t) = true) by (cbn [In] in K; destruct K as [<-|[<-|[<-|[<-|[<-|[]]]]]]; reflexivity). rewrite Pk.
        apply each_same. intros j Hj. rewrite (element_get_same j); [reflexivity|destruct T; [left|right; right]; assumption|apply X; exact Hj].
      + assert (T' : an_array t) by (left; exact T). rewrite !Sv, Ia by exact T'. rewrite Ts. cbn [plain_kind]. destruct (enums e (typeHash t)) as [tab|]; [|reflexivity].
        apply each_same. intros j Hj. destruct (X j Hj) as ((_ & _ & E) & _).
        assert (Tk : type (element_of t) = REnumFlags /\ subSize (element_of t) = subSize t) by (unfold element_of; rewrite Ts; split; reflexivity). destruct Tk as [Tk Ek].
        specialize (E Tk). rewrite Ek in E. unfold element_addr in E.
        rewrite (flags_same _ (fun v => GetElementAt e own (Z.of_nat i) (Z.of_nat j) v a')); [reflexivity|].
        intros v. unfold GetElementAt, GetReflectedElement. rewrite (leaf_by_id own Hd i t Et), Ts. unfold nat_offset. rewrite (same_load _ _ E). reflexivity.
      + assert (T' : an_array t) by (left; exact T). rewrite !Sv, Ia by exact T'. rewrite Ts. cbn [plain_kind].
        apply each_same. intros j Hj. rewrite (vector_same _ (fun c => GetElementAt e own (Z.of_nat i) (Z.of_nat j) c a')); [reflexivity|].
        intros c Hc. specialize (X j c Hj Hc).
        assert (Nv : dec_type (typeHash t) <> RVector).
        { intros E. destruct X as [X _]. unfold element_of in X. rewrite Ts in X. cbn [subType] in X. rewrite E in X. cbn [type In] in X. intuition discriminate. }
        unfold element_of, element_addr in X. rewrite Ts in X. cbn [subType subSize] in X.
        unfold GetElementAt, GetReflectedElement. rewrite (leaf_by_id own Hd i t Et), Ts. unfold nat_offset.
        destruct (negb (is_array t)); [reflexivity|]. destruct ((numItems t <=? Z.of_nat j) || (dec_num (typeHash t) <=? Z.of_nat c)); [reflexivity|].
        match goal with |- GetReflectedPrimitive 2 e ?ty ?ad _ = _ => assert (Y : alike e a a' base ty ad) end.
        { eapply alike_same; [| | |exact X]; cbn [type subSize typeHash]; destruct (dec_type (typeHash t)); (reflexivity || congruence). }
        apply Y.
  Qed.
End Member.

Lemma save2_same e reg a a' (M : nat -> reflType -> Prop) n own : bytes_ok a -> bytes_ok a' -> length a' = length a ->
  (forall base t, M base t -> type t = RBitMember -> forall k, member_bits t k -> bit (skipn base a') k = bit (skipn base a) k) ->
  object2_of (alike e a a') M n e reg own (length a) -> forall f, Save2Content f e reg own a = Save2Content f e reg own a'.
Proof.
  intros Ba Ba' L HM. revert own. induction n as [|n IH]; intros own W f; [destruct W|]. destruct W as (Hd & _ & _ & Hb & W). destruct f as [|f]; [reflexivity|]. cbn [Save2Content].
  apply members2_same. intros i t Et. cbn [Nat.add]. destruct (W t (nth_error_In _ _ Et)) as [HO HL].
  destruct (described_id _ i t Hd Et) as [Ei En]. destruct (subclass_id _ i t Hd Et) as [Hsc Har].
  destruct (IsReflectedSubClass (xinfo (fst own)) (Z.of_nat i)) eqn:Esc.
  - pose proof (proj1 Hsc eq_refl) as Ho. destruct (HO Ho) as (H0 & Hsz & Hnum & Hreg & Hch).
    destruct (reg (typeHash t)) as [kc|] eqn:Ereg; [|congruence].
    assert (HC : forall s k, 0 <= s < Z.max 1 (numItems t) -> (is_array t = true -> s < numItems t) -> (is_array t = false -> s = 0) -> XSub reg own (Z.of_nat i) s = Some k -> child reg own t k).
    { intros s k Hs Hs1 Hs2 E. unfold XSub in E. destruct own as [c base]. cbn [fst snd] in *. rewrite Ei in E.
      destruct (negb (s =? 0) && (numItems t <=? s)); [discriminate|].
      destruct Ho as [Ho|(Ha & Ho)].
      - assert (Na : match type t with RArray | RVector | RArrayClass => true | _ => false end = false) by (destruct Ho as [X|X]; rewrite X; reflexivity).
        rewrite Na in E. assert (E' : Some (kc, (base + nat_offset t + 0)%nat) = Some k) by (destruct Ho as [X|X]; rewrite X, Ereg in E; exact E). injection E' as <-.
        split; [exact Ereg|]. left. split; [exact Ho|]. cbn [snd]. unfold nat_offset. lia.
      - assert (Na : match type t with RArray | RVector | RArrayClass => true | _ => false end = true) by (destruct Ha as [X|X]; rewrite X; reflexivity).
        assert (Ia : is_array t = true) by (unfold is_array; destruct Ha as [X|X]; rewrite X; reflexivity).
        rewrite Na in E. assert (E' : Some (kc, (base + nat_offset t + Z.to_nat (s * subSize t))%nat) = Some k) by (destruct Ho as [X|X]; rewrite X, Ereg in E; exact E). injection E' as <-.
        split; [exact Ereg|]. right. split; [split; assumption|]. exists s. split; [specialize (Hs1 Ia); lia|]. cbn [snd]. unfold nat_offset. assert (0 <= s * subSize t) by nia. lia. }
    unfold SaveMember2. cbv zeta. destruct (GetName (fst own) t i) as [nm|]; [|reflexivity].
    assert (Sv : forall m, SaveValue e own m t (Z.of_nat i) nm = Some None).
    { intros m. unfold SaveValue. destruct Ho as [[T|T]|[[T|T] _]]; rewrite T; reflexivity. }
    rewrite !Sv, Esc, Har.
    destruct (is_array t) eqn:Ea.
    + apply each_same. intros j Hj. destruct (XSub reg own (Z.of_nat i) (Z.of_nat j)) as [k|] eqn:Ex; [|reflexivity]. rewrite (IH k); [reflexivity|].
      apply Hch, (HC (Z.of_nat j)); [lia|lia|congruence|exact Ex].
    + destruct (XSub reg own (Z.of_nat i) 0) as [k|] eqn:Ex; [|reflexivity]. rewrite (IH k); [reflexivity|]. apply Hch, (HC 0); [lia|congruence|reflexivity|exact Ex].
  - assert (X1 : ~ is_object t) by (intros X; assert (false = true) by (apply Hsc; auto); discriminate).
    assert (X2 : ~ is_object_array t) by (intros X; assert (false = true) by (apply Hsc; auto); discriminate).
    destruct (HL X1 X2) as [Hv Hm]. apply member2_same; try assumption. apply HM. exact Hm.
Qed.

(** ** Settled objects *)
Lemma settled_alike e t addr a a' base : length a' = length a -> settled_value e t addr (skipn base a) (skipn base a') -> alike e a a' base t addr.
Proof.
  intros L H. assert (Ls : length (skipn base a) = length (skipn base a')) by (rewrite !skipn_length, L; reflexivity).
  destruct (settled_text e t addr _ _ Ls H) as [_ G]. split; [|split; [exact G|]].
  - clear G. unfold settled_value in H. cbn [In]. destruct (type t) eqn:Ht; auto 10; destruct H as [[_ H] _]; rewrite Ht in H; contradiction.
  - intros E. unfold settled_value in H. rewrite E in H. symmetry. apply H.
Qed.
Lemma settled2_same n e reg own a a' : settled2 n e reg own a a' -> bytes_ok a -> bytes_ok a' -> length a' = length a ->
  writable2 n e reg own a' /\ forall f, Save2Content f e reg own a = Save2Content f e reg own a'.
Proof.
  intros W Ba Ba' L. unfold settled2 in W. split.
  - eapply object2_writable. rewrite L. eapply object2_mono; [|exact W]. cbv beta. intros base t Hb Hv Hm. split; [|exact Hm].
    eapply values2_mono; [|exact Hv]. cbv beta. intros u addr Hu. eapply settled_single; [|exact Hu]. rewrite !skipn_length, L. reflexivity.
  - eapply (save2_same e reg a a' (fun base t => type t = RBitMember -> forall k, member_bits t k -> bit (skipn base a') k = bit (skipn base a) k)); try eassumption; [auto|].
    eapply object2_mono; [|exact W]. cbv beta. intros base t Hb Hv Hm. split; [|exact Hm]. eapply values2_mono; [|exact Hv]. cbv beta. intros u addr Hu. apply settled_alike; assumption.
Qed.

(** ** The texts of a member depend on its bits only *)
Lemma single_size e u addr m : single_value e u addr m -> 0 <= subSize u.
Proof. intros (_ & X). destruct (type u); try contradiction; lia. Qed.
Lemma values2_within (V : nat -> reflType -> nat -> Prop) e len base t : (forall u addr, V base u addr -> 0 <= subSize u /\ type u <> RVector /\ type u <> RBitMember /\ type u <> RArray /\ type u <> RArrayClass) ->
  values2 V e len base t ->
  values2 (fun b u addr => V b u addr /\ forall k, (8 * addr <= k < 8 * (addr + Z.to_nat (subSize u)))%nat -> member_bits t k) e len base t.
Proof.
  intros HV (Ho & X). split; [exact Ho|].
  assert (One : V base t (Z.to_nat (offset t)) -> forall k, (8 * Z.to_nat (offset t) <= k < 8 * (Z.to_nat (offset t) + Z.to_nat (subSize t)))%nat -> member_bits t k).
  { intros V1 k Hk. destruct (HV _ _ V1) as (S0 & Nv & Nb & Na & Nc). unfold member_bits. destruct (type t); try congruence; lia. }
  assert (MB : listing t -> 0 <= numItems t -> 0 <= subSize t -> forall k, (8 * Z.to_nat (offset t) <= k < 8 * (Z.to_nat (offset t) + Z.to_nat (numItems t * subSize t)))%nat -> member_bits t k).
  { intros A B C k Hk. unfold member_bits. assert (0 <= numItems t * subSize t) by nia. destruct A as [-> | [-> | ->]]; lia. }
  assert (El : forall i, listing t -> subType t <> RVector -> 0 <= subSize t -> (i < Z.to_nat (numItems t))%nat ->
    forall k, (8 * element_addr (Z.to_nat (offset t)) t i <= k < 8 * (element_addr (Z.to_nat (offset t)) t i + Z.to_nat (subSize (element_of t))))%nat -> member_bits t k).
  { intros i A E C Hi k Hk. rewrite (element_size t E) in Hk. apply MB; [exact A|lia|exact C|]. unfold element_addr in Hk.
    assert (0 <= subSize t * Z.of_nat i /\ subSize t * Z.of_nat i + subSize t <= numItems t * subSize t) by nia. lia. }
  assert (Nv : V base (element_of t) (element_addr (Z.to_nat (offset t)) t 0) -> subType t <> RVector).
  { intros V1 E. destruct (HV _ _ V1) as (_ & N & _). apply N. unfold element_of. rewrite E. reflexivity. }
  destruct X as [(A & X)|[(A & X & B)|[X|[(A & B & C & D & X)|(A & B & X)]]]].
  - left. split; [exact A|]. split; [exact X|]. apply One. exact X.
  - right. left. split; [exact A|]. split; [split; [exact X|]|exact B]. apply One. exact X.
  - right. right. left. exact X.
  - right. right. right. left. repeat (split; [assumption|]). intros i Hi. split; [apply X; exact Hi|].
    apply El; [right; left; exact A|apply Nv, X; lia|exact D|exact Hi].
  - right. right. right. right. split; [exact A|]. split; [exact B|]. destruct X as [(X1 & X2 & X3 & X)|[(X1 & X2 & X3 & X)|(X1 & X2 & X3 & X4 & X5 & X)]].
    + left. repeat (split; [assumption|]). intros i Hi. split; [apply X; exact Hi|].
      apply El; [destruct X1; [left|right; right]; assumption|apply Nv, X; lia|exact B|exact Hi].
    + right. left. repeat (split; [assumption|]). intros i Hi. destruct (X i Hi) as [Xi Xf]. split; [split; [exact Xi|]|exact Xf].
      apply El; [left; exact X1|congruence|exact B|exact Hi].
    + right. right. repeat (split; [assumption|]). intros i j Hi Hj. split; [apply X; assumption|].
      assert (Es : subSize (element_of t) = dec_size (typeHash t)) by (unfold element_of; rewrite X2; reflexivity).
      assert (Es2 : subSize (element_of (element_of t)) = dec_size (typeHash t)).
      { unfold element_of at 1. unfold element_of. rewrite X2. cbn [subType]. destruct (HV _ _ (X i j Hi Hj)) as (_ & Nw & _). unfold element_of in Nw. rewrite X2 in Nw. cbn [subType] in Nw.
        destruct (dec_type (typeHash t)); (reflexivity || (exfalso; apply Nw; reflexivity)). }
      intros k Hk. rewrite Es2 in Hk. apply MB; [left; exact X1|lia|exact B|]. unfold element_addr in Hk. rewrite Es in Hk.
      destruct (HV _ _ (X i j Hi Hj)) as (S0 & _). rewrite Es2 in S0.
      set (ds := dec_size (typeHash t)) in *. set (dn := dec_num (typeHash t)) in *.
      assert (0 <= subSize t * Z.of_nat i /\ subSize t * Z.of_nat i + subSize t <= numItems t * subSize t) by nia.
      assert (0 <= ds * Z.of_nat j /\ ds * Z.of_nat j + ds <= subSize t) by nia. lia.
Qed.
(** what was loaded is saved as it was *)
Lemma copied2_same n e reg own a b b' : writable2 n e reg own a -> bytes_ok a -> bytes_ok b' -> length b = length a -> copied (Bits reg own) a b b' ->
  forall f, Save2Content f e reg own b' = Save2Content f e reg own a.
Proof.
  intros W Ba Bb L [Lb C] f. symmetry. apply writable2_object, object2_bits in W.
  apply (save2_same e reg a b' (fun base t => forall k, member_bits t k -> bit (skipn base b') k = bit (skipn base a) k) n); [exact Ba|exact Bb|congruence|auto|].
  eapply object2_mono; [|exact W]. cbv beta. intros base t Hb Hv [_ Hk].
  assert (K : forall k, member_bits t k -> bit (skipn base b') k = bit (skipn base a) k).
  { intros k Hm. rewrite !skipn_bit. destruct (C (8 * base + k)%nat) as [[_ E]|[N _]]; [exact E|]. exfalso. apply N, Hk, Hm. }
  split; [|exact K].
  eapply values2_mono; [|eapply (values2_within (fun base t addr => single_value e t addr (skipn base a))); [|exact Hv]]; cbv beta.
  - intros u addr [Su R]. pose proof Su as (Hin & Ty).
    assert (Ls : length (skipn base a) = length (skipn base b')) by (rewrite !skipn_length; lia).
    assert (E : bytes_at addr (Z.to_nat (subSize u)) (skipn base a) = bytes_at addr (Z.to_nat (subSize u)) (skipn base b')).
    { apply bits_range; [apply bytes_ok_skipn; exact Ba|apply bytes_ok_skipn; exact Bb|exact Ls|exact Hin|]. intros k Hkk. apply K, R, Hkk. }
    unfold alike. split; [cbn [In]; clear - Ty; destruct (type u); try contradiction; auto 10|]. split; [|intros _; exact E].
    apply single_local; [exact Su|exact Ls|exact E].
  - intros u addr Su. split; [eapply single_size; exact Su|]. destruct Su as (_ & Ty). destruct (type u); try contradiction; repeat split; discriminate.
Qed.
