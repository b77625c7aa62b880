(** Members that are not objects. *)
From Verif Require Import Base Jenkins_Model FileInfo_Model StringView_Model Reflector_Model Reflector_Spec
  Reflector_Proof Reflector_Props RefAccess_Model XmlRefl_Model XmlRefl_Spec XmlRefl_Leaf_Proof
  XmlRefl_Bits_Proof XmlRefl_Names_Proof XmlRefl_Proof XmlRefl2_Model XmlRefl2_Spec XmlRefl2_Leaf_Proof XmlRefl2_Cover_Proof.

Lemma dec_digits_length f : forall x, (length (dec_digits f x) <= f)%nat.
Proof. induction f as [|f IH]; intros x; cbn [dec_digits]; [cbn; lia|]. destruct (x <? 10); [cbn; lia|]. rewrite app_length. cbn [length]. specialize (IH (x / 10)). lia. Qed.
Lemma to_string_length x : (length (to_string x) <= 21)%nat.
Proof. unfold to_string. destruct (x <? 0); cbn [length]; pose proof (dec_digits_length 20); [specialize (H (- x))|specialize (H x)]; lia. Qed.
Lemma to_nat_mul s i : 0 <= s -> Z.to_nat (s * Z.of_nat i) = (i * Z.to_nat s)%nat.
Proof. intros H. rewrite Z2Nat.inj_mul, Nat2Z.id by lia. lia. Qed.
Lemma element_size t : subType t <> RVector -> subSize (element_of t) = subSize t.
Proof. intros H. unfold element_of. destruct (subType t); (reflexivity || congruence). Qed.
Lemma single_same e t t' addr a : type t = type t' -> subSize t = subSize t' -> typeHash t = typeHash t' ->
  single_value e t addr a -> single_value e t' addr a.
Proof. unfold single_value. intros -> -> ->. tauto. Qed.
Lemma moves_map_mem a R f g : (forall b, length b = length a -> bytes_ok b -> f b = g b) -> moves a R f -> moves a R g.
Proof. intros E H b L B. destruct (H b L B) as (b' & F & B' & C). exists b'. rewrite <- E by assumption. auto. Qed.

Definition flag_txt (v size i : Z) : list Z := if size * 8 <=? i then [] else if Z.testbit v i then s_true else s_false.
Lemma flag_txt_ok v size i : 0 <= v < 2 ^ (8 * size) -> 0 <= size -> text_ok (flag_txt v size i) /\ as_bool (flag_txt v size i) = Z.testbit v i.
Proof.
  intros Hv Hs. unfold flag_txt. destruct (Z.leb_spec (size * 8) i).
  - split; [constructor|]. rewrite (testbit_above (8 * size)) by lia. reflexivity.
  - destruct (Z.testbit v i); (split; [repeat constructor; lia|reflexivity]).
Qed.

Section Leaf.
  Context (e : env) (reg : registry) (own : xinst) (a : list Z) (Ha : bytes_ok a) (Hbase : (snd own <= length a)%nat)
          (Hd : described (fst own)) (i : nat) (t : reflType) (Et : nth_error (xTypes (fst own)) i = Some t)
          (N1 : ~ is_object t) (N2 : ~ is_object_array t) (nm : list Z) (Gn : GetName (fst own) t i = Some nm)
          (R0 : read_name (c_string nm) = Some (nameHash t, None))
          (Ri : an_array t -> forall s, 0 <= s < 2 ^ 63 -> read_name (indexed nm s) = Some (nameHash t, Some s)).
  Let base := snd own.
  Let mem := skipn base a.
  Let off := Z.to_nat (offset t).

  Lemma leaf_sub : IsReflectedSubClass (xinfo (fst own)) (Z.of_nat i) = false.
  Proof.
    destruct (subclass_id _ i t Hd Et) as [H _]. destruct (IsReflectedSubClass _ _) eqn:E; [|reflexivity]. exfalso. destruct (proj1 H eq_refl); contradiction.
  Qed.
  Lemma leaf_via {R} (none : R) f : via_hash (xinfo (fst own)) none f (nameHash t) = f (Z.of_nat i).
  Proof. unfold via_hash. rewrite (described_type _ i t Hd Et). destruct (described_id _ i t Hd Et) as [_ ->]. reflexivity. Qed.
  Lemma leaf_by_id : by_id (xTypes (fst own)) (Z.of_nat i) = Some t.
  Proof. apply (described_id _ i t Hd Et). Qed.
  Lemma leaf_ID : ID t = Z.of_nat i.
  Proof. apply (described_id _ i t Hd Et). Qed.
  Lemma leaf_kid rec name attrs idx b : attrs <> [] -> read_name name = Some (nameHash t, idx) ->
    LoadKid2 rec e reg own (Elem name attrs []) b =
      match type t with
        | REnumFlags => DoFlags e own (ID t) idx attrs b
        | RVector => DoVector e own (ID t) idx attrs b
        | RArray =>
          match subType t with
          | RVector => DoVector e own (ID t) idx attrs b
          | REnumFlags => DoFlags e own (ID t) idx attrs b
          | _ => Some b
          end
        | _ => Some b
        end.
  Proof.
    intros Hne E. destruct attrs as [|at0 attrs]; [congruence|]. unfold LoadKid2. cbn [xname xattrs]. rewrite E. rewrite leaf_via, leaf_sub, (described_type _ i t Hd Et). reflexivity.
  Qed.

  Definition leaf_ok : Prop :=
    exists x, (forall rec, SaveMember2 rec e reg own a t i = Some x) /\
      forall n L, covers2 a (LoadAttr e own) n (fun d => LoadKid2 (L d) e reg own) x (fun k => exists k', k = (8 * base + k')%nat /\ member_bits t k').

  Lemma range_bits (P : nat -> Prop) s : 0 <= offset t ->
    (forall k', member_bits t k' <-> (8 * off <= k' < 8 * (off + s))%nat) ->
    forall k, byte_range (base + off) s k <-> exists k', k = (8 * base + k')%nat /\ member_bits t k'.
  Proof.
    intros Ho H k. unfold byte_range. split.
    - intros Hk. exists (k - 8 * base)%nat. split; [lia|]. apply H. lia.
    - intros (k' & -> & Hk). apply H in Hk. lia.
  Qed.

  Lemma leaf_simple : 0 <= offset t -> simple_value e t off mem -> leaf_ok.
  Proof.
    intros Ho [Nf H]. pose proof H as (_ & Hty). destruct (single_moves e t off a base Ha Hbase H) as (s & G & T & M).
    assert (Pk : plain_kind (type t) = true) by (destruct (type t); (reflexivity || contradiction || congruence)).
    assert (Nb : match type t with RBitMember => 0%nat | _ => nat_offset t end = off) by (destruct (type t); (reflexivity || contradiction)).
    exists ([(c_string nm, s)], []). split.
    - intros rec. unfold SaveMember2. cbv zeta. rewrite Gn. unfold SaveValue. rewrite Pk. unfold GetAt, GetReflectedValue. rewrite leaf_by_id, Nb.
      fold base mem. unfold mem. rewrite G. cbn [option_map]. rewrite (text_c_string s T). reflexivity.
    - intros n L. apply covers2_attrs, covers_one. eapply moves_ext; [|eapply moves_eq; [|exact M]].
      + apply (range_bits (fun _ => True)); [exact Ho|]. intros k'. unfold member_bits.
        assert (0 <= subSize t) by (destruct (type t); try contradiction; lia).
        unfold off. destruct (type t); try contradiction; lia.
      + intros b. unfold LoadAttr. cbn [fst snd]. rewrite R0. unfold SetAt, SetByHash. rewrite (described_type _ i t Hd Et). unfold set_value.
        rewrite Nb. reflexivity.
  Qed.

  Lemma leaf_bits : 0 <= offset t -> bit_field t mem -> leaf_ok.
  Proof.
    intros Ho H. assert (Tx : textual e t mem) by (split; [exact Ho|right; right; exact H]).
    destruct (leaf_member e own a Ha Hbase Hd i t Et Tx) as (s & G & B & M).
    { intros s Hs. destruct H as (Ht & Hst & _). unfold GetReflectedValue in Hs. cbn [by_id Z.leb Z.ltb Z.compare andb length Z.of_nat nth_error Z.to_nat] in Hs.
      rewrite Ht in Hs. cbn [GetReflectedPrimitive] in Hs. rewrite Ht, Hst in Hs. fold base mem in Hs.
      destruct (load 8 0 mem); [|discriminate]. destruct (Bitfield_Model.GetMask _ _); [|discriminate]. cbn [ref_eqb] in Hs.
      injection Hs as <-. match goal with |- Z.of_nat (length (to_string ?x)) < _ => pose proof (to_string_length x) end.
      change (2 ^ 64) with 18446744073709551616. lia. }
    assert (Ec : c_string s = s).
    { unfold append_buffer in B. destruct (forallb verbatim s) eqn:V; [|discriminate]. rewrite <- (app_nil_r s) at 1. change (@nil Z) with (repeat 0 0).
      apply c_string_id. apply Forall_forall. intros c Hc. rewrite forallb_forall in V. specialize (V c Hc). unfold verbatim in V. lia. }
    exists ([(c_string nm, s)], []). destruct H as (Ht & _). split.
    - intros rec. unfold SaveMember2. cbv zeta. rewrite Gn. unfold SaveValue. rewrite Ht. cbn [plain_kind]. rewrite G. cbn [option_map]. rewrite Ec. reflexivity.
    - intros n L. apply covers2_attrs, covers_one. eapply moves_eq; [|exact M].
      intros b. unfold LoadAttr. cbn [fst snd]. rewrite R0. reflexivity.
  Qed.

  Lemma leaf_flags : 0 <= offset t -> flag_value e t off mem -> leaf_ok.
  Proof.
    intros Ho (Ht & H & Hr). pose proof H as (Hin & Hty). rewrite Ht in Hty. destruct Hty as (H8 & tab & He & Hdn & Hw & Hn & Hb).
    destruct (Hr tab He) as [Hne Hrange].
    assert (Hv : 0 <= value_at off (Z.to_nat (subSize t)) mem < 2 ^ (8 * subSize t)).
    { pose proof (value_bytes mem off _ (bytes_ok_skipn base _ Ha) Hin) as V. rewrite Z2Nat.id in V by lia. exact V. }
    set (txt := flag_txt (value_at off (Z.to_nat (subSize t)) mem) (subSize t)).
    assert (Htx : forall v, text_ok (txt v) /\ as_bool (txt v) = Z.testbit (value_at off (Z.to_nat (subSize t)) mem) v) by (intros v; apply flag_txt_ok; [exact Hv|lia]).
    assert (G : forall v, In v (map snd tab) -> GetSubAt e own (Z.of_nat i) v a = Some (txt v) /\ text_ok (txt v)).
    { intros v Hv'. split; [|apply Htx]. unfold GetSubAt, GetReflectedSub. rewrite leaf_by_id, Ht. unfold txt, flag_txt.
      destruct (Z.leb_spec (subSize t * 8) v); [reflexivity|]. fold base mem. unfold nat_offset. fold off. rewrite load_ok by exact Hin.
      apply test_flag_bit. rewrite Forall_forall in Hrange. specialize (Hrange v Hv'). cbn beta in Hrange. lia. }
    set (attrs := map (fun p => (fst p, txt (snd p))) tab).
    exists ([], [Elem (c_string nm) attrs []]). split.
    - intros rec. unfold SaveMember2. cbv zeta. rewrite Gn. unfold SaveValue. rewrite Ht. cbn [plain_kind]. rewrite He.
      rewrite (flag_attrs_ok _ tab txt Hw G). reflexivity.
    - intros n L. apply covers2_kids. intros d _. apply covers_one.
      pose proof (flags_moves e t off a base tab txt Ha Hbase H Ht He (fun v _ => proj2 (Htx v))) as M. cbv zeta in M. fold attrs in M.
      eapply moves_ext; [|eapply moves_eq; [|exact M]].
      + apply (range_bits (fun _ => True)); [exact Ho|]. intros k'. unfold member_bits. rewrite Ht. unfold off. lia.
      + intros b. assert (Hne0 : attrs <> []) by (unfold attrs; destruct tab; [congruence|discriminate]).
        rewrite (leaf_kid _ _ _ _ b Hne0 R0), Ht. unfold DoFlags, SetIdAt, SetReflectedValue. rewrite leaf_ID, leaf_by_id. unfold set_value. rewrite Ht.
        reflexivity.
  Qed.

  (** elements *)
  Lemma list_bits : 0 <= offset t -> 0 <= subSize t -> 0 <= numItems t -> listing t ->
    forall k, (exists j, (j < Z.to_nat (numItems t))%nat /\ byte_range (base + element_addr off t j) (Z.to_nat (subSize t)) k) <->
      exists k', k = (8 * base + k')%nat /\ member_bits t k'.
  Proof.
    intros Ho Hs Hn Hl k. unfold element_addr.
    rewrite <- (range_bits (fun _ => True) (Z.to_nat (numItems t) * Z.to_nat (subSize t))%nat Ho).
    - rewrite <- range_split. split; intros (j & Hj & Hk); exists j; (split; [exact Hj|]); rewrite to_nat_mul in * by exact Hs; unfold byte_range in *; lia.
    - intros k'. rewrite <- Z2Nat.inj_mul by lia. unfold member_bits, off. assert (0 <= numItems t * subSize t) by nia.
      destruct Hl as [-> | [-> | ->]]; lia.
  Qed.
  Lemma element_get s j : listing t -> (j < Z.to_nat (numItems t))%nat ->
    (forall f, GetReflectedPrimitive f e (element_of t) (element_addr off t j) mem = Some s) -> GetSubAt e own (Z.of_nat i) (Z.of_nat j) a = Some s.
  Proof.
    intros Hl Hj G. unfold GetSubAt, GetReflectedSub. rewrite leaf_by_id. specialize (G 2%nat). rewrite element_of_type in G. unfold element_addr in G.
    destruct (Z.leb_spec (numItems t) (Z.of_nat j)); [lia|]. fold base mem. unfold nat_offset. fold off.
    destruct Hl as [-> | [-> | ->]]; exact G.
  Qed.
  Lemma element_set v j b : listing t \/ type t = REnumFlags ->
    SetReflectedSub e (xTypes (fst own)) (Z.of_nat i) v (Z.of_nat j) b = SetReflectedMember (set_fuel v) e (element_of t) v (element_addr off t j) b /\
    SetReflectedSub e [t] 0 v (Z.of_nat j) b = SetReflectedMember (set_fuel v) e (element_of t) v (element_addr off t j) b.
  Proof.
    intros Hl. unfold SetReflectedSub. rewrite leaf_by_id. cbn [by_id Z.leb Z.ltb Z.compare andb length Z.of_nat nth_error Z.to_nat].
    rewrite element_of_type. unfold element_addr. unfold nat_offset. fold off.
    destruct Hl as [[-> | [-> | ->]] | ->]; split; reflexivity.
  Qed.

  (* one text per element *)
  Lemma element_texts num (ty : nat -> reflType) (ad : nat -> nat) : (forall j, (j < num)%nat -> single_value e (ty j) (ad j) mem) ->
    exists h, forall j, (j < num)%nat -> (forall f, GetReflectedPrimitive f e (ty j) (ad j) mem = Some (h j)) /\ text_ok (h j) /\
      moves a (byte_range (base + ad j) (Z.to_nat (subSize (ty j)))) (fun m => put_back base m (SetReflectedMember (set_fuel (h j)) e (ty j) (h j) (ad j) (skipn base m))).
  Proof.
    intros H. exists (fun j => match GetReflectedPrimitive 2 e (ty j) (ad j) mem with Some s => s | None => [] end). intros j Hj.
    destruct (single_moves e _ _ a base Ha Hbase (H j Hj)) as (s & G & T & M). fold mem in G. rewrite (G 2%nat). auto.
  Qed.

  Lemma leaf_vector : 0 <= offset t -> vector_value e t off mem -> leaf_ok.
  Proof.
    intros Ho (Ht & Hdn & H4 & Hs & H).
    assert (Nv : subType t <> RVector).
    { intros E. specialize (H 0%nat ltac:(lia)). destruct H as [_ H]. unfold element_of in H. rewrite E in H. exact H. }
    destruct (element_texts _ (fun _ => element_of t) (element_addr off t) H) as (h & Hh). cbv beta in Hh. rewrite (element_size t Nv) in Hh.
    assert (Hl : listing t) by (right; left; exact Ht).
    set (attrs := map (fun j => (axis_name j, h j)) (seq 0 (Z.to_nat (numItems t)))).
    exists ([], [Elem (c_string nm) attrs []]). split.
    - intros rec. unfold SaveMember2. cbv zeta. rewrite Gn. unfold SaveValue. rewrite Ht. cbn [plain_kind]. rewrite Hdn.
      rewrite (vector_attrs_ok _ _ h) by (first [lia | intros j Hj; destruct (Hh j Hj) as (G & T & _); split; [apply element_get; assumption|exact T]]).
      reflexivity.
    - intros n L. apply covers2_kids. intros d _. apply covers_one.
      eapply moves_ext; [apply (list_bits Ho Hs ltac:(lia) Hl)|]. apply moves_eq with (f := DoVector e own (ID t) None attrs).
      { intros b. symmetry. assert (Hne0 : attrs <> []) by (unfold attrs; destruct (Z.to_nat (numItems t)) eqn:X; [lia|discriminate]).
        rewrite (leaf_kid _ _ _ _ b Hne0 R0), Ht. reflexivity. }
      apply covers_moves, covers_seq. intros j Hj. cbn [fst snd]. rewrite axis_name_ok by lia. unfold SetSubAt. rewrite leaf_ID.
      destruct (Hh j Hj) as (_ & _ & M). eapply moves_eq; [|exact M]. intros b. cbv beta. destruct (element_set (h j) j (skipn (snd own) b) (or_introl Hl)) as [-> _]. reflexivity.
  Qed.

  Lemma leaf_array : 0 <= offset t -> array_value e t off mem -> leaf_ok.
  Proof.
    intros Ho (Hn & Hs & [(Hl & Nf & Hk & H)|[(Ht & Hst & He & H)|(Ht & Hst & Hdn & Hds & Hsz & H)]]).
    - (* simple values *)
      assert (Nv : subType t <> RVector) by (intros E; rewrite E in Hk; cbn [In] in Hk; intuition discriminate).
      destruct (element_texts _ (fun _ => element_of t) (element_addr off t) H) as (h & Hh). cbv beta in Hh. rewrite (element_size t Nv) in Hh.
      assert (Hl' : listing t) by (destruct Hl; [left|right; right]; assumption).
      exists (map (fun j => (indexed nm (Z.of_nat j), h j)) (seq 0 (Z.to_nat (numItems t))), []). split.
      + intros rec. unfold SaveMember2. cbv zeta. rewrite Gn.
        assert (Es : SaveValue e own a t (Z.of_nat i) nm = Some None) by (unfold SaveValue; destruct Hl as [-> | ->]; reflexivity).
        rewrite Es, leaf_sub. destruct (subclass_id _ i t Hd Et) as [_ ->].
        assert (Ea : is_array t = true) by (unfold is_array; destruct Hl as [-> | ->]; reflexivity). rewrite Ea.
        assert (Pk : plain_kind (subType t) = true) by (cbn [In] in Hk; destruct Hk as [<-|[<-|[<-|[<-|[<-|[]]]]]]; reflexivity). rewrite Pk.
        apply (each_attrs t _ (fun j => (indexed nm (Z.of_nat j), h j))). intros j Hj. destruct (Hh j Hj) as (G & T & _).
        rewrite (element_get (h j) j Hl' Hj G). cbn [option_map]. rewrite (text_c_string (h j) T). reflexivity.
      + intros n L. apply covers2_attrs. eapply covers_ext; [apply (list_bits Ho Hs ltac:(lia) Hl')|]. apply covers_seq. intros j Hj.
        destruct (Hh j Hj) as (_ & _ & M). eapply moves_eq; [|exact M]. intros b. cbv beta. unfold LoadAttr. cbn [fst snd].
        rewrite (Ri Hl) by lia. unfold SetSubByHash. rewrite (described_type _ i t Hd Et).
        destruct (element_set (h j) j (skipn (snd own) b) (or_introl Hl')) as [_ ->]. reflexivity.
    - (* flags *)
      destruct (enums e (typeHash t)) as [tab|] eqn:Etab; [|congruence].
      assert (Hl' : listing t) by (left; exact Ht).
      assert (Eh : typeHash (element_of t) = typeHash t) by (unfold element_of; rewrite Hst; reflexivity).
      assert (Esz : subSize (element_of t) = subSize t) by (unfold element_of; rewrite Hst; reflexivity).
      set (val := fun j => value_at (element_addr off t j) (Z.to_nat (subSize t)) mem).
      set (txt := fun j => flag_txt (val j) (subSize t)).
      set (attrs := fun j => map (fun p => (fst p, txt j (snd p))) tab).
      assert (F : forall j, (j < Z.to_nat (numItems t))%nat -> tab <> [] /\ Forall word (map fst tab) /\ 0 <= val j < 2 ^ (8 * subSize t) /\
        forall v, In v (map snd tab) -> GetElementAt e own (Z.of_nat i) (Z.of_nat j) v a = Some (txt j v) /\ text_ok (txt j v)).
      { intros j Hj. destruct (H j Hj) as (Hte & Hsv & Hr). rewrite Eh in Hr. destruct (Hr tab Etab) as [Hne Hrange]. rewrite Esz in Hrange.
        destruct Hsv as (Hin & Hty). rewrite Hte, Esz, Eh in Hty. rewrite Esz in Hin. destruct Hty as (H8 & tab' & He' & _ & Hw & _).
        rewrite Etab in He'. injection He' as <-.
        assert (Hv : 0 <= val j < 2 ^ (8 * subSize t)).
        { pose proof (value_bytes mem (element_addr off t j) _ (bytes_ok_skipn base _ Ha) Hin) as V. rewrite Z2Nat.id in V by lia. exact V. }
        split; [exact Hne|]. split; [exact Hw|]. split; [exact Hv|]. intros v Hv'. split; [|apply flag_txt_ok; [exact Hv|lia]].
        unfold GetElementAt, GetReflectedElement. rewrite leaf_by_id. unfold is_array. rewrite Ht, Hst. cbn [negb].
        unfold txt, flag_txt. destruct (Z.leb_spec (subSize t * 8) v); cbn [orb]; [reflexivity|].
        destruct (Z.leb_spec (numItems t) (Z.of_nat j)); [lia|]. fold base mem. unfold nat_offset. fold off.
        unfold element_addr in Hin. rewrite load_ok by exact Hin. unfold val, value_at, element_addr.
        apply test_flag_bit. rewrite Forall_forall in Hrange. specialize (Hrange v Hv'). cbn beta in Hrange. lia. }
      exists ([], map (fun j => Elem (indexed nm (Z.of_nat j)) (attrs j) []) (seq 0 (Z.to_nat (numItems t)))). split.
      + intros rec. unfold SaveMember2. cbv zeta. rewrite Gn.
        assert (Es : SaveValue e own a t (Z.of_nat i) nm = Some None) by (unfold SaveValue; rewrite Ht; reflexivity).
        rewrite Es, leaf_sub. destruct (subclass_id _ i t Hd Et) as [_ ->].
        assert (Ea : is_array t = true) by (unfold is_array; rewrite Ht; reflexivity). rewrite Ea, Hst. cbn [plain_kind]. rewrite Etab.
        apply (each_kids t _ (fun j => Elem (indexed nm (Z.of_nat j)) (attrs j) [])). intros j Hj. destruct (F j Hj) as (_ & Hw & _ & G).
        rewrite (flag_attrs_ok _ tab (txt j) Hw G). reflexivity.
      + intros n L. apply covers2_kids. intros d _. eapply covers_ext; [apply (list_bits Ho Hs ltac:(lia) Hl')|]. apply covers_seq. intros j Hj.
        destruct (F j Hj) as (Hne & _ & Hv & _). destruct (H j Hj) as (Hte & Hsv & _).
        pose proof (flags_moves e (element_of t) (element_addr off t j) a base tab (txt j) Ha Hbase Hsv Hte ltac:(rewrite Eh; exact Etab)) as M.
        cbv zeta in M. rewrite Esz in M. fold (attrs j) in M.
        eapply moves_eq; [|apply M; intros v _; apply flag_txt_ok; [exact Hv|lia]].
        intros b. cbv beta.
        assert (Hne0 : attrs j <> []) by (unfold attrs; destruct tab; [congruence|discriminate]).
        rewrite (leaf_kid _ _ _ _ b Hne0 (Ri (or_introl Ht) (Z.of_nat j) ltac:(lia))), Ht, Hst.
        unfold DoFlags, SetSubAt. rewrite leaf_ID.
        destruct (element_set (flags_value (attrs j)) j (skipn (snd own) b) (or_introl Hl')) as [-> _]. reflexivity.
    - (* vectors *)
      assert (Hl' : listing t) by (left; exact Ht).
      set (ds := dec_size (typeHash t)) in *. set (dn := dec_num (typeHash t)) in *.
      set (ty1 := mkRefl (dec_type (typeHash t)) (subType t) ds (ID t) dn (offset t) (nameHash t) (typeHash t)).
      set (ty2 := mkRefl (dec_type (typeHash t)) (subType t) ds (ID t) (numItems t) (offset t) (nameHash t) (typeHash t)).
      set (ad := fun j c => (off + Z.to_nat (subSize t * Z.of_nat j) + Z.to_nat (ds * Z.of_nat c))%nat).
      assert (Hds0 : 0 <= ds) by lia.
      assert (Hsv : forall j c ty, (j < Z.to_nat (numItems t))%nat -> (c < Z.to_nat dn)%nat -> ty = ty1 \/ ty = ty2 -> single_value e ty (ad j c) mem).
      { intros j c ty Hj Hc Hty. specialize (H j c Hj Hc).
        assert (Nv : dec_type (typeHash t) <> RVector).
        { intros E. destruct H as [_ H]. unfold element_of in H. rewrite Hst in H. cbn [subType] in H. rewrite E in H. exact H. }
        unfold element_of, element_addr in H. rewrite Hst in H. cbn [subType subSize] in H.
        fold ds dn in H. eapply single_same; [| | |exact H]; destruct Hty as [-> | ->]; cbn [ty1 ty2 type subSize typeHash];
          destruct (dec_type (typeHash t)); (reflexivity || congruence). }
      assert (HX : exists h, forall j c, (j < Z.to_nat (numItems t))%nat -> (c < Z.to_nat dn)%nat ->
        GetElementAt e own (Z.of_nat i) (Z.of_nat j) (Z.of_nat c) a = Some (h j c) /\ text_ok (h j c) /\
        moves a (byte_range (base + ad j c) (Z.to_nat ds)) (SetElementAt e own (Z.of_nat i) (h j c) (Z.of_nat j) (Z.of_nat c))).
      { exists (fun j c => match GetReflectedPrimitive 2 e ty1 (ad j c) mem with Some s => s | None => [] end). intros j c Hj Hc.
        destruct (single_moves e _ _ a base Ha Hbase (Hsv j c ty1 Hj Hc (or_introl eq_refl))) as (s & G & T & _).
        destruct (single_moves e _ _ a base Ha Hbase (Hsv j c ty2 Hj Hc (or_intror eq_refl))) as (s2 & G2 & _ & M).
        fold mem in G, G2. assert (s2 = s).
        { specialize (G 2%nat). specialize (G2 2%nat). pose proof (Hsv j c ty1 Hj Hc (or_introl eq_refl)) as [_ Hty].
          cbn [GetReflectedPrimitive ty1 ty2 type subSize typeHash] in G, G2, Hty. destruct (dec_type (typeHash t)); try contradiction; congruence. }
        subst s2. rewrite (G 2%nat). split; [|split; [exact T|]].
        - unfold GetElementAt, GetReflectedElement. rewrite leaf_by_id. unfold is_array. rewrite Ht. cbn [negb].
          fold dn. destruct (Z.leb_spec (numItems t) (Z.of_nat j)); [lia|]. destruct (Z.leb_spec dn (Z.of_nat c)); [lia|]. cbn [orb].
          fold ds. fold base mem. unfold nat_offset. fold off. fold (ad j c). specialize (G 2%nat). unfold ty1 in G. rewrite Hst in G |- *. exact G.
        - eapply moves_eq; [|exact M]. intros b. cbv beta. unfold SetElementAt, SetReflectedElement. rewrite leaf_by_id. unfold is_array. rewrite Ht. cbn [negb].
          fold ds. destruct (Z.leb_spec ds (Z.of_nat c)); [lia|]. unfold nat_offset. fold off. fold (ad j c). unfold ty2. rewrite Hst. reflexivity. }
      destruct HX as (h & Hh).
      set (attrs := fun j => map (fun c => (axis_name c, h j c)) (seq 0 (Z.to_nat dn))).
      exists ([], map (fun j => Elem (indexed nm (Z.of_nat j)) (attrs j) []) (seq 0 (Z.to_nat (numItems t)))). split.
      + intros rec. unfold SaveMember2. cbv zeta. rewrite Gn.
        assert (Es : SaveValue e own a t (Z.of_nat i) nm = Some None) by (unfold SaveValue; rewrite Ht; reflexivity).
        rewrite Es, leaf_sub. destruct (subclass_id _ i t Hd Et) as [_ ->].
        assert (Ea : is_array t = true) by (unfold is_array; rewrite Ht; reflexivity). rewrite Ea, Hst. cbn [plain_kind].
        apply (each_kids t _ (fun j => Elem (indexed nm (Z.of_nat j)) (attrs j) [])). intros j Hj. fold dn.
        rewrite (vector_attrs_ok _ _ (h j)) by (first [lia | intros c Hc; destruct (Hh j c Hj Hc) as (G & T & _); split; assumption]). reflexivity.
      + intros n L. apply covers2_kids. intros d _. eapply covers_ext; [apply (list_bits Ho Hs ltac:(lia) Hl')|]. apply covers_seq. intros j Hj.
        eapply moves_ext with (R := fun k => exists c, (c < Z.to_nat dn)%nat /\ byte_range (base + ad j c) (Z.to_nat ds) k).
        * intros k. assert (E : Z.to_nat (subSize t) = (Z.to_nat dn * Z.to_nat ds)%nat) by (rewrite Hsz, Z2Nat.inj_mul by lia; reflexivity).
          rewrite E, <- range_split. unfold ad, element_addr.
          split; intros (c & Hc & Hk); exists c; (split; [exact Hc|]); rewrite (to_nat_mul ds) in * by exact Hds0; unfold byte_range in *; lia.
        * apply moves_eq with (f := DoVector e own (ID t) (Some (Z.of_nat j)) (attrs j)).
          { intros b. symmetry. assert (Hne0 : attrs j <> []) by (unfold attrs; destruct (Z.to_nat dn) eqn:X; [lia|discriminate]).
        rewrite (leaf_kid _ _ _ _ b Hne0 (Ri (or_introl Ht) (Z.of_nat j) ltac:(lia))), Ht, Hst. reflexivity. }
          apply covers_moves, covers_seq. intros c Hc. cbn [fst snd]. rewrite axis_name_ok by lia. rewrite leaf_ID. apply Hh; assumption.
  Qed.

  Lemma leaf_any : textual2 e t mem -> leaf_ok.
  Proof.
    intros (Ho & [H|[H|[H|[H|H]]]]).
    - apply leaf_simple; assumption.
    - apply leaf_flags; assumption.
    - apply leaf_bits; assumption.
    - apply leaf_vector; assumption.
    - apply leaf_array; assumption.
  Qed.
End Leaf.
