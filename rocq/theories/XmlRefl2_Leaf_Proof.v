(** Values written one by one: flags, components, names with an index. *)
From Verif Require Import Base Jenkins_Model FileInfo_Model StringView_Model StringView_Spec StringView_Proof Reflector_Model Reflector_Spec
  Reflector_Proof Reflector_Fmt_Proof Reflector_Flags_Proof Reflector_Props RefAccess_Model XmlRefl_Model XmlRefl_Spec XmlRefl_Leaf_Proof
  XmlRefl_Bits_Proof XmlRefl_Names_Proof XmlRefl_Proof XmlRefl2_Model XmlRefl2_Spec.

Lemma text_c_string s : text_ok s -> c_string s = s.
Proof.
  intros F. rewrite <- (app_nil_r s) at 1. change (@nil Z) with (repeat 0 0). apply c_string_id. eapply Forall_impl; [|exact F]. cbn beta. intros; lia.
Qed.
Lemma word_c_string s : word s -> c_string s = s.
Proof. intros H. apply (word_read s H). Qed.

(** ** Flags *)
Definition flag_piece (n : list Z) : list Z * list Z * list Z := ([], n, []).
Lemma removelast_pieces ns : ns <> [] -> removelast (concat (map (fun n => n ++ [124]) ns)) = pieces_text (map flag_piece ns).
Proof.
  intros H. assert (E : concat (map (fun n => n ++ [124]) ns) = pieces_text (map flag_piece ns) ++ [124]).
  { induction ns as [|n ns IH]; [congruence|]. destruct ns as [|m ns].
    - cbn [map concat pieces_text]. unfold piece_text, flag_piece. cbn [fst snd app]. rewrite !app_nil_r. reflexivity.
    - change (pieces_text (map flag_piece (n :: m :: ns))) with (piece_text (flag_piece n) ++ [124] ++ pieces_text (map flag_piece (m :: ns))).
      cbn [map concat] in *. rewrite IH by discriminate. unfold piece_text, flag_piece. cbn [fst snd app]. rewrite app_nil_r, <- !app_assoc. reflexivity. }
  rewrite E. apply removelast_last.
Qed.

Section Flags.
  Context (e : env) (hash : Z) (tab : list (list Z * Z)) (Htab : enums e hash = Some tab) (Hd : NoDup (map fst tab))
    (Hw : Forall word (map fst tab)) (Hnull : ~ In s_NULL (map fst tab)).
  (* the text written for a flag: absent flags may be written as anything that is not true *)
  Context (v : Z) (txt : Z -> list Z)
    (Htxt : forall i, In i (map snd tab) -> as_bool (txt i) = Z.testbit v i)
    (Hv : 0 <= v < 2 ^ 64) (Hbits : forall i, 0 <= i < 64 -> Z.testbit v i = true -> In i (map snd tab)).

  Definition set_names : list (list Z * Z) := filter (fun p => Z.testbit v (snd p)) tab.
  Lemma flag_text_names : flag_text (map (fun p => (fst p, txt (snd p))) tab) = concat (map (fun n => n ++ [124]) (map fst set_names)).
  Proof.
    unfold set_names. clear Hbits Htab Hd Hw Hnull. induction tab as [|p l IH]; [reflexivity|].
    cbn [map flag_text fst snd filter]. rewrite Htxt by (left; reflexivity). rewrite IH by (intros i Hi; apply Htxt; right; exact Hi).
    destruct (Z.testbit v (snd p)); reflexivity.
  Qed.
  Lemma set_names_in p : In p set_names -> In p tab /\ 0 <= snd p < 64.
  Proof.
    intros H. apply filter_In in H. destruct H as [H T]. split; [exact H|].
    destruct (Z.lt_ge_cases (snd p) 0); [rewrite Z.testbit_neg_r in T by lia; discriminate|].
    destruct (Z.lt_ge_cases (snd p) 64); [lia|]. rewrite (testbit_above 64) in T by lia. discriminate.
  Qed.
  Lemma flags_read : exists s, flags_value (map (fun p => (fst p, txt (snd p))) tab) = s /\
    SetEnumFlags e (skip_start s) hash = Some (ENone, Some v).
  Proof.
    unfold flags_value. rewrite flag_text_names.
    destruct set_names as [|p0 l0] eqn:E0.
    - exists s_NULL. split; [reflexivity|].
      assert (E : v = 0).
      { apply Z.bits_inj'. intros i Hi. rewrite Z.testbit_0_l. destruct (Z.testbit v i) eqn:T; [|reflexivity]. exfalso.
        assert (Hi64 : i < 64) by (destruct (Z.lt_ge_cases i 64); [assumption|rewrite (testbit_above 64) in T by lia; discriminate]).
        pose proof (Hbits i ltac:(lia) T) as X. apply in_map_iff in X. destruct X as (p & <- & Hp).
        assert (Y : In p set_names) by (apply filter_In; auto). rewrite E0 in Y. exact Y. }
      unfold SetEnumFlags. change (skip_start s_NULL) with s_NULL.
      pose proof (flag_null e hash tab Htab [] [] 0 ltac:(constructor) ltac:(constructor) Hnull) as K.
      rewrite <- (app_nil_r s_NULL). rewrite pass_name by (cbn; lia).
      change (flags_loop e hash [] ([] ++ s_NULL) 0 ENone) with
        (match FlagFromEnum e s_NULL hash 0 with
           | None => None
           | Some (sub, acc') =>
             if is_dest sub then Some (sub, None)
             else Some (if is_none sub then ENone else sub, Some acc')
           end).
      cbn [app] in K. rewrite app_nil_r in K. rewrite K, E. reflexivity.
    - exists (removelast (concat (map (fun n => n ++ [124]) (map fst (p0 :: l0))))). split.
      { cbn [map concat]. destruct (fst p0); reflexivity. }
      rewrite removelast_pieces by discriminate. rewrite <- E0.
      assert (W : forall p, In p set_names -> word (fst p)).
      { intros p Hp. rewrite Forall_forall in Hw. apply Hw. apply in_map. apply set_names_in. exact Hp. }
      assert (Es : skip_start (pieces_text (map flag_piece (map fst set_names))) = pieces_text (map flag_piece (map fst set_names))).
      { pose proof (W p0 ltac:(rewrite E0; left; reflexivity)) as W0. rewrite E0. cbn [map].
        destruct (word_text _ W0) as (_ & _ & [(c & r & Ec & N1 & N2) _] & _).
        destruct (map flag_piece (map fst l0)); cbn [pieces_text]; unfold piece_text, flag_piece; cbn [fst snd app]; rewrite Ec; cbn [app];
          apply skip_start_id; assumption. }
      rewrite Es. unfold SetEnumFlags.
      rewrite (pieces_loop e hash tab Htab (map flag_piece (map fst set_names)) (map snd set_names)).
      + do 3 f_equal.
        assert (F0 : Forall (fun i => 0 <= i) (map snd set_names)).
        { apply Forall_forall. intros i Hi. apply in_map_iff in Hi. destruct Hi as (p & <- & Hp). apply set_names_in in Hp. lia. }
        apply Z.bits_inj'. intros i Hi. pose proof (flag_bits_test _ F0 0 i Hi) as T.
        destruct (Z.testbit (flag_bits (map snd set_names) 0) i); symmetry.
        * destruct T as [T _]. destruct (T eq_refl) as [X|X]; [rewrite Z.testbit_0_l in X; discriminate|].
          apply in_map_iff in X. destruct X as (p & <- & Hp). apply filter_In in Hp. apply Hp.
        * destruct (Z.testbit v i) eqn:Tv; [|reflexivity]. destruct T as [_ T]. exfalso. enough (false = true) by discriminate. apply T. right.
          assert (Hi64 : i < 64) by (destruct (Z.lt_ge_cases i 64); [assumption|rewrite (testbit_above 64) in Tv by lia; discriminate]).
          pose proof (Hbits i ltac:(lia) Tv) as X. apply in_map_iff in X. destruct X as (p & <- & Hp). apply in_map. apply filter_In. auto.
      + apply Forall_forall. intros q Hq. apply in_map_iff in Hq. destruct Hq as (n & <- & Hn). apply in_map_iff in Hn.
        destruct Hn as (p & <- & Hp). destruct (word_text _ (W p Hp)) as (_ & _ & T & B). repeat split; cbn [flag_piece fst snd]; try constructor; try apply T; exact B.
      + assert (G : forall l, (forall p, In p l -> In p set_names) ->
          Forall2 (fun p i => first_with (fun q => fst q = snd (fst p)) tab (snd (fst p), i) /\ i < 64) (map flag_piece (map fst l)) (map snd l)).
        { induction l as [|p l IH]; intros H; [constructor|]. cbn [map]. constructor; [|apply IH; intros q Hq; apply H; right; exact Hq].
          destruct (set_names_in p (H p (or_introl eq_refl))) as [Hp Hr]. split; [|lia]. cbn [flag_piece fst snd].
          apply (nodup_first e hash tab Htab); [exact Hd|]. destruct p; exact Hp. }
        apply G. auto.
  Qed.
End Flags.

(** ** Setting parts *)
Lemma bytes_ok_skipn n a : bytes_ok a -> bytes_ok (skipn n a).
Proof. intros H. unfold bytes_ok in *. rewrite Forall_forall in *. intros x Hx. apply H. apply skipn_In in Hx. exact Hx. Qed.
Lemma bytes_ok_firstn n a : bytes_ok a -> bytes_ok (firstn n a).
Proof. intros H. unfold bytes_ok in *. rewrite Forall_forall in *. intros x Hx. apply H. apply firstn_In in Hx. exact Hx. Qed.
Definition byte_range (addr n : nat) (k : nat) : Prop := (8 * addr <= k < 8 * (addr + n))%nat.
Lemma replaced_moves a base addr n f : bytes_ok a -> (base <= length a)%nat -> inside addr n (skipn base a) ->
  (forall b, length b = length (skipn base a) -> exists err b', f b = Some (err, b') /\ replaced b addr (bytes_at addr n (skipn base a)) b') ->
  moves a (byte_range (base + addr) n) (fun mem => put_back base mem (f (skipn base mem))).
Proof.
  intros Ha Hb Hin Hf b L B. destruct (Hf (skipn base b)) as (err & b' & E & R); [rewrite !skipn_length; lia|].
  rewrite E. cbn [put_back]. eexists. split; [reflexivity|].
  assert (B' : bytes_ok b').
  { eapply replaced_bytes_ok; [apply bytes_ok_skipn; exact B| |exact R]. apply bytes_at_ok. apply bytes_ok_skipn. exact Ha. }
  split; [unfold bytes_ok; apply Forall_app; split; [apply bytes_ok_firstn; exact B|exact B']|].
  eapply copied_ext; [|apply copied_shift; [exact L|exact Hb|apply replaced_copied; [|exact Hin|exact R]; rewrite !skipn_length; lia]].
  intros k. unfold byte_range. split; [intros (k' & -> & Hk); lia|]. intros Hk. exists (k - 8 * base)%nat. lia.
Qed.
Lemma single_moves e t addr a base : bytes_ok a -> (base <= length a)%nat -> single_value e t addr (skipn base a) ->
  exists s, (forall f, GetReflectedPrimitive f e t addr (skipn base a) = Some s) /\ text_ok s /\
    moves a (byte_range (base + addr) (Z.to_nat (subSize t))) (fun mem => put_back base mem (SetReflectedMember (set_fuel s) e t s addr (skipn base mem))).
Proof.
  intros Ha Hb H. destruct (carries_single e t addr (skipn base a) (bytes_ok_skipn _ _ Ha) H) as (s & G & _ & T & P).
  exists s. split; [exact G|]. split; [exact T|]. apply (replaced_moves a base addr _ (fun m => SetReflectedMember (set_fuel s) e t s addr m)); [exact Ha|exact Hb|apply H|].
  intros b L. apply P. exact L.
Qed.
(** flags by name *)
Lemma flags_moves e t addr a base tab txt : bytes_ok a -> (base <= length a)%nat -> single_value e t addr (skipn base a) -> type t = REnumFlags ->
  enums e (typeHash t) = Some tab ->
  (forall i, In i (map snd tab) -> as_bool (txt i) = Z.testbit (value_at addr (Z.to_nat (subSize t)) (skipn base a)) i) ->
  let s := flags_value (map (fun p => (fst p, txt (snd p))) tab) in
  moves a (byte_range (base + addr) (Z.to_nat (subSize t))) (fun mem => put_back base mem (SetReflectedMember (set_fuel s) e t s addr (skipn base mem))).
Proof.
  intros Ha Hb H Ht He Htxt s. pose proof (bytes_ok_skipn base _ Ha) as Hs. destruct H as (Hin & H). rewrite Ht in H.
  destruct H as (H8 & tab' & He' & Hd & Hw & Hn & Hbits). rewrite He in He'. injection He' as <-.
  assert (Hv : 0 <= value_at addr (Z.to_nat (subSize t)) (skipn base a) < 2 ^ (8 * subSize t)).
  { pose proof (value_bytes (skipn base a) addr _ Hs Hin) as V. rewrite Z2Nat.id in V by lia. exact V. }
  assert (Hp : 2 ^ (8 * subSize t) <= 2 ^ 64) by (apply Z.pow_le_mono_r; lia).
  destruct (flags_read e (typeHash t) tab He Hd Hw Hn _ txt Htxt) as (s' & Es & R).
  { lia. }
  { intros i Hi T. apply Hbits; [|exact T]. destruct (Z.lt_ge_cases i (8 * subSize t)); [lia|]. rewrite (testbit_above (8 * subSize t)) in T by lia. discriminate. }
  fold s in Es. subst s'.
  apply (replaced_moves a base addr _ (fun m => SetReflectedMember (set_fuel s) e t s addr m)); [exact Ha|exact Hb|exact Hin|].
  intros b L. unfold set_fuel. cbn [SetReflectedMember]. rewrite Ht, R. cbn [copy_value]. destruct (Z.leb_spec (subSize t) 8); [|lia].
  rewrite le_bytes_at by assumption.
  destruct (store_ok (bytes_at addr (Z.to_nat (subSize t)) (skipn base a)) addr b) as (b' & -> & Rb).
  { rewrite bytes_at_length by exact Hin. unfold inside in *. lia. }
  exists ENone, b'. split; [reflexivity|exact Rb].
Qed.
(** what is written for a flag *)
Lemma test_flag_bit bs i : i < 31 -> test_flag bs i = Some (if Z.testbit (le_value bs) i then s_true else s_false).
Proof. intros H. unfold test_flag. cbv zeta. destruct (Z.ltb_spec i 31); [reflexivity|lia]. Qed.

(** ** Names *)
Definition no_dash (n : list Z) : Prop := ~ In 45 n.
Lemma char_in_In s c i : char_in s [c] i -> In c s.
Proof.
  intros (x & E & [<-|[]]). unfold char_at in E. apply nth_error_In in E. exact E.
Qed.
Lemma find_none n : no_dash n -> sv_find n [45] 0 = Some npos.
Proof.
  intros H. destruct (find_char_spec n 45 0 ltac:(lia)) as (r & E & [(_ & Q & _)|[-> _]]); [|exact E].
  exfalso. apply H. apply char_in_In in Q. exact Q.
Qed.
Lemma find_dash n d ds : no_dash n -> sv_find (n ++ 45 :: d :: ds) [45] 0 = Some (Z.of_nat (length n)).
Proof.
  intros H. assert (Q0 : char_in (n ++ 45 :: d :: ds) [45] (Z.of_nat (length n))).
  { exists 45. split; [|left; reflexivity]. unfold char_at.
    rewrite Nat2Z.id, nth_error_app2 by lia. rewrite Nat.sub_diag. reflexivity. }
  assert (Hs : size (n ++ 45 :: d :: ds) - 1 > Z.of_nat (length n)) by (unfold size; rewrite app_length; cbn [length]; lia).
  destruct (find_char_spec (n ++ 45 :: d :: ds) 45 0 ltac:(lia)) as (r & -> & [(Hr & Q & Hl)|[-> Hl]]).
  - f_equal. destruct (Z.lt_trichotomy r (Z.of_nat (length n))) as [C|[C|C]]; [|exact C|exfalso; apply (Hl (Z.of_nat (length n))); [lia|exact Q0]].
    exfalso. destruct Q as (x & E & [<-|[]]). unfold char_at in E.
    rewrite nth_error_app1 in E by lia. apply H. apply nth_error_In in E. exact E.
  - exfalso. apply (Hl (Z.of_nat (length n))); [lia|exact Q0].
Qed.
Lemma read_plain n : no_dash n -> read_name n = Some (MakeHash n, None).
Proof. intros H. unfold read_name. rewrite find_none by exact H. reflexivity. Qed.
Lemma word_no_dash n : word n -> no_dash n.
Proof. intros [_ F] X. rewrite Forall_forall in F. specialize (F _ X). cbn beta in F. lia. Qed.
Lemma hash_no_dash h : 0 <= h < 2 ^ 32 -> no_dash (c_string (hash_name h)).
Proof.
  intros H. assert (D : digits 16 (hex_digits 8 h) h) by (apply hex_digits_ok; [change (16 ^ Z.of_nat 8) with (2 ^ 32)|]; lia).
  pose proof (digits_all _ _ _ D) as F.
  assert (G : Forall (fun c => c <> 0 /\ c <> 45) ([104; 58] ++ hex_digits 8 h)).
  { constructor; [lia|]. constructor; [lia|]. eapply Forall_impl; [|exact F]. cbn beta. unfold is_digit. intros c (d & Hc). lia. }
  unfold hash_name, pad15. rewrite c_string_id by (eapply Forall_impl; [|exact G]; cbn beta; tauto).
  intros X. rewrite Forall_forall in G. specialize (G _ X). cbn beta in G. tauto.
Qed.
Lemma indexed_text n s : word n -> indexed n s = n ++ 45 :: to_string s.
Proof.
  intros [_ F]. unfold indexed. rewrite <- (app_nil_r (n ++ [45] ++ to_string s)). change (@nil Z) with (repeat 0 0). rewrite c_string_id; [reflexivity|].
  apply Forall_app. split; [eapply Forall_impl; [|exact F]; cbn beta; intros; lia|]. constructor; [lia|].
  destruct (to_string_ok s) as [_ T]. eapply Forall_impl; [|exact T]. cbn beta. intros; lia.
Qed.
Lemma read_indexed n s : word n -> Z.of_nat (length n) < 2 ^ 63 -> 0 <= s < 2 ^ 63 -> read_name (indexed n s) = Some (jenkins 64 n, Some s).
Proof.
  intros W L Hs. rewrite indexed_text by exact W. pose proof (to_string_nonempty s) as Ne.
  assert (Ed : exists d ds, to_string s = d :: ds) by (destruct (to_string s) as [|d ds]; [congruence|exists d, ds; reflexivity]).
  destruct Ed as (d & ds & Ed). unfold read_name. rewrite Ed at 1. rewrite (find_dash n d ds (word_no_dash n W)).
  destruct (Z.eqb_spec (Z.of_nat (length n)) npos) as [X|_]; [exfalso; unfold npos in X; change (2 ^ 64) with 18446744073709551616 in X; change (2 ^ 63) with 9223372036854775808 in L; lia|].
  cbv zeta. replace (Z.to_nat (Z.of_nat (length n) + 1)) with (length n + 1)%nat by lia.
  rewrite skipn_app, skipn_all2 by lia. replace (length n + 1 - length n)%nat with 1%nat by lia. cbn [app skipn].
  rewrite atoll_to_string by exact Hs.
  destruct (Z.eqb_spec s npos) as [X|_]; [exfalso; unfold npos in X; change (2 ^ 64) with 18446744073709551616 in X; change (2 ^ 63) with 9223372036854775808 in Hs; lia|].
  rewrite Nat2Z.id, firstn_app, firstn_all2 by lia. rewrite Nat.sub_diag. cbn [firstn]. rewrite app_nil_r.
  destruct W as [Hn F]. destruct n as [|c [|c2 n]]; [congruence| |].
  - cbn [app]. inversion F as [|? ? Hc _]; subst.
    assert (Hcase : match c :: 45 :: to_string s with 104 :: 58 :: rest => u32 (strtoull rest 16) | _ => jenkins 64 [c] end = jenkins 64 [c]).
    { destruct (Z.eq_dec c 104) as [-> | Nc]; [reflexivity|]. clear - Nc. destruct c as [|p|p]; try reflexivity. do 8 (try (destruct p as [p|p|]; try reflexivity; try congruence)). }
    rewrite Hcase. reflexivity.
  - cbn [app]. inversion F as [|? ? Hc F1]; subst. inversion F1 as [|? ? Hd _]; subst.
    assert (N58 : c2 <> 58) by lia.
    assert (Hcase : forall r (x : Z), match c :: c2 :: r with 104 :: 58 :: rest => u32 (strtoull rest 16) | _ => x end = x).
    { intros r x. clear - N58. destruct c as [|p|p]; try reflexivity. do 8 (try (destruct p as [p|p|]; try reflexivity)).
      destruct c2 as [|p|p]; try reflexivity. do 8 (try (destruct p as [p|p|]; try reflexivity)). congruence. }
    rewrite Hcase. reflexivity.
Qed.
