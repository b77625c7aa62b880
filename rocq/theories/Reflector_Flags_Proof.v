(** Flags: text to bits and back. *)
From Verif Require Import Base Supercore_Model StringView_Model StringView_Spec StringView_Proof Bitfield_Model
  Reflector_Model Reflector_Spec Reflector_Proof Reflector_Fmt_Proof.

Section Flags.
  Context (e : env) (hash : Z) (tab : list (list Z * Z)) (Htab : enums e hash = Some tab).

  Lemma flag_trim b1 n b2 : blanks b1 -> blanks b2 -> trimmed n -> skip_end (skip_start (b1 ++ n ++ b2)) = n.
  Proof.
    intros H1 H2 Hn. rewrite skip_start_blanks by assumption.
    pose proof (trimmed_ends n Hn) as (E1 & E2 & E3).
    destruct Hn as [(c & r & En & N1 & N2) _].
    assert (skip_start (n ++ b2) = n ++ b2) as ->.
    { rewrite En. cbn [app]. apply skip_start_id; assumption. }
    rewrite skip_end_blanks by assumption. exact E2.
  Qed.
  Lemma flag_known b1 n b2 v acc : blanks b1 -> blanks b2 -> trimmed n ->
    first_with (fun p => fst p = n) tab (n, v) -> v < 64 ->
    FlagFromEnum e (b1 ++ n ++ b2) hash acc = Some (ENone, Z.lor acc (2 ^ v)).
  Proof.
    intros H1 H2 Hn Hf Hv. unfold FlagFromEnum. rewrite flag_trim by assumption.
    pose proof (trimmed_ends n Hn) as (_ & _ & E3).
    apply value_of_name_some in Hf. rewrite Htab.
    destruct n; [congruence|]. rewrite Hf. destruct (Z.ltb_spec v 64); [reflexivity|lia].
  Qed.
  Lemma flag_null b1 b2 acc : blanks b1 -> blanks b2 -> ~ In s_NULL (map fst tab) ->
    FlagFromEnum e (b1 ++ s_NULL ++ b2) hash acc = Some (ENone, acc).
  Proof.
    intros H1 H2 Hn. unfold FlagFromEnum. rewrite flag_trim; try assumption.
    - rewrite Htab. apply value_of_name_none in Hn. unfold s_NULL at 1. rewrite Hn. reflexivity.
    - split; [exists 78, [85; 76; 76]|exists [78; 85; 76], 76]; repeat split; lia.
  Qed.

  (** process the pieces one after the other *)
  Lemma pass_name p : ~ In 124 p -> forall rest cur acc err,
    flags_loop e hash (p ++ rest) cur acc err = flags_loop e hash rest (cur ++ p) acc err.
  Proof.
    induction p as [|c p IH]; intros H rest cur acc err; [rewrite app_nil_r; reflexivity|].
    cbn [app flags_loop]. destruct (Z.eqb_spec c 124) as [->|]; [exfalso; apply H; left; reflexivity|].
    rewrite IH by (intros X; apply H; right; exact X). rewrite <- app_assoc. reflexivity.
  Qed.

  Definition piece_text (p : list Z * list Z * list Z) : list Z := fst (fst p) ++ snd (fst p) ++ snd p.
  Fixpoint pieces_text (l : list (list Z * list Z * list Z)) : list Z :=
    match l with
    | [] => []
    | [p] => piece_text p
    | p :: r => piece_text p ++ [124] ++ pieces_text r
    end.
  Definition piece_ok (p : list Z * list Z * list Z) : Prop :=
    blanks (fst (fst p)) /\ blanks (snd p) /\ trimmed (snd (fst p)) /\ ~ In 124 (snd (fst p)).
  Lemma piece_no_bar p : piece_ok p -> ~ In 124 (piece_text p).
  Proof.
    destruct p as [[b1 n] b2]. unfold piece_ok, piece_text. cbn [fst snd]. intros (H1 & H2 & _ & H4) H.
    apply in_app_or in H. destruct H as [H|H]; [|apply in_app_or in H; destruct H as [H|H]; [contradiction|]].
    - unfold blanks in H1. rewrite Forall_forall in H1. specialize (H1 _ H). lia.
    - unfold blanks in H2. rewrite Forall_forall in H2. specialize (H2 _ H). lia.
  Qed.
  Lemma piece_nonempty p : piece_ok p -> piece_text p <> [].
  Proof.
    destruct p as [[b1 n] b2]. unfold piece_ok, piece_text. cbn [fst snd]. intros (_ & _ & [(c & r & -> & _) _] & _).
    destruct b1; discriminate.
  Qed.

  Definition flag_bits (vs : list Z) (acc : Z) : Z := fold_left (fun a v => Z.lor a (2 ^ v)) vs acc.
  Lemma flag_bits_test vs : Forall (fun v => 0 <= v) vs -> forall acc i, 0 <= i ->
    (Z.testbit (flag_bits vs acc) i = true <-> Z.testbit acc i = true \/ In i vs).
  Proof.
    induction vs as [|v vs IH]; intros F acc i Hi; cbn [flag_bits fold_left In]; [tauto|].
    inversion F as [|? ? H1 H2]; subst. specialize (IH H2 (Z.lor acc (2 ^ v)) i Hi). unfold flag_bits in IH. rewrite IH.
    rewrite Z.lor_spec, orb_true_iff, Z.pow2_bits_eqb by lia. rewrite Z.eqb_eq. tauto.
  Qed.
  Lemma flag_bits_nonneg vs : Forall (fun v => 0 <= v) vs -> forall acc, 0 <= acc -> 0 <= flag_bits vs acc.
  Proof.
    induction vs as [|v vs IH]; intros F acc Ha; cbn [flag_bits fold_left]; [exact Ha|].
    inversion F as [|? ? H1 H2]; subst. apply IH; [exact H2|]. apply Z.lor_nonneg. pose proof (pow2_pos v H1). lia.
  Qed.

  Lemma pieces_loop ps vs : Forall piece_ok ps ->
    Forall2 (fun p v => first_with (fun q => fst q = snd (fst p)) tab (snd (fst p), v) /\ v < 64) ps vs ->
    forall acc, flags_loop e hash (pieces_text ps) [] acc ENone = Some (ENone, Some (flag_bits vs acc)).
  Proof.
    intros Hok H2. revert Hok. induction H2 as [|p v ps vs [Hf Hv] H2 IH]; intros Hok acc; [reflexivity|].
    inversion Hok as [|? ? P1 P2]; subst. pose proof (piece_no_bar p P1) as Nb. pose proof (piece_nonempty p P1) as Ne.
    pose proof P1 as (B1 & B2 & T & _).
    pose proof (flag_known (fst (fst p)) (snd (fst p)) (snd p) v acc B1 B2 T Hf Hv) as K. fold (piece_text p) in K.
    destruct ps as [|p2 ps].
    - cbn [pieces_text]. rewrite <- (app_nil_r (piece_text p)). rewrite pass_name by assumption. cbn [app flags_loop].
      destruct (piece_text p) eqn:E; [congruence|]. rewrite K. inversion H2; subst. reflexivity.
    - change (pieces_text (p :: p2 :: ps)) with (piece_text p ++ 124 :: pieces_text (p2 :: ps)).
      rewrite pass_name by assumption. cbn [app]. 
      change (flags_loop e hash (124 :: pieces_text (p2 :: ps)) (piece_text p) acc ENone) with
        (match FlagFromEnum e (piece_text p) hash acc with
         | None => None
         | Some (sub, acc') => if is_dest sub then Some (sub, None)
                               else flags_loop e hash (pieces_text (p2 :: ps)) [] acc' (if is_none sub then ENone else sub)
         end).
      rewrite K. cbn [is_dest is_none]. rewrite IH by assumption. reflexivity.
  Qed.

  (** printing *)
  Fixpoint joinb (l : list (list Z)) : list Z :=
    match l with
    | [] => []
    | [x] => x
    | x :: r => x ++ s_bar ++ joinb r
    end.
  Lemma joinb_snoc l x : l <> [] -> joinb (l ++ [x]) = joinb l ++ s_bar ++ x.
  Proof.
    induction l as [|y l IH]; [congruence|]. intros _. destruct l as [|z l]; [reflexivity|].
    change (joinb ((y :: z :: l) ++ [x])) with (y ++ s_bar ++ joinb ((z :: l) ++ [x])).
    rewrite IH by discriminate. change (joinb (y :: z :: l)) with (y ++ s_bar ++ joinb (z :: l)).
    rewrite <- !app_assoc. reflexivity.
  Qed.
  Lemma joinb_nonempty l : l <> [] -> Forall (fun n => n <> []) l -> joinb l <> [].
  Proof.
    destruct l as [|x l]; [congruence|]. intros _ F. inversion F; subst. destruct l; cbn [joinb]; [assumption|].
    destruct x; [congruence|discriminate].
  Qed.
  Definition bit_list (v t : Z) (k : nat) : list Z := filter (fun i => Z.testbit v i) (map (fun j => t + Z.of_nat j) (seq 0 k)).
  Lemma bit_list_S v t k : bit_list v t (S k) = (if Z.testbit v t then [t] else []) ++ bit_list v (t + 1) k.
  Proof.
    unfold bit_list. cbn [seq map filter]. rewrite Z.add_0_r.
    rewrite <- seq_shift, map_map.
    rewrite (map_ext (fun x => t + Z.of_nat (S x)) (fun j => t + 1 + Z.of_nat j)) by (intros; lia).
    destruct (Z.testbit v t); reflexivity.
  Qed.
  Lemma bit_list_in v t k i : In i (bit_list v t k) <-> t <= i < t + Z.of_nat k /\ Z.testbit v i = true.
  Proof.
    unfold bit_list. rewrite filter_In, in_map_iff. split.
    - intros [(j & <- & Hj) Hb]. apply in_seq in Hj. split; [lia|exact Hb].
    - intros [Hr Hb]. split; [|exact Hb]. exists (Z.to_nat (i - t)). split; [lia|]. apply in_seq. lia.
  Qed.

  Lemma print_flags_names v : (forall n x, In (n, x) tab -> n <> []) -> forall k t names,
    Forall (fun n => n <> []) names ->
    (forall i, t <= i < t + Z.of_nat k -> Z.testbit v i = true -> exists n, name_of_value i tab = Some n) ->
    exists ns, Forall2 (fun i n => name_of_value i tab = Some n) (bit_list v t k) ns /\
      print_flags tab v k t (joinb names) = joinb (names ++ ns).
  Proof.
    intros Hne. induction k as [|k IH]; intros t names F H.
    - exists []. split; [constructor|]. rewrite app_nil_r. reflexivity.
    - rewrite bit_list_S. cbn [print_flags]. destruct (Z.testbit v t) eqn:Eb.
      + destruct (H t ltac:(lia) Eb) as (n & En). rewrite En.
        assert (Nn : n <> []).
        { apply name_of_value_some in En. destruct En as (a & z & E & _). apply (Hne n t). rewrite E. apply in_elt. }
        assert (E : match joinb names with [] => [] | _ => joinb names ++ s_bar end ++ n = joinb (names ++ [n])).
        { destruct names as [|x names]; [reflexivity|]. rewrite joinb_snoc by discriminate.
          destruct (joinb (x :: names)) eqn:X.
          - exfalso. apply (joinb_nonempty (x :: names)); [discriminate|assumption|assumption].
          - rewrite <- app_assoc. reflexivity. }
        rewrite E.
        destruct (IH (t + 1) (names ++ [n])) as (ns & F2 & P).
        { apply Forall_app. split; [assumption|constructor; [assumption|constructor]]. }
        { intros i Hi. apply H. lia. }
        exists (n :: ns). split; [constructor; assumption|]. rewrite P, <- app_assoc. reflexivity.
      + destruct (IH (t + 1) names F) as (ns & F2 & P); [intros i Hi; apply H; lia|].
        exists ns. split; [exact F2|exact P].
  Qed.

  Fixpoint decorate (lead : list Z) (l : list (list Z)) : list (list Z * list Z * list Z) :=
    match l with
    | [] => []
    | [n] => [(lead, n, [])]
    | n :: r => (lead, n, [32]) :: decorate [32] r
    end.
  Lemma decorate_text l : forall lead, l <> [] -> pieces_text (decorate lead l) = lead ++ joinb l.
  Proof.
    induction l as [|n l IH]; intros lead H; [congruence|]. destruct l as [|n2 l].
    - cbn. rewrite app_nil_r. reflexivity.
    - change (decorate lead (n :: n2 :: l)) with ((lead, n, [32]) :: decorate [32] (n2 :: l)).
      specialize (IH [32] ltac:(discriminate)).
      destruct (decorate [32] (n2 :: l)) as [|q qs] eqn:E; [destruct l; discriminate E|].
      change (pieces_text ((lead, n, [32]) :: q :: qs)) with (piece_text (lead, n, [32]) ++ [124] ++ pieces_text (q :: qs)).
      rewrite IH. unfold piece_text. cbn [fst snd]. change (joinb (n :: n2 :: l)) with (n ++ s_bar ++ joinb (n2 :: l)).
      unfold s_bar. rewrite <- !app_assoc. reflexivity.
  Qed.
  Lemma decorate_ok l : (forall n, In n l -> trimmed n /\ ~ In 124 n) -> forall lead, blanks lead -> Forall piece_ok (decorate lead l).
  Proof.
    assert (B : blanks [32]) by (constructor; [auto|constructor]).
    induction l as [|n l IH]; intros H lead Hl; [constructor|]. destruct (H n (or_introl eq_refl)) as [T N].
    destruct l as [|n2 l].
    - constructor; [|constructor]. repeat split; try assumption; constructor || apply T.
    - change (decorate lead (n :: n2 :: l)) with ((lead, n, [32]) :: decorate [32] (n2 :: l)).
      constructor; [repeat split; try assumption; apply T|]. apply IH; [intros x Hx; apply H; right; exact Hx|exact B].
  Qed.
  Lemma decorate_names l : forall lead, map (fun p => snd (fst p)) (decorate lead l) = l.
  Proof.
    induction l as [|n l IH]; intros lead; [reflexivity|]. destruct l as [|n2 l]; [reflexivity|].
    change (decorate lead (n :: n2 :: l)) with ((lead, n, [32]) :: decorate [32] (n2 :: l)). cbn [map]. rewrite IH. reflexivity.
  Qed.

  (** with distinct names, the first value of the first name of [i] is [i] *)
  Lemma nodup_first n v : NoDup (map fst tab) -> In (n, v) tab -> first_with (fun q => fst q = n) tab (n, v).
  Proof.
    intros Hd Hin. apply in_split in Hin. destruct Hin as (a & z & ->). exists a, z. repeat split.
    rewrite map_app in Hd. cbn [map fst] in Hd. apply NoDup_remove_2 in Hd.
    apply Forall_forall. intros y Hy E. apply Hd. apply in_or_app. left. apply in_map_iff. exists y. auto.
  Qed.
End Flags.
