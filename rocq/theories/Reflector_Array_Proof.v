(** Arrays: text to elements. *)
From Verif Require Import Base Supercore_Model StringView_Model StringView_Spec StringView_Proof Bitfield_Model
  Reflector_Model Reflector_Spec Reflector_Proof Reflector_Fmt_Proof.

Definition element_text (e : list Z) : Prop := plain_element e \/ bracketed_element e.

Lemma not_special c : ~ special c -> c <> 44 /\ opening c = false /\ closing c = false.
Proof. unfold special, opening, closing. cbn [In]. intros H. repeat split; lia. Qed.

Section Loop.
  Context (f : list Z -> nat -> list Z -> option (ErrorType * list Z)) (num size : Z) (base : nat).
  Notation loop := (array_loop f num size base).

  Lemma loop_cons c r cur scope k mem : loop (c :: r) cur scope k mem =
    let isEnding := match r with [] => true | _ => false end in
    let scope' := if closing c && scope then false else scope in
    if scope' || opening c then loop r (cur ++ [c]) true k mem
    else if (c =? 44) || isEnding then
      let cValue := skip_start (if isEnding then cur ++ [c] else cur) in
      let empty := match cValue with [] => true | _ => false end in
      if empty && (k <? num) then Some (EShortInput, mem)
      else if negb empty && (num <=? k) then Some (EOutOfRange, mem)
      else match f cValue (base + Z.to_nat (size * k))%nat mem with
           | None => None
           | Some (_, mem') => loop r [] scope' (k + 1) mem'
           end
    else loop r (cur ++ [c]) scope' k mem.
  Proof. reflexivity. Qed.

  Lemma pass_inert e : Forall (fun c => ~ special c) e -> forall r cur k mem, r <> [] ->
    loop (e ++ r) cur false k mem = loop r (cur ++ e) false k mem.
  Proof.
    induction e as [|c e IH]; intros F r cur k mem Hr; [rewrite app_nil_r; reflexivity|].
    inversion F as [|? ? H1 H2]; subst. apply not_special in H1. destruct H1 as (N & O & C).
    cbn [app]. rewrite loop_cons. cbv zeta. rewrite C, O. cbn [andb orb].
    destruct (Z.eqb_spec c 44); [contradiction|]. cbn [orb].
    assert (Hn : e ++ r <> []) by (destruct e; [exact Hr|discriminate]).
    destruct (e ++ r) eqn:X; [congruence|]. rewrite <- X. rewrite IH by assumption. rewrite <- app_assoc. reflexivity.
  Qed.
  Lemma pass_body e : Forall (fun c => ~ In c [93; 34; 41; 125]) e -> forall r cur k mem,
    loop (e ++ r) cur true k mem = loop r (cur ++ e) true k mem.
  Proof.
    induction e as [|c e IH]; intros F r cur k mem; [rewrite app_nil_r; reflexivity|].
    inversion F as [|? ? H1 H2]; subst. cbn [app]. rewrite loop_cons. cbv zeta.
    replace (closing c) with false by (unfold closing; cbn [In] in H1; lia). cbn [andb orb].
    rewrite IH by assumption. rewrite <- app_assoc. reflexivity.
  Qed.
  Lemma pass_bracketed e : bracketed_element e -> forall r cur k mem, r <> [] ->
    loop (e ++ r) cur false k mem = loop r (cur ++ e) false k mem.
  Proof.
    intros (o & body & c & -> & Ho & Hc & F) r cur k mem Hr.
    cbn [app]. rewrite loop_cons. cbv zeta.
    assert (opening o = true) as -> by (unfold opening; cbn [In] in Ho; lia).
    rewrite andb_false_r. cbn [orb].
    rewrite <- app_assoc. rewrite pass_body by assumption. cbn [app]. rewrite loop_cons. cbv zeta.
    assert (closing c = true) as -> by (unfold closing; cbn [In] in Hc; lia). cbn [andb orb].
    assert (opening c = false) as -> by (unfold opening; cbn [In] in Hc; lia).
    destruct (Z.eqb_spec c 44); [cbn [In] in Hc; lia|]. cbn [orb].
    destruct r; [congruence|]. f_equal. rewrite <- !app_assoc. reflexivity.
  Qed.
  Lemma pass_element e : element_text e -> forall r cur k mem, r <> [] ->
    loop (e ++ r) cur false k mem = loop r (cur ++ e) false k mem.
  Proof. intros [[F _]|B]; [apply pass_inert|apply pass_bracketed]; assumption. Qed.

  (** what happens at the end of an element *)
  Definition finish (cur : list Z) (k : Z) (mem : list Z) (next : list Z -> option (ErrorType * list Z)) :=
    let cValue := skip_start cur in
    let empty := match cValue with [] => true | _ => false end in
    if empty && (k <? num) then Some (EShortInput, mem)
    else if negb empty && (num <=? k) then Some (EOutOfRange, mem)
    else match f cValue (base + Z.to_nat (size * k))%nat mem with
         | None => None
         | Some (_, mem') => next mem'
         end.

  Lemma last_element e : element_text e -> forall cur k mem,
    loop e cur false k mem = finish (cur ++ e) k mem (fun mem' => Some (ENone, mem')).
  Proof.
    intros [[F (c & r & E & H1 & H2)]|(o & body & c & -> & Ho & Hc & F)] cur k mem.
    - assert (Hne : e <> []) by (rewrite E; discriminate).
      destruct (exists_last Hne) as (e' & x & E'). rewrite E' in F |- *.
      apply Forall_app in F. destruct F as [F1 F2]. inversion F2 as [|? ? Hx _]; subst x0 l.
      rewrite pass_inert by (assumption || discriminate).
      apply not_special in Hx. destruct Hx as (N & O & C).
      rewrite loop_cons. cbv zeta. rewrite C, O. cbn [andb orb]. rewrite orb_true_r.
      rewrite <- app_assoc. reflexivity.
    - rewrite loop_cons. cbv zeta.
      assert (opening o = true) as -> by (unfold opening; cbn [In] in Ho; lia).
      rewrite andb_false_r. cbn [orb]. rewrite pass_body by assumption. rewrite loop_cons. cbv zeta.
      assert (closing c = true) as -> by (unfold closing; cbn [In] in Hc; lia). cbn [andb orb].
      assert (opening c = false) as -> by (unfold opening; cbn [In] in Hc; lia).
      rewrite orb_true_r. rewrite <- !app_assoc. reflexivity.
  Qed.

  Lemma comma cur k mem r : r <> [] ->
    loop (44 :: r) cur false k mem = finish cur k mem (fun mem' => loop r [] false (k + 1) mem').
  Proof. intros Hr. rewrite loop_cons. cbn. destruct r; [congruence|]. reflexivity. Qed.

  Lemma element_start e b : element_text e -> blanks b -> skip_start (b ++ e) = e /\ e <> [].
  Proof using.
    clear f num size base. intros He Hb. rewrite skip_start_blanks by assumption.
    destruct He as [[F (c & r & -> & H1 & H2)]|(o & body & c & -> & Ho & Hc & F)].
    - split; [apply skip_start_id; assumption|discriminate].
    - split; [apply skip_start_id; cbn [In] in Ho; lia|discriminate].
  Qed.
  Lemma blanks_inert b : blanks b -> Forall (fun c => ~ special c) b.
  Proof. intros H. eapply Forall_impl; [|exact H]. unfold special. cbn [In]. intros c [-> | ->]; lia. Qed.

  (** all elements in turn, errors of single elements ignored *)
  Fixpoint set_all (es : list (list Z)) (k : Z) (mem : list Z) : option (ErrorType * list Z) :=
    match es with
    | [] => Some (ENone, mem)
    | e :: r => match f e (base + Z.to_nat (size * k))%nat mem with
                | None => None
                | Some (_, mem') => set_all r (k + 1) mem'
                end
    end.

  Lemma array_text_nonempty b e l : element_text e -> array_text ((b, e) :: l) <> [].
  Proof using.
    clear f num size base. intros He. destruct (element_start e [] He ltac:(constructor)) as [_ Hne].
    cbn [array_text]. destruct l; destruct b; cbn; try discriminate; destruct e; congruence || discriminate.
  Qed.

  Lemma loop_elements l : Forall (fun p => blanks (fst p) /\ element_text (snd p)) l -> l <> [] ->
    forall k mem, k + Z.of_nat (length l) <= num ->
    loop (array_text l) [] false k mem = set_all (map snd l) k mem.
  Proof.
    induction l as [|[b e] l IH]; intros F Hne k mem Hk; [congruence|].
    inversion F as [|? ? H1 H2]; subst. destruct H1 as [Hb He]. cbn [fst snd] in Hb, He.
    destruct (element_start e b He Hb) as [Es Ene].
    cbn [length] in Hk. rewrite Nat2Z.inj_succ in Hk.
    destruct l as [|p l].
    - cbn [array_text map snd set_all]. rewrite pass_inert by (try apply blanks_inert; assumption).
      rewrite last_element by assumption. cbn [app]. unfold finish. rewrite Es. cbv zeta.
      destruct e as [|x e']; [congruence|]. cbn [andb negb].
      destruct (Z.leb_spec num k); [lia|]. reflexivity.
    - change (array_text ((b, e) :: p :: l)) with (b ++ e ++ [44] ++ array_text (p :: l)).
      rewrite pass_inert; [|apply blanks_inert; assumption|destruct e; [congruence|discriminate]].
      cbn [app]. rewrite pass_element by (assumption || discriminate).
      destruct p as [b2 e2]. inversion H2 as [|? ? [_ He2] _]; subst. cbn [snd] in He2.
      rewrite comma by (apply array_text_nonempty; assumption). unfold finish. rewrite Es. cbv zeta.
      cbn [map snd set_all].
      destruct e as [|x e']; [congruence|]. cbn [andb negb].
      destruct (Z.leb_spec num k); [lia|].
      destruct (f (x :: e') (base + Z.to_nat (size * k))%nat mem) as [[err mem']|]; [|reflexivity].
      apply IH; [assumption|discriminate|lia].
  Qed.

  Lemma set_all_same es mem : forall k, 0 <= k ->
    (forall i e, nth_error es i = Some e -> exists err, f e (base + Z.to_nat (size * (k + Z.of_nat i)))%nat mem = Some (err, mem)) ->
    set_all es k mem = Some (ENone, mem).
  Proof.
    induction es as [|e es IH]; intros k Hk H; [reflexivity|]. cbn [set_all].
    destruct (H 0%nat e eq_refl) as (err & E). rewrite Z.add_0_r in E. rewrite E. apply IH; [lia|].
    intros i e' Hi. replace (k + 1 + Z.of_nat i) with (k + Z.of_nat (S i)) by lia. apply H. exact Hi.
  Qed.

  (** writes stay inside the array *)
  Lemma loop_safe (Hs : 0 <= size) :
    (forall txt addr mem, txt <> [] -> inside addr (Z.to_nat size) mem ->
       exists err mem', f txt addr mem = Some (err, mem') /\ same_outside addr (Z.to_nat size) mem mem') ->
    (forall addr mem, exists err, f [] addr mem = Some (err, mem)) ->
    forall rest cur scope k mem, 0 <= k -> inside base (Z.to_nat (num * size)) mem ->
    exists err mem', loop rest cur scope k mem = Some (err, mem') /\ same_outside base (Z.to_nat (num * size)) mem mem'.
  Proof.
    intros H1 H2. induction rest as [|c rest IH]; intros cur scope k mem Hk Hin.
    - exists ENone, mem. split; [reflexivity|]. split; auto.
    - rewrite loop_cons. cbv zeta. set (scope' := if closing c && scope then false else scope).
      destruct (scope' || opening c); [apply IH; assumption|].
      destruct ((c =? 44) || _); [|apply IH; assumption].
      set (cv := skip_start _). destruct cv as [|x cv'] eqn:Ecv; cbn [andb negb].
      + destruct (k <? num); [exists EShortInput, mem; split; [reflexivity|split; auto]|].
        destruct (H2 (base + Z.to_nat (size * k))%nat mem) as (err & ->). apply IH; [lia|assumption].
      + destruct (Z.leb_spec num k); [exists EOutOfRange, mem; split; [reflexivity|split; auto]|].
        assert (Hle : size * k + size <= num * size) by nia.
        assert (0 <= size * k) by nia.
        assert (Hin' : inside (base + Z.to_nat (size * k)) (Z.to_nat size) mem) by (unfold inside in *; lia).
        destruct (H1 (x :: cv') _ mem ltac:(discriminate) Hin') as (err & mem' & -> & S1).
        assert (Hin2 : inside base (Z.to_nat (num * size)) mem').
        { unfold inside in *. destruct S1 as [<- _]. assumption. }
        destruct (IH [] scope' (k + 1) mem' ltac:(lia) Hin2) as (err2 & mem2 & -> & S2).
        exists err2, mem2. split; [reflexivity|]. destruct S1 as [L1 S1], S2 as [L2 S2]. split; [congruence|].
        intros i Hi. rewrite S1 by lia. apply S2. exact Hi.
  Qed.
End Loop.

(** ** Finding the braces *)
Lemma find_first_char o inner c : Z.of_nat (length inner) + 2 < 2 ^ 64 -> sv_find (o :: inner ++ [c]) [o] 0 = Some 0.
Proof.
  intros L. destruct (find_char_spec (o :: inner ++ [c]) o 0 ltac:(lia)) as (r & E & HS). rewrite E. f_equal.
  assert (C : char_in (o :: inner ++ [c]) [o] 0) by (exists o; split; [reflexivity|left; reflexivity]).
  unfold size in HS. cbn [length] in HS. rewrite app_length in HS. cbn [length] in HS.
  destruct HS as [(H1 & H2 & H3)|(-> & H)].
  - destruct (Z.eq_dec r 0); [assumption|]. exfalso. apply (H3 0); [lia|assumption].
  - exfalso. apply (H 0); [lia|assumption].
Qed.
Lemma find_last_char o inner c : Z.of_nat (length inner) + 2 < 2 ^ 64 ->
  sv_find_last_of (o :: inner ++ [c]) [c] npos = Some (Z.of_nat (length inner) + 1).
Proof.
  intros L. destruct (find_last_of_spec (o :: inner ++ [c]) [c] npos) as (r & E & HS).
  - unfold npos. lia.
  - unfold size. cbn [length]. rewrite app_length. cbn [length]. lia.
  - reflexivity.
  - rewrite E. f_equal.
    assert (C : char_in (o :: inner ++ [c]) [c] (Z.of_nat (length inner) + 1)).
    { exists c. split; [|left; reflexivity]. unfold char_at.
      replace (Z.to_nat (Z.of_nat (length inner) + 1)) with (S (length inner)) by lia. cbn [nth_error].
      rewrite nth_error_app2 by lia. rewrite Nat.sub_diag. reflexivity. }
    unfold size, npos in HS. cbn [length] in HS. rewrite app_length in HS. cbn [length] in HS.
    destruct HS as [(H1 & H2 & H3)|(-> & H)].
    + destruct (Z.eq_dec r (Z.of_nat (length inner) + 1)); [assumption|]. exfalso. apply (H3 (Z.of_nat (length inner) + 1)); [lia|assumption].
    + exfalso. apply (H (Z.of_nat (length inner) + 1)); [lia|assumption].
Qed.

Lemma SetReflectedArray_braced set_member o c addr inner t mem : Z.of_nat (length inner) + 2 < 2 ^ 64 -> inner <> [] ->
  SetReflectedArray set_member o c addr (o :: inner ++ [c]) t mem =
  array_loop (set_member (element_type t)) (numItems t) (subSize t) addr inner [] false 0 mem.
Proof.
  intros L Hne. unfold SetReflectedArray. rewrite find_first_char by assumption.
  change (0 =? npos) with false. cbv iota. rewrite find_last_char by assumption.
  destruct (Z.eqb_spec (Z.of_nat (length inner) + 1) npos); [unfold npos in *; lia|].
  destruct (Z.ltb_spec (Z.of_nat (length inner) + 1) 0); [lia|].
  replace (Z.to_nat (0 + 1)) with 1%nat by lia. cbn [skipn].
  replace (Z.to_nat (Z.of_nat (length inner) + 1 - 0 - 1)) with (length inner) by lia.
  cbv zeta. rewrite firstn_app_exact. destruct inner; [congruence|reflexivity].
Qed.

(** on any text the array setter gives an answer, and either touches nothing or runs the
    loop on some inner text *)
Lemma SetReflectedArray_cases set_member o c addr value t mem : size value < 2 ^ 64 ->
  (exists err, SetReflectedArray set_member o c addr value t mem = Some (err, mem)) \/
  (exists inner, SetReflectedArray set_member o c addr value t mem =
    array_loop (set_member (element_type t)) (numItems t) (subSize t) addr inner [] false 0 mem).
Proof.
  intros L. unfold SetReflectedArray.
  destruct (find_char_spec value o 0 ltac:(lia)) as (r & -> & _).
  destruct (r =? npos); [left; eexists; reflexivity|].
  destruct (find_last_of_spec value [c] npos) as (r2 & -> & _); [unfold npos; lia|exact L|reflexivity|].
  destruct (r2 =? npos); [left; eexists; reflexivity|].
  destruct (r2 <? r); [left; eexists; reflexivity|]. cbv zeta.
  set (inner := firstn _ _). clearbody inner.
  destruct inner; [left; eexists; reflexivity|]. right. eexists. reflexivity.
Qed.
