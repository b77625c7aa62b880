(** C73: help texts and the settings log. *)
From Coq Require Import Strings.String.
From Verif Require Import Base Reflector_Model RefAccess_Model Help_Model Help_Spec.

Scheme described_mut := Induction for described Sort Prop
with members_mut := Induction for members Sort Prop
with contents_mut := Induction for contents Sort Prop.
Combined Scheme help_ind from described_mut, members_mut, contents_mut.

Lemma nested_iff t : nested t = true <-> holds_class t.
Proof.
  unfold nested, holds_class. destruct (type t), (subType t); cbn; split; intros H; try reflexivity; try discriminate H; auto 6;
    repeat match goal with H : _ \/ _ |- _ => destruct H | H : _ /\ _ |- _ => destruct H end; try discriminate.
Qed.
Lemma enum_iff t : ref_eqb (type t) REnum = true <-> type t = REnum.
Proof. destruct (type t); cbn; split; intros H; try reflexivity; discriminate. Qed.
Lemma render_app a b : render (a ++ b) = render a ++ render b.
Proof. apply flat_map_app. Qed.
Lemma followed_done a b : followed (a, Done) b = (a ++ fst b, snd b). Proof. reflexivity. Qed.
Lemma render_own level name d : render (own level name d) =
  fillIndent level ++ name ++ [10] ++ match d with [] => [] | _ => fillIndent (level + 1) ++ d ++ [10] end.
Proof.
  unfold own, render, fillIndent. rewrite Nat.add_comm. destruct d; cbn [flat_map fst snd Nat.add repeat app]; rewrite ?app_nil_r, <- ?app_assoc; reflexivity.
Qed.

(** what help_member does when name and description are there *)
Lemma member_step r rec c level i t ns ds name d1 d2 : iNames c = Some ns -> nth_error ns i = Some name -> iDescs c = Some ds -> nth_error ds i = Some (d1, d2) ->
  help_member r rec c level i t = followed (render (own level name d1), Done)
   (if nested t then match rClasses r (typeHash t) with None => ([], Throws) | Some s => rec s (level + 1)%nat end
    else if ref_eqb (type t) REnum then match rEnums r (typeHash t) with None => ([], Throws) | Some names => (render [(S level, values_line names)], Done) end
    else ([], Done)).
Proof.
  intros En Ei Ed Ej. unfold help_member, writes. rewrite En, Ed, Ei, Ej. cbn [fst]. rewrite render_own.
  assert (V : forall names, fillIndent (level + 1) ++ ascii "Values: " ++ flat_map (fun n => n ++ ascii ", ") names ++ [10] = render [(S level, values_line names)]).
  { intros names. unfold render, values_line, fillIndent. rewrite Nat.add_comm. cbn [flat_map fst snd Nat.add]. rewrite app_nil_r, <- !app_assoc. reflexivity. }
  destruct (nested t).
  - destruct d1; rewrite !followed_done; cbn [fst snd app]; rewrite ?app_nil_r; repeat (rewrite <- ?app_assoc; cbn [app]); reflexivity.
  - destruct (ref_eqb (type t) REnum); [destruct (rEnums r (typeHash t)) as [names|]; [rewrite V|]|];
      destruct d1; rewrite !followed_done; cbn [fst snd app]; rewrite ?app_nil_r; repeat (rewrite <- ?app_assoc; cbn [app]); reflexivity.
Qed.

Lemma help_complete r : forall c level ls, described r c level ls -> exists n, forall fuel, (n <= fuel)%nat -> GetHelp r fuel c level = (render ls, Done).
Proof.
  enough (G : (forall c level ls, described r c level ls -> exists n, forall fuel, (n <= fuel)%nat -> GetHelp r fuel c level = (render ls, Done)) /\
    (forall c level i ts ls, members r c level i ts ls -> exists n, forall fuel, (n <= fuel)%nat -> help_members r (GetHelp r fuel) c level i ts = (render ls, Done)) /\
    (forall level t ls, contents r level t ls -> exists n, forall fuel, (n <= fuel)%nat ->
      (if nested t then match rClasses r (typeHash t) with None => ([], Throws) | Some s => GetHelp r fuel s (level + 1)%nat end
       else if ref_eqb (type t) REnum then match rEnums r (typeHash t) with None => ([], Throws) | Some names => (render [(S level, values_line names)], Done) end
       else ([], Done)) = (render ls, Done))) by apply G.
  apply help_ind.
  - intros c level ls _ (n & H). exists (S n). intros [|fuel] F; [lia|]. cbn [GetHelp]. apply H. lia.
  - intros c level i. exists O. intros fuel _. reflexivity.
  - intros c level i t ts ns ds name d1 d2 inner ls En Ei Ed Ej _ (n1 & H1) _ (n2 & H2). exists (n1 + n2)%nat. intros fuel F.
    cbn [help_members]. rewrite (member_step r _ c level i t ns ds name d1 d2 En Ei Ed Ej). rewrite H1 by lia. rewrite H2 by lia.
    rewrite !followed_done. cbn [fst snd]. rewrite !render_app, <- app_assoc. reflexivity.
  - intros level t s ls N E _ (n & H). exists n. intros fuel F. apply nested_iff in N. rewrite N, E. rewrite Nat.add_comm. apply H. exact F.
  - intros level t names E1 E2. exists O. intros fuel _. assert (N : nested t = false) by (unfold nested; rewrite E1; reflexivity).
    rewrite N. apply enum_iff in E1. rewrite E1, E2. reflexivity.
  - intros level t N1 N2. exists O. intros fuel _. destruct (nested t) eqn:E; [apply nested_iff in E; contradiction|].
    destruct (ref_eqb (type t) REnum) eqn:E2; [apply enum_iff in E2; contradiction|]. reflexivity.
Qed.

Lemma followed_inv a b t : followed a b = (t, Done) -> exists t1 t2, a = (t1, Done) /\ b = (t2, Done) /\ t = t1 ++ t2.
Proof.
  destruct a as [x e], b as [y f]. unfold followed. destruct e; cbn [fst snd]; intros E; try discriminate E. injection E as <- ->. exists x, y. auto.
Qed.
Lemma help_sound r : forall fuel c level t, GetHelp r fuel c level = (t, Done) -> exists ls, described r c level ls /\ t = render ls.
Proof.
  induction fuel as [|fuel IH]; intros c level t E; [discriminate E|]. cbn [GetHelp] in E.
  enough (G : forall ts i t, help_members r (GetHelp r fuel) c level i ts = (t, Done) -> exists ls, members r c level i ts ls /\ t = render ls).
  { destruct (G _ _ _ E) as (ls & M & R). exists ls. split; [constructor; exact M|exact R]. }
  clear t E. induction ts as [|ty ts IHt]; intros i t E.
  - injection E as <-. exists []. split; [constructor|reflexivity].
  - cbn [help_members] in E. apply followed_inv in E. destruct E as (t1 & t2 & E1 & E2 & ->).
    destruct (IHt _ _ E2) as (ls & M & ->). pose proof E1 as E0. unfold help_member in E0.
    destruct (iNames c) as [ns|] eqn:En; [|discriminate E0]. destruct (iDescs c) as [ds|] eqn:Ed; [|discriminate E0].
    destruct (nth_error ns i) as [name|] eqn:Ei; [|discriminate E0]. destruct (nth_error ds i) as [[d1 d2]|] eqn:Ej; [|discriminate E0]. clear E0.
    rewrite (member_step r _ c level i ty ns ds name d1 d2 En Ei Ed Ej) in E1. apply followed_inv in E1. destruct E1 as (x & y & X & Y & ->).
    injection X as <-.
    assert (K : exists inner, contents r level ty inner /\ y = render inner).
    { destruct (nested ty) eqn:N.
      - destruct (rClasses r (typeHash ty)) as [s|] eqn:Q; [|discriminate Y]. destruct (IH _ _ _ Y) as (inner & D & R). exists inner.
        split; [|exact R]. rewrite Nat.add_comm in D. apply (CClass r level ty s); [apply nested_iff; exact N|exact Q|exact D].
      - assert (NN : ~ holds_class ty) by (intros H; apply nested_iff in H; congruence). destruct (ref_eqb (type ty) REnum) eqn:Q.
        + destruct (rEnums r (typeHash ty)) as [names|] eqn:U; [|discriminate Y]. assert (y = render [(S level, values_line names)]) by congruence. subst y. eexists. split; [|reflexivity].
          apply CEnum; [apply enum_iff; exact Q|exact U].
        + injection Y as <-. exists []. split; [|reflexivity]. apply CPlain; [exact NN|]. intros H. apply enum_iff in H. congruence. }
    destruct K as (inner & C & ->). exists (own level name d1 ++ inner ++ ls). split; [|rewrite !render_app, <- app_assoc; reflexivity].
    eapply MCons; eauto.
Qed.

(** The help of a class is a text exactly when it is described by lines, and then it is these
    lines: every member's name at its depth, its description one deeper, then what the
    member contains - the members of its class one deeper, or the values of its enumeration. *)
Theorem C73_help : forall r c level,
  (forall ls, described r c level ls -> exists n, forall fuel, (n <= fuel)%nat -> GetHelp r fuel c level = (render ls, Done)) /\
  (forall fuel t, GetHelp r fuel c level = (t, Done) -> exists ls, described r c level ls /\ t = render ls).
Proof. intros r c level. split; [apply help_complete|intros fuel t; apply help_sound]. Qed.
Print Assumptions C73_help.

(** The whole help: a title line, then the members one level in. *)
Theorem C73_help_all : forall r name c,
  (forall ls, described r c 1 ls -> exists n, forall fuel, (n <= fuel)%nat -> GetHelpAll r fuel name c = (render ((0%nat, name ++ ascii " settings.") :: ls), Done)) /\
  (forall fuel t, GetHelpAll r fuel name c = (t, Done) -> exists ls, described r c 1 ls /\ t = render ((0%nat, name ++ ascii " settings.") :: ls)).
Proof.
  intros r name c. destruct (C73_help r c 1) as [H1 H2]. split.
  - intros ls D. destruct (H1 ls D) as [n Hn]. exists n. intros fuel F. unfold GetHelpAll, writes. rewrite (Hn fuel F), followed_done.
    cbn [fst snd]. unfold render at 2. cbn [flat_map fst snd repeat app]. rewrite <- !app_assoc. reflexivity.
  - intros fuel t E. unfold GetHelpAll, writes in E. rewrite followed_done in E. destruct (GetHelp r fuel c 1) as [t' e] eqn:G.
    cbn [fst snd] in E. injection E as E1 E2. subst e t. destruct (H2 fuel t' G) as (ls & D & ->). exists ls. split; [exact D|].
    unfold render at 2. cbn [flat_map fst snd repeat app]. rewrite <- !app_assoc. reflexivity.
Qed.
Print Assumptions C73_help_all.

(** There is one description, and there is one whenever every class reached has names and
    descriptions, everything reached is registered and no class is inside itself. *)
Theorem C73_help_exists : forall r (rank : info -> nat) c level,
  (forall d u, reaches r c d u -> complete u /\ registered r u /\
     forall t s, In t (iTypes u) -> holds_class t -> rClasses r (typeHash t) = Some s -> (rank s < rank u)%nat) ->
  exists ls, described r c level ls /\ forall ls', described r c level ls' -> render ls' = render ls.
Proof.
  intros r rank c level H.
  assert (E : exists ls, described r c level ls).
  { remember (rank c) as n. assert (L : (rank c <= n)%nat) by lia. clear Heqn. revert c level H L.
    induction n as [n IH] using lt_wf_ind. intros c level H L.
    destruct (H O c (RHere r c)) as ((ns & ds & En & Ed & Ln & Ld) & Reg & Rk).
    enough (G : forall ts i, (forall t, In t ts -> In t (iTypes c)) -> (i + length ts = length (iTypes c))%nat -> exists ls, members r c level i ts ls).
    { destruct (G (iTypes c) O (fun t Ht => Ht) eq_refl) as (ls & M). exists ls. constructor. exact M. }
    induction ts as [|t ts IHt]; intros i Hin Li; [exists []; constructor|]. cbn [length] in Li.
    destruct (IHt (S i) (fun x Hx => Hin x (or_intror Hx)) ltac:(lia)) as (ls & M).
    destruct (nth_error ns i) as [name|] eqn:Ei; [|apply nth_error_None in Ei; lia].
    destruct (nth_error ds i) as [[d1 d2]|] eqn:Ej; [|apply nth_error_None in Ej; lia].
    assert (It : In t (iTypes c)) by (apply Hin; left; reflexivity).
    assert (C : exists inner, contents r level t inner).
    { destruct (nested t) eqn:N.
      - apply nested_iff in N. destruct (Reg t It) as [R1 _]. specialize (R1 N). destruct (rClasses r (typeHash t)) as [s|] eqn:Q; [|congruence].
        pose proof (Rk t s It N Q) as Lt. destruct (IH (rank s) ltac:(lia) s (S level)) as (inner & D); [|lia|].
        + intros d u Ru. apply (H (S d) u). eapply RInside; eauto.
        + exists inner. eapply CClass; eauto.
      - assert (NN : ~ holds_class t) by (intros X; apply nested_iff in X; congruence). destruct (ref_eqb (type t) REnum) eqn:Q.
        + apply enum_iff in Q. destruct (Reg t It) as [_ R2]. specialize (R2 Q). destruct (rEnums r (typeHash t)) as [names|] eqn:U; [|congruence].
          eexists. eapply CEnum; eauto.
        + exists []. apply CPlain; [exact NN|]. intros X. apply enum_iff in X. congruence. }
    destruct C as (inner & C). eexists. eapply MCons; eauto. }
  destruct E as (ls & D). exists ls. split; [exact D|]. intros ls' D'.
  destruct (help_complete r _ _ _ D) as (n & A). destruct (help_complete r _ _ _ D') as (n' & A').
  specialize (A (n + n')%nat ltac:(lia)). specialize (A' (n + n')%nat ltac:(lia)). congruence.
Qed.
Print Assumptions C73_help_exists.

Lemma members_nth r c level : forall ts i ls, members r c level i ts ls -> forall k t, nth_error ts k = Some t ->
  exists ns ds name d1 d2 inner before after, iNames c = Some ns /\ nth_error ns (i + k) = Some name /\ iDescs c = Some ds /\ nth_error ds (i + k) = Some (d1, d2) /\
    contents r level t inner /\ ls = before ++ own level name d1 ++ inner ++ after.
Proof.
  induction ts as [|t0 ts IH]; intros i ls M k t Hk; [destruct k; discriminate Hk|].
  inversion M as [|? ? ? ? ? ns ds name d1 d2 inner ls' En Ei Ed Ej C M']. subst. destruct k as [|k].
  - injection Hk as <-. exists ns, ds, name, d1, d2, inner, [], ls'. rewrite Nat.add_0_r. repeat split; assumption.
  - destruct (IH _ _ M' k t Hk) as (ns1 & ds1 & name1 & d3 & d4 & inner1 & before & after & A1 & A2 & A3 & A4 & A5 & ->).
    exists ns1, ds1, name1, d3, d4, inner1, (own level name d1 ++ inner ++ before), after. replace (i + S k)%nat with (S i + k)%nat by lia.
    repeat split; try assumption. rewrite <- !app_assoc. reflexivity.
Qed.

(** Every member of every class reached is listed at its depth with its description; an enumeration
    lists its values.  So a help text exists only if all of them have names and
    descriptions and are registered. *)
Theorem C73_every_member : forall r c level ls, described r c level ls -> forall d u, reaches r c d u ->
  (iTypes u <> [] -> iNames u <> None /\ iDescs u <> None) /\ registered r u /\
  forall k t ns ds name d1 d2, nth_error (iTypes u) k = Some t -> iNames u = Some ns -> nth_error ns k = Some name ->
    iDescs u = Some ds -> nth_error ds k = Some (d1, d2) ->
    exists before after, ls = before ++ own (level + d) name d1 ++ after /\
      (type t = REnum -> exists names after', rEnums r (typeHash t) = Some names /\ after = (S (level + d), values_line names) :: after').
Proof.
  intros r c level ls D d u R. revert level ls D. induction R as [c|c t s d u It Hc Es R IH]; intros level ls D.
  - inversion D as [? ? ? M]. subst. split; [|split].
    + intros N. destruct (iTypes c) as [|t ts]; [congruence|]. inversion M. split; congruence.
    + intros t It. apply In_nth_error in It. destruct It as [k Hk].
      destruct (members_nth r c level _ _ _ M k t Hk) as (ns & ds & name & d1 & d2 & inner & before & after & _ & _ & _ & _ & C & _).
      split.
      * intros H. inversion C as [? ? s ? ? Q| ? ? names Q|? ? N _]; subst; [congruence| |contradiction].
        exfalso. unfold holds_class in H. rewrite Q in H. clear -H. destruct H as [H|[H|[[H|H] _]]]; discriminate H.
      * intros H. inversion C as [? ? s ? Q _ _| ? ? names Q U|? ? _ N]; subst; [|congruence|contradiction].
        exfalso. unfold holds_class in Q. rewrite H in Q. clear -Q. destruct Q as [Q|[Q|[[Q|Q] _]]]; discriminate Q.
    + intros k t ns ds name d1 d2 Hk En Ei Ed Ej. destruct (members_nth r c level _ _ _ M k t Hk) as (ns1 & ds1 & name1 & d3 & d4 & inner & before & after & A1 & A2 & A3 & A4 & C & ->).
      cbn [Nat.add] in A2, A4. rewrite Nat.add_0_r. replace name1 with name by congruence. replace d3 with d1 by congruence.
      exists before, (inner ++ after). split; [reflexivity|]. intros H.
      inversion C as [? ? s ? Q _ _| ? ? names Q U|? ? _ N]; subst; [|exists names, after; split; [exact U|reflexivity]|contradiction].
      exfalso. unfold holds_class in Q. rewrite H in Q. clear -Q. destruct Q as [Q|[Q|[[Q|Q] _]]]; discriminate Q.
  - inversion D as [? ? ? M]. subst. apply In_nth_error in It. destruct It as [k Hk].
    destruct (members_nth r c level _ _ _ M k t Hk) as (ns & ds & name & d1 & d2 & inner & before & after & _ & _ & _ & _ & C & ->).
    inversion C as [? ? s' ? Q U V| ? ? names Q|? ? N _]; subst; [| |contradiction].
    2: { exfalso. unfold holds_class in Hc. rewrite Q in Hc. clear -Hc. destruct Hc as [H|[H|[[H|H] _]]]; discriminate H. }
    assert (s' = s) by congruence. subst s'. destruct (IH _ _ V) as (I1 & I2 & I3). split; [exact I1|]. split; [exact I2|].
    intros k' t' ns' ds' name' d1' d2' A1 A2 A3 A4 A5. destruct (I3 k' t' ns' ds' name' d1' d2' A1 A2 A3 A4 A5) as (b' & a' & -> & P).
    replace (S level + d)%nat with (level + S d)%nat in * by lia.
    exists (before ++ own level name d1 ++ b'), (a' ++ after). split; [rewrite <- !app_assoc; reflexivity|].
    intros T. destruct (P T) as (names & rest & X & ->). exists names, (rest ++ after). split; [exact X|reflexivity].
Qed.
Print Assumptions C73_every_member.

(** A class reflected without descriptions (or names) has no help: null is dereferenced at its first
    member.  A member whose class or enumeration is not registered ends the help with an exception after
    its own lines. *)
Theorem C73_incomplete_refuted :
  (forall r fuel c level, iTypes c <> [] -> iDescs c = None \/ iNames c = None -> GetHelp r (S fuel) c level = ([], Crash)) /\
  (forall r c level before t after ls ns ds name d1 d2, iTypes c = before ++ t :: after -> members r c level 0 before ls ->
     iNames c = Some ns -> nth_error ns (length before) = Some name -> iDescs c = Some ds -> nth_error ds (length before) = Some (d1, d2) ->
     (holds_class t /\ rClasses r (typeHash t) = None \/ type t = REnum /\ rEnums r (typeHash t) = None) ->
     exists n, forall fuel, (n <= fuel)%nat -> GetHelp r fuel c level = (render (ls ++ own level name d1), Throws)).
Proof.
  split.
  - intros r fuel c level N H. cbn [GetHelp]. destruct (iTypes c) as [|t ts]; [congruence|]. cbn [help_members]. unfold help_member.
    destruct H as [-> | ->]; [destruct (iNames c)|]; reflexivity.
  - intros r c level before t after ls ns ds name d1 d2 E M En Ei Ed Ej H.
    assert (G : forall before i ls, members r c level i before ls -> nth_error ns (i + length before) = Some name -> nth_error ds (i + length before) = Some (d1, d2) ->
       exists n, forall fuel, (n <= fuel)%nat -> help_members r (GetHelp r fuel) c level i (before ++ t :: after) = (render (ls ++ own level name d1), Throws)).
    { clear E M Ei Ej before ls. induction before as [|t0 before IH]; intros i ls M Ei Ej.
      - inversion M. subst. exists O. intros fuel _. cbn [app length] in *. rewrite Nat.add_0_r in Ei, Ej. cbn [help_members].
        rewrite (member_step r _ c level i t ns ds name d1 d2 En Ei Ed Ej).
        assert (Q : (if nested t then match rClasses r (typeHash t) with None => ([], Throws) | Some s => GetHelp r fuel s (level + 1)%nat end
            else if ref_eqb (type t) REnum then match rEnums r (typeHash t) with None => ([], Throws) | Some names => (render [(S level, values_line names)], Done) end
            else ([], Done)) = ([], Throws)).
        { destruct H as [[Hc Q]|[Hc Q]].
          - apply nested_iff in Hc. rewrite Hc, Q. reflexivity.
          - assert (N : nested t = false) by (unfold nested; rewrite Hc; reflexivity). rewrite N. apply enum_iff in Hc. rewrite Hc, Q. reflexivity. }
        rewrite Q. rewrite followed_done. cbn [fst snd followed]. rewrite app_nil_r. reflexivity.
      - inversion M as [|? ? ? ? ? ns1 ds1 name1 d3 d4 inner ls' En1 Ei1 Ed1 Ej1 C M']. subst. cbn [length] in Ei, Ej.
        destruct (IH (S i) ls' M') as (n1 & H1); [rewrite <- Ei; f_equal; lia|rewrite <- Ej; f_equal; lia|].
        assert (M1 : members r c level i [t0] (own level name1 d3 ++ inner ++ [])) by (eapply MCons; eauto; constructor).
        assert (T : exists n2, forall fuel, (n2 <= fuel)%nat -> help_members r (GetHelp r fuel) c level i [t0] = (render (own level name1 d3 ++ inner), Done)).
        { pose (c1 := mkInfo [t0] (Some [name1]) (iAliases c) (iAliasHashes c) (Some [(d3, d4)])).
          assert (D1 : described r c1 level (own level name1 d3 ++ inner ++ [])).
          { constructor. eapply MCons; [reflexivity|reflexivity|reflexivity|reflexivity|exact C|constructor]. }
          destruct (help_complete r _ _ _ D1) as (n2 & H2). exists n2. intros fuel F. specialize (H2 (S fuel) ltac:(lia)).
          cbn [GetHelp iTypes c1 help_members] in H2. rewrite (member_step r _ c1 level 0 t0 [name1] [(d3, d4)] name1 d3 d4) in H2 by reflexivity.
          cbn [help_members]. rewrite (member_step r _ c level i t0 ns1 ds1 name1 d3 d4 En1 Ei1 Ed1 Ej1). rewrite app_nil_r in H2. exact H2. }
        destruct T as (n2 & H2). exists (n1 + n2)%nat. intros fuel F. specialize (H1 fuel ltac:(lia)). specialize (H2 fuel ltac:(lia)).
        cbn [help_members] in H2. apply followed_inv in H2. destruct H2 as (x & y & X & Y & Z0). injection Y as <-. rewrite app_nil_r in Z0. subst x.
        cbn [app help_members]. rewrite X. rewrite H1. cbn [followed fst snd]. rewrite !render_app, <- !app_assoc. reflexivity. }
    destruct (G before O ls M Ei Ej) as (n & Hn). exists (S n). intros [|fuel] F; [lia|]. cbn [GetHelp]. rewrite E. apply Hn. lia.
Qed.
Print Assumptions C73_incomplete_refuted.

Lemma c_str_before s : before_nul s (c_str s).
Proof.
  induction s as [|c s [N IH]]; [split; [intros []|left; reflexivity]|]. cbn [c_str]. destruct (Z.eqb_spec c 0) as [->|C].
  - split; [intros []|]. right. exists s. reflexivity.
  - split; [intros [H|H]; auto|]. destruct IH as [E|[r E]]; [left|right; exists r]; cbn [app]; congruence.
Qed.

(** The log: after the header one line for every member, in order: the alias, or the name where
    there is none, and the value (up to a NUL in it). *)
Theorem C73_log : forall time threads c value ns al, iNames c = Some ns -> iAliases c = Some al -> length ns = length (iTypes c) -> length al = length (iTypes c) ->
  exists lines, CreateLog time threads c value =
    (ascii "Current time: " ++ time ++ [10] ++ ascii "Number of concurrent threads: " ++ threads ++ [10] ++ ascii "Configuration:" ++ [10] ++ concat lines ++ [10], Done) /\
    length lines = length (iTypes c) /\
    forall i name a, nth_error ns i = Some name -> nth_error al i = Some a ->
      exists v, before_nul (value (Z.of_nat i)) v /\
      nth_error lines i = Some ([9] ++ match a with Some s => s | None => name end ++ ascii ": " ++ v ++ [10]).
Proof.
  intros time threads c value ns al En Ea Ln La.
  assert (G : forall n i, (i + n = length (iTypes c))%nat -> exists lines, log_lines c value i n = (concat lines, Done) /\ length lines = n /\
     forall k name a, nth_error ns (i + k) = Some name -> nth_error al (i + k) = Some a -> (k < n)%nat ->
      nth_error lines k = Some ([9] ++ match a with Some s => s | None => name end ++ ascii ": " ++ c_str (value (Z.of_nat (i + k))) ++ [10])).
  { induction n as [|n IH]; intros i Hi.
    - exists []. split; [reflexivity|]. split; [reflexivity|]. intros; lia.
    - destruct (IH (S i) ltac:(lia)) as (lines & E & L & P). cbn [log_lines].
      destruct (nth_error ns i) as [name|] eqn:Ei; [|apply nth_error_None in Ei; lia].
      destruct (nth_error al i) as [a|] eqn:Ej; [|apply nth_error_None in Ej; lia].
      unfold GetReflectedPair. destruct (Z.ltb_spec (Z.of_nat i) 0); [lia|]. destruct (Z.leb_spec (Z.of_nat (length (iTypes c))) (Z.of_nat i)); [lia|].
      cbn [orb]. rewrite En, Ea, Nat2Z.id, Ei. rewrite (nth_error_nth al i None Ej).
      exists (([9] ++ match a with Some s => s | None => name end ++ ascii ": " ++ c_str (value (Z.of_nat i)) ++ [10]) :: lines). split; [|split; [cbn [length]; lia|]].
      + destruct a as [s|]; rewrite E; unfold writes; rewrite followed_done; cbn [fst snd concat]; reflexivity.
      + intros [|k] name' a' Hn Ha Hk.
        * rewrite Nat.add_0_r in *. cbn [nth_error]. replace name' with name by congruence. replace a' with a by congruence. destruct a; reflexivity.
        * cbn [nth_error]. replace (i + S k)%nat with (S i + k)%nat in * by lia. apply (P k name' a'); [assumption|assumption|lia]. }
  destruct (G (length (iTypes c)) O eq_refl) as (lines & E & L & P). exists lines. split; [|split; [exact L|]].
  - unfold CreateLog. rewrite E. unfold writes. rewrite !followed_done. cbn [fst snd]. rewrite <- !app_assoc. reflexivity.
  - intros i name a Hn Ha. exists (c_str (value (Z.of_nat i))). split; [apply c_str_before|]. apply (P i name a Hn Ha). rewrite <- Ln. apply nth_error_Some. congruence.
Qed.
Print Assumptions C73_log.
(** A settings class reflected with names only (not EXTENDED) crashes there. *)
Theorem C73_log_refuted : forall time threads c value ns, iTypes c <> [] -> iNames c = Some ns -> iAliases c = None ->
  snd (CreateLog time threads c value) = Crash.
Proof.
  intros time threads c value ns N En Ea. unfold CreateLog. destruct (iTypes c) as [|t ts] eqn:Q; [congruence|]. cbn [length log_lines].
  unfold GetReflectedPair. rewrite Q. cbn [length]. destruct (Z.leb_spec (Z.of_nat (S (length ts))) (Z.of_nat 0)); [lia|].
  cbn [Z.of_nat Z.ltb Z.compare orb]. rewrite En, Ea. reflexivity.
Qed.
Print Assumptions C73_log_refuted.

Definition C73_inner : info := mkInfo [mkRefl RInteger RNone 4 0 0 0 1 0; mkRefl REnum RNone 4 1 0 4 2 77]
  (Some [ascii "width"; ascii "mode"]) (Some [None; None]) (Some [0; 0]) (Some [(ascii "Width in", ascii "mm"); ([], [])]).
Definition C73_outer : info := mkInfo [mkRefl RArray RClass 8 0 3 0 3 55; mkRefl RFloat RNone 4 1 0 24 4 0]
  (Some [ascii "items"; ascii "speed"]) (Some [None; Some (ascii "Speed")]) (Some [0; 0]) (Some [([], []); (ascii "Of light", [])]).
Definition C73_registry : registry := mkRegistry (fun h => if h =? 55 then Some C73_inner else None)
  (fun h => if h =? 77 then Some [ascii "Fast"; ascii "Slow"] else None).
Example C73_example :
  GetHelp C73_registry 3 C73_outer 1 =
    (render [(1%nat, ascii "items"); (2%nat, ascii "width"); (3%nat, ascii "Width in"); (2%nat, ascii "mode"); (3%nat, ascii "Values: Fast, Slow, ");
       (1%nat, ascii "speed"); (2%nat, ascii "Of light")], Done) /\
  snd (GetHelp (mkRegistry (fun _ => None) (fun _ => None)) 3 C73_outer 1) = Throws /\
  reaches C73_registry C73_outer 1 C73_inner /\ complete C73_outer.
Proof.
  split; [vm_compute; reflexivity|]. split; [vm_compute; reflexivity|]. split.
  - eapply RInside; [left; reflexivity| |reflexivity|constructor]. right. right. cbn. auto.
  - do 2 eexists. repeat split.
Qed.
Example C73_exists_example : exists ls, described C73_registry C73_outer 1 ls.
Proof.
  destruct (C73_help C73_registry C73_outer 1) as [_ H]. destruct (H 3%nat _ (proj1 C73_example)) as (ls & D & _). exists ls. exact D.
Qed.
