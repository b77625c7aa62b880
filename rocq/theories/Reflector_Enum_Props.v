(** C37: values of registered enums. *)
From Verif Require Import Base Supercore_Model StringView_Model Bitfield_Model Reflector_Model Reflector_Spec Reflector_Proof.

Definition rest_ok (rest : list Z) : Prop := rest = [] \/ exists c r, rest = c :: r /\ (c = 61 \/ c = 32).
Lemma item_name_stop n rest : Forall (fun c => c <> 61 /\ c <> space /\ c <> 0) n ->
  rest_ok rest -> item_name (n ++ rest) = n.
Proof.
  induction n as [|c n IH]; intros F H; cbn [app].
  - destruct H as [->|(c & r & -> & H)]; [reflexivity|]. cbn [item_name]. destruct H as [-> | ->]; reflexivity.
  - inversion F as [|? ? (H1 & H2 & H3) F']; subst. cbn [item_name]. unfold space in H2.
    replace ((c =? 61) || (c =? 32) || (c =? 0)) with false by lia. f_equal. apply IH; assumption.
Qed.
Lemma suffix_no_digit base s : base = 10 \/ base = 16 -> Forall (fun c => In c [117; 85; 108; 76]) s -> no_digit_first base s.
Proof.
  intros Hb H. destruct s as [|c s]; [exact I|]. inversion H as [|? ? H1 _]; subst. cbn [In] in H1.
  intros d. unfold is_digit. lia.
Qed.
Lemma init_literal i v suffix : initialiser_value i v -> Forall (fun c => In c [117; 85; 108; 76]) suffix ->
  literal (initialiser_text i ++ suffix) false v.
Proof.
  intros Hi Hs. destruct i as [ds|ds]; cbn [initialiser_text initialiser_value] in *.
  - change (ds ++ suffix) with ([] ++ [] ++ ds ++ suffix).
    apply literal_dec; [constructor|auto|apply Hi|apply suffix_no_digit; auto|].
    intros _ r ->. inversion Hs as [|? ? H _]; subst. cbn [In] in H. unfold letter_x in H. lia.
  - rewrite <- app_assoc. change ([zero; letter_x] ++ ds ++ suffix) with ([] ++ [] ++ [zero; letter_x] ++ ds ++ suffix).
    apply literal_hex; [constructor|auto|apply Hi|apply suffix_no_digit; auto].
Qed.
Lemma init_parse b i v suffix : blanks b -> initialiser_value i v -> v < 2 ^ 64 -> Forall (fun c => In c [117; 85; 108; 76]) suffix ->
  let txt := skip_start (b ++ initialiser_text i ++ suffix) in
  strtoull txt (if starts_with [48; 120] txt then 16 else 10) = v.
Proof.
  intros Hb Hi Hv Hs txt. unfold txt. rewrite skip_start_blanks by assumption. clear txt.
  destruct (literal_parse _ _ _ (init_literal i v suffix Hi Hs)) as (Hm & s & -> & Hn & Hp).
  assert (NB : number_base s = if starts_with [48; 120] s then 16 else 10).
  { unfold number_base. destruct (starts_with [48; 120] s); [reflexivity|]. cbn [orb].
    destruct s as [|c s]; [reflexivity|]. cbn [first_is_minus] in Hn. cbn [starts_with].
    destruct (Z.eqb_spec 45 c) as [<-|]; [discriminate Hn|reflexivity]. }
  rewrite <- NB. unfold strtoull. rewrite Hp. destruct (Z.leb_spec (2 ^ 64) v); [lia|reflexivity].
Qed.
Lemma init_nonempty i v : initialiser_value i v -> initialiser_text i <> [].
Proof.
  destruct i as [ds|ds]; cbn [initialiser_text initialiser_value]; [|discriminate].
  intros [H _]. destruct (digits_head _ _ _ H) as (c & r & d & -> & _). discriminate.
Qed.

Lemma enum_values_ok es : Forall enumerator_ok es -> forall next, 0 <= next -> Forall (fun v => v < 2 ^ 64) (c_values es next) ->
  enum_values (map enumerator_text es) (u64 next) = c_values es next /\
  map item_name (map enumerator_text es) = map e_name es.
Proof.
  induction es as [|e es IH]; intros F next Hn Hv; [auto|].
  inversion F as [|? ? He F']; subst. cbn [c_values map] in Hv |- *. destruct He as (Hname & H1 & H2 & Hs & Hi).
  cbn [enum_values].
  destruct (e_init e) as [[i v]|] eqn:Ei.
  - destruct Hi as [Hi Hlt].
    assert (Hb1 : rest_ok (e_s1 e ++ [61] ++ e_s2 e ++ initialiser_text i ++ e_suffix e)).
    { unfold rest_ok. right. destruct H1 as [-> | ->]; cbn [app]; eexists _, _; (split; [reflexivity|]); [left|right]; reflexivity. }
    assert (En : item_name (enumerator_text e) = e_name e) by (unfold enumerator_text; rewrite Ei; apply item_name_stop; assumption).
    rewrite En. unfold enumerator_text at 1. rewrite Ei, skipn_app_exact.
    assert (Ea : after_equals (e_s1 e ++ [61] ++ e_s2 e ++ initialiser_text i ++ e_suffix e) = Some (e_s2 e ++ initialiser_text i ++ e_suffix e)).
    { destruct H1 as [-> | ->]; reflexivity. }
    rewrite Ea. pose proof (init_nonempty i v Hi) as Hne.
    inversion Hv as [|? ? Hv1 Hv2]; subst.
    assert (Hm : 0 <= v) by apply (literal_parse _ _ _ (init_literal i v (e_suffix e) Hi Hs)).
    assert (Hb2 : blanks (e_s2 e)).
    { destruct H2 as [-> | ->]; [constructor|]. constructor; [left; reflexivity|constructor]. }
    pose proof (init_parse (e_s2 e) i v (e_suffix e) Hb2 Hi Hlt Hs) as P. cbv zeta in P.
    destruct (IH F' (v + 1) ltac:(lia) Hv2) as [IH1 IH2].
    destruct (e_s2 e ++ initialiser_text i ++ e_suffix e) as [|x tl] eqn:Et.
    { apply app_eq_nil in Et. destruct Et as [_ Et]. apply app_eq_nil in Et. destruct Et as [Et _]. contradiction. }
    rewrite P, IH1, IH2. split; [reflexivity|f_equal; exact En].
  - assert (En : item_name (enumerator_text e) = e_name e).
    { unfold enumerator_text; rewrite Ei. rewrite <- (app_nil_r (e_name e)) at 1. apply item_name_stop; [assumption|left; reflexivity]. }
    rewrite En. unfold enumerator_text at 1. rewrite Ei.
    rewrite skipn_all. cbn [after_equals].
    inversion Hv as [|? ? Hv1 Hv2]; subst.
    destruct (IH F' (next + 1) ltac:(lia) Hv2) as [IH1 IH2].
    assert (Eu : u64 next = next) by (apply wrap_small; lia). rewrite Eu, IH1, IH2. split; [reflexivity|f_equal; exact En].
Qed.

(** Registering an enum whose initialisers are plain decimal or 0x numbers gives every
    enumerator the value the compiler gives it. *)
Theorem C37_values es : Forall enumerator_ok es -> Forall (fun v => v < 2 ^ 64) (c_values es 0) ->
  REnumInitializer (map enumerator_text es) = combine (map e_name es) (c_values es 0).
Proof.
  intros F H. destruct (enum_values_ok es F 0 ltac:(lia) H) as [E1 E2]. unfold REnumInitializer.
  change 0 with (u64 0) at 1. rewrite E1, E2. reflexivity.
Qed.

(** Names are right whatever the initialisers are. *)
Theorem C37_names items names :
  Forall2 (fun item n => Forall (fun c => c <> 61 /\ c <> space /\ c <> 0) n /\
    exists rest, item = n ++ rest /\ (rest = [] \/ exists c r, rest = c :: r /\ (c = 61 \/ c = 32))) items names ->
  map fst (REnumInitializer items) = names.
Proof.
  intros H. assert (E : map item_name items = names).
  { induction H as [|s n items names (Hn & rest & -> & Hr) H IH]; [reflexivity|]. cbn [map]. rewrite IH. f_equal.
    apply item_name_stop; assumption. }
  unfold REnumInitializer. assert (L : forall v, length (enum_values items v) = length items).
  { clear. induction items as [|s items IH]; intros v; [reflexivity|]. cbn [enum_values].
    destruct (after_equals _) as [[|]|]; cbn [length]; rewrite IH; reflexivity. }
  specialize (L 0). revert L. generalize (enum_values items 0). intros vs L.
  assert (L2 : length (map item_name items) = length vs) by (rewrite map_length; lia).
  rewrite <- E. revert L2. generalize (map item_name items). clear. induction vs as [|v vs IH]; intros [|n l] H; try discriminate H; [reflexivity|].
  cbn. f_equal. apply IH. cbn in H. lia.
Qed.

(** Other initialisers are read differently from the compiler: octal, expressions, earlier
    enumerators.  A = 010, B = 1 << 3, C = B *)
Theorem C37_expressions_refuted :
  REnumInitializer [[65; 32; 61; 32; 48; 49; 48]; [66; 32; 61; 32; 49; 32; 60; 60; 32; 51]; [67; 32; 61; 32; 66]] =
  [([65], 10); ([66], 1); ([67], 0)].
Proof. reflexivity. Qed.

(** A, B = 0x10ULL, C *)
Definition ex_enumerators := [mkEnumerator [65] None [] [] []; mkEnumerator [66] (Some (Hex [49; 48], 16)) [space] [space] [85; 76; 76];
  mkEnumerator [67] None [] [] []].
Example C37_example : Forall enumerator_ok ex_enumerators /\ Forall (fun v => v < 2 ^ 64) (c_values ex_enumerators 0) /\
  REnumInitializer (map enumerator_text ex_enumerators) = [([65], 0); ([66], 16); ([67], 17)].
Proof.
  split; [|split; [cbn; repeat constructor|reflexivity]].
  assert (H16 : digits 16 [49; 48] 16).
  { change 16 with (1 * 16 + 0) at 2. change [49; 48] with ([49] ++ [48]). apply digits_more; [constructor|]; unfold is_digit; lia. }
  assert (N : forall c, In c [65; 66; 67] -> c <> 61 /\ c <> space /\ c <> 0) by (unfold space; cbn [In]; intros; lia).
  assert (F : forall c, In c [65; 66; 67] -> Forall (fun c => c <> 61 /\ c <> space /\ c <> 0) [c]) by (intros; constructor; [auto|constructor]).
  constructor; [|constructor; [|constructor; [|constructor]]].
  - split; [apply F; cbn; auto|]. split; [auto|]. split; [auto|]. split; [constructor|exact I].
  - split; [apply F; cbn; auto|]. split; [auto|]. split; [auto|].
    split; [repeat (constructor; [cbn; auto|]); constructor|]. split; [exact H16|reflexivity].
  - split; [apply F; cbn; auto|]. split; [auto|]. split; [auto|]. split; [constructor|exact I].
Qed.

Print Assumptions C37_values.
Print Assumptions C37_names.
Print Assumptions C37_expressions_refuted.
