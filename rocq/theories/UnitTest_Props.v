(** C77: the test macros. *)
From Coq Require Import Strings.Ascii Strings.String.
From Verif Require Import Base Reflector_Model Errors_Model MacroLoop_Model MacroLoop_Props Printer_Model UnitTest_Model UnitTest_Spec UnitTest_Proof.

Section S.
  Context (env : nat -> Z) (file : list Z) (catches : nat -> nat -> bool).
  Notation step := (step env file catches).
  Notation holds := (holds env catches).

  Lemma cond_of ts e : parse ts = Some e -> cond env ts = Some (negb (eval env e =? 0)%Z).
  Proof. intros P. unfold cond. rewrite P. reflexivity. Qed.
  Lemma means_fun a x y : means env a x -> means env a y -> x = y.
  Proof. intros (e & P & <-) (e' & P' & <-). congruence. Qed.
  Lemma b2z_not0 b : negb (b2z b =? 0)%Z = b. Proof. destruct b; reflexivity. Qed.
  Lemma app_place line t : (ascii "(" ++ to_string line ++ ascii "): " ++ t = ascii "(" ++ to_string line ++ ascii ")" ++ ascii ": " ++ t)%list.
  Proof. reflexivity. Qed.
  Lemma step_spec line s : plain env s ->
    (holds s /\ step line s = Some None) \/ (~ holds s /\ exists m, step line s = Some (Some m) /\ report env file line s m).
  Proof.
    intros P. destruct s as [v|v|c v1 v2|what name b]; cbn [plain] in P.
    - destruct P as (e & P & U). assert (N : not_first e = ENot e) by (destruct e; [reflexivity..|contradiction]).
      cbn [UnitTest_Model.step]. rewrite (cond_of _ _ (paste_not _ _ P)), N. cbn [eval]. rewrite b2z_not0.
      destruct (Z.eqb_spec (eval env e) 0) as [Z0|Z0].
      + right. split.
        * intros (x & M & NZ). apply NZ. rewrite <- Z0. eapply means_fun; [exact M|]. exists e. auto.
        * eexists. split; [reflexivity|]. cbn [report]. unfold check_failed, place. rewrite <- !app_assoc. reflexivity.
      + left. split; [|reflexivity]. exists (eval env e). split; [exists e; auto|exact Z0].
    - destruct P as (x & e & P & X). cbn [UnitTest_Model.step]. rewrite (cond_of _ _ P), X.
      destruct (Z.eqb_spec x 0) as [->|Z0]; cbn [negb].
      + left. split; [exists e; auto|reflexivity].
      + right. split.
        * intros M. apply Z0. eapply means_fun; [exists e; eauto|exact M].
        * eexists. split; [reflexivity|]. cbn [report]. unfold check_failed, place. rewrite <- !app_assoc. reflexivity.
    - destruct P as [(e1 & P1 & L1) (e2 & P2 & L2)]. cbn [UnitTest_Model.step]. pose proof (prec_le (cmp_op c)) as PL.
      assert (L1' : (prec (cmp_op c) < level e1)%nat) by (destruct e1; cbn [level]; [lia..|exact L1]).
      assert (L2' : (prec (cmp_op c) < level e2)%nat) by (destruct e2; cbn [level]; [lia..|exact L2]).
      rewrite (cond_of _ _ (paste _ _ _ _ _ P1 P2 L1' L2')). unfold value. rewrite P1, P2. cbn [option_map eval].
      set (x := eval env e1). set (y := eval env e2).
      assert (M1 : means env v1 x) by (exists e1; auto). assert (M2 : means env v2 y) by (exists e2; auto).
      assert (D : (asked c x y /\ negb (binval (cmp_op c) x y =? 0)%Z = false) \/ (~ asked c x y /\ negb (binval (cmp_op c) x y =? 0)%Z = true)).
      { destruct c; cbn [asked cmp_op binval]; rewrite b2z_not0;
          try (destruct (Z.eqb_spec x y)); try (destruct (Z.leb_spec x y)); try (destruct (Z.leb_spec y x)); try (destruct (Z.ltb_spec x y)); try (destruct (Z.ltb_spec y x));
          cbn [negb]; (left; split; [lia|reflexivity]) || (right; split; [lia|reflexivity]). }
      destruct D as [[A ->]|[A ->]].
      + left. split; [|reflexivity]. exists x, y. auto.
      + right. split.
        * intros (x' & y' & M1' & M2' & A'). apply A. rewrite (means_fun _ _ _ M1 M1'), (means_fun _ _ _ M2 M2'). exact A'.
        * eexists. split; [reflexivity|]. cbn [report]. exists x, y. split; [exact M1|]. split; [exact M2|].
          unfold PrintCheckFailed, check_failed, place. destruct c; cbn [cmp_txt written]; rewrite <- !app_assoc; reflexivity.
    - cbn [UnitTest_Model.step]. destruct b as [|ty].
      + right. split; [intros (ty & E & _); discriminate|]. eexists. split; [reflexivity|]. cbn [report]. unfold place. rewrite <- ?app_assoc. reflexivity.
      + destruct (catches what ty) eqn:E.
        * left. split; [exists ty; auto|reflexivity].
        * right. split; [intros (ty' & E' & C); injection E' as <-; congruence|]. eexists. split; [reflexivity|]. cbn [report]. unfold place. rewrite <- ?app_assoc. reflexivity.
  Qed.
End S.

(** A test function whose arguments are written so that pasting them does not regroup anything returns 0
    and prints nothing exactly when all its checks hold; otherwise it stops at the first one that does
    not, returns 1 and prints exactly one ERROR line, which names the place, the text of the arguments
    and their values with the relation that was found between them *)
Theorem C77_function : forall env file catches l, Forall (fun c => plain env (snd c)) l ->
  (Forall (fun c => holds env catches (snd c)) l /\ run env file catches l = Some (0, [], length l)) \/
  (exists pre line s post m, l = (pre ++ (line, s) :: post)%list /\ Forall (fun c => holds env catches (snd c)) pre /\
     ~ holds env catches s /\ report env file line s m /\ run env file catches l = Some (1, [m], S (length pre))).
Proof.
  intros env file catches l. induction l as [|[line s] r IH]; intros P; [left; split; [constructor|reflexivity]|].
  pose proof (Forall_inv P) as P1. cbn [snd] in P1. specialize (IH (Forall_inv_tail P)). cbn [run].
  destruct (step_spec env file catches line s P1) as [[Hs E]|(Hs & m & E & R)]; rewrite E.
  - destruct IH as [[F ->]|(pre & line' & s' & post & m & -> & F & N & R & ->)].
    + left. split; [constructor; [exact Hs|exact F]|reflexivity].
    + right. exists ((line, s) :: pre), line', s', post, m. split; [reflexivity|]. split; [constructor; [exact Hs|exact F]|]. auto.
  - right. exists [], line, s, r, m. split; [reflexivity|]. split; [constructor|]. auto.
Qed.
Print Assumptions C77_function.

(** What TEST_CHECK tests for an argument of any shape: with an operator outside parentheses, the ! falls
    on its first operand alone *)
Fixpoint first_negated (env : nat -> Z) (e : expr) : Z :=
  match e with
  | EBin o l r => binval o (first_negated env l) (eval env r)
  | _ => if (eval env e =? 0)%Z then 1 else 0
  end.
Theorem C77_check_any : forall env file catches line v e, parse (toks v) = Some e ->
  step env file catches line (TEST_CHECK v) =
    Some (if (first_negated env e =? 0)%Z then None else Some (check_failed file line (txt v))).
Proof.
  intros env file catches line v e P. cbn [step]. rewrite (cond_of _ _ _ (paste_not _ _ P)).
  assert (N : eval env (not_first e) = first_negated env e).
  { clear P. induction e as [n|e IHe|e IHe|o l IHl r IHr]; try reflexivity. cbn [not_first eval first_negated]. rewrite IHl. reflexivity. }
  rewrite N. destruct (Z.eqb_spec (first_negated env e) 0); reflexivity.
Qed.
Print Assumptions C77_check_any.

(** So TEST_CHECK(a == b) does not check a == b: for any two different numbers other than 0 it accepts;
    and TEST_CHECK(a || b) refuses whenever b holds *)
Theorem C77_check_operator_refuted : forall env file catches line t a b,
  (env a <> env b -> env a <> 0 -> env b <> 0 ->
   step env file catches line (TEST_CHECK (Arg [TAtom a; TOp OEq; TAtom b] t)) = Some None) /\
  (env b <> 0 -> exists m, step env file catches line (TEST_CHECK (Arg [TAtom a; TOp OOr; TAtom b] t)) = Some (Some m)).
Proof.
  intros env file catches line t a b. split.
  - intros N A B. rewrite (C77_check_any _ _ _ _ _ (EBin OEq (EAtom a) (EAtom b))) by reflexivity. cbn [first_negated eval binval].
    destruct (Z.eqb_spec (env a) 0); [contradiction|]. destruct (Z.eqb_spec 0 (env b)); [congruence|]. reflexivity.
  - intros B. rewrite (C77_check_any _ _ _ _ _ (EBin OOr (EAtom a) (EAtom b))) by reflexivity. cbn [first_negated eval binval].
    destruct (Z.eqb_spec (env b) 0); [contradiction|]. rewrite Bool.orb_true_r. eexists. reflexivity.
Qed.
Print Assumptions C77_check_operator_refuted.
(** and a comparison check given a looser operator compares its neighbours only: TEST_EQUAL(a & b, c)
    tests a & (b != c) *)
Theorem C77_equal_operator_refuted : forall env file catches line t1 t2 a b c, Z.land (env a) (env b) <> env c -> Z.even (env a) = true ->
  step env file catches line (TEST_CMP TEST_EQUAL (Arg [TAtom a; TOp OBand; TAtom b] t1) (Arg [TAtom c] t2)) = Some None.
Proof.
  intros env file catches line t1 t2 a b c _ E. cbn [step cmp_op toks app].
  rewrite (cond_of _ _ (EBin OBand (EAtom a) (EBin ONe (EAtom b) (EAtom c)))) by reflexivity.
  change (value env (Arg [TAtom a; TOp OBand; TAtom b] t1)) with (Some (Z.land (env a) (env b))).
  change (value env (Arg [TAtom c] t2)) with (Some (env c)). cbn [eval binval].
  assert (X : Z.land (env a) (b2z (negb (env b =? env c)%Z)) = 0).
  { destruct (negb _); cbn [b2z]; [|apply Z.land_0_r]. change 1 with (Z.ones 1). rewrite Z.land_ones by lia. change (2 ^ 1) with 2.
    rewrite Zmod_even, E. reflexivity. }
  rewrite X. reflexivity.
Qed.
Print Assumptions C77_equal_operator_refuted.

(** TEST_CASES of up to 86 functions each returning 0 or 1: every function is called, in order; the lines
    printed are the head, one ERROR line for each failed function and the summary with the number that
    succeeded; the result is the number of failures, and the process exit status made of it is 0 exactly
    when all succeeded *)
Definition failed (cases : list (list Z * Z)) : list (list Z * Z) := filter (fun c => snd c =? 1)%Z cases.
Lemma sum_failed : forall cases a, Forall (fun c => snd c = 0 \/ snd c = 1) cases ->
  fold_left (fun a c => a + snd c)%Z cases a = (a + Z.of_nat (length (failed cases)))%Z.
Proof.
  induction cases as [|c r IH]; intros a H; [cbn; lia|]. cbn [fold_left]. rewrite IH by exact (Forall_inv_tail H).
  unfold failed. cbn [filter]. destruct (Forall_inv H) as [E|E]; rewrite E; [change (0 =? 1) with false|change (1 =? 1) with true]; cbn [length]; lia.
Qed.
Lemma lines_failed : forall cases, Forall (fun c => snd c = 0 \/ snd c = 1) cases ->
  flat_map test_func cases = map (fun c => (ERR, (ascii "Method " ++ fst c ++ ascii " failed!")%list)) (failed cases).
Proof.
  induction cases as [|c r IH]; intros H; [reflexivity|]. cbn [flat_map]. rewrite IH by exact (Forall_inv_tail H).
  unfold failed, test_func. cbn [filter]. destruct (Forall_inv H) as [E|E]; rewrite E; reflexivity.
Qed.
Lemma some_all {A} (l : list A) : flat_map (fun o => match o with Some c => [c] | None => [] end) (map Some l) = l.
Proof. induction l as [|a r IH]; [reflexivity|]. cbn [map flat_map app]. rewrite IH. reflexivity. Qed.
Lemma failed_le cases : (length (failed cases) <= length cases)%nat.
Proof. unfold failed. induction cases as [|c r IH]; [cbn; lia|]. cbn [filter]. destruct (_ =? _); cbn [length]; lia. Qed.
Theorem C77_cases : forall cases, (1 <= length cases <= 86)%nat -> Forall (fun c => snd c = 0 \/ snd c = 1) cases ->
  let n := Z.of_nat (length cases) in let f := Z.of_nat (length (failed cases)) in
  TEST_CASES cases =
    Some ((MSG, (ascii "Testing " ++ to_string n ++ ascii " cases.")) ::
          map (fun c => (ERR, ascii "Method " ++ fst c ++ ascii " failed!")) (failed cases) ++
          [(MSG, ascii "Testing result: " ++ to_string (n - f) ++ ascii " out of " ++ to_string n ++ ascii " successed.")], f)%list /\
  (f mod 256 = 0 <-> Forall (fun c => snd c = 0) cases).
Proof.
  intros cases L H n f. destruct (C64_loops _ cases (or_introl L)) as (E1 & E2 & _). split.
  - unfold TEST_CASES. rewrite E1, E2, some_all, (sum_failed _ _ H), (lines_failed _ H). cbn [app]. fold n f. rewrite Z.add_0_l. reflexivity.
  - pose proof (failed_le cases). rewrite Z.mod_small by lia. unfold f. clear E1 E2 L. split.
    + intros Z0. clear n f. induction cases as [|c r IH]; [constructor|]. pose proof (failed_le r).
      unfold failed in Z0. cbn [filter] in Z0. destruct (Forall_inv H) as [E|E]; rewrite E in Z0; [change (0 =? 1) with false in Z0|change (1 =? 1) with true in Z0]; cbn [length] in Z0; [|lia].
      constructor; [exact E|]. apply IH; [exact (Forall_inv_tail H)|assumption|exact Z0].
    + intros F. clear n f. induction F as [|c r E F IH]; [reflexivity|]. unfold failed. cbn [filter]. rewrite E. apply IH; [exact (Forall_inv_tail H)|]. apply failed_le.
Qed.
Print Assumptions C77_cases.
(** with 88 functions the last one is not called, and the run counts as good whatever it would return *)
Theorem C77_last_case_refuted : forall cases c, length cases = 87%nat -> Forall (fun c => snd c = 0) cases ->
  exists lines, TEST_CASES (cases ++ [c]) = Some (lines, 0).
Proof.
  intros cases c L H. destruct (C64_last_lost_refuted _ (cases ++ [c])%list) as (E1 & E2 & _); [rewrite app_length, L; reflexivity|].
  unfold TEST_CASES. rewrite E1, E2. rewrite firstn_app, L, Nat.sub_diag, firstn_O, app_nil_r, firstn_all2 by lia. rewrite some_all, sum_failed.
  - assert (F : failed cases = []). { clear L E1 E2. induction H as [|x r E F IH]; [reflexivity|]. unfold failed. cbn [filter]. rewrite E. exact IH. }
    rewrite F. eexists. reflexivity.
  - eapply Forall_impl; [|exact H]. intros a E. left. exact E.
Qed.
Print Assumptions C77_last_case_refuted.
(** and functions returning other numbers can cancel out *)
Theorem C77_cancel_refuted : forall a b x, x <> 0 -> exists lines, TEST_CASES [(a, x); (b, - x)] = Some (lines, 0).
Proof. intros a b x _. unfold TEST_CASES. cbn [VA_NARGS]. eexists. cbn -[to_string ascii]. rewrite Z.add_opp_diag_r. reflexivity. Qed.
Print Assumptions C77_cancel_refuted.

(** Examples: a * b + 1 against (c | d), then !(a), then a throw; the second function stops at its check *)
Definition ex_env (n : nat) : Z := nth n [5; 2; 3; 8] 0.
Definition ex_good : list (Z * stmt) :=
  [(10, TEST_CMP TEST_EQUAL (Arg [TAtom 0; TOp OMul; TAtom 1; TOp OAdd; TAtom 1; TOp OSub; TAtom 1] (ascii "a * b + b - b"))
                            (Arg [TOpen; TAtom 1; TOp OBor; TAtom 3; TClose] (ascii "(b | d)")));
   (11, TEST_CHECK (Arg [TOpen; TAtom 0; TOp OGt; TAtom 1; TClose] (ascii "(a > b)")));
   (12, TEST_NOT_CHECK (Arg [TAtom 0; TOp OLt; TAtom 1] (ascii "a < b")));
   (13, TEST_CMP TEST_LE_EQ (Arg [TAtom 1; TOp OShl; TAtom 1] (ascii "b << b")) (Arg [TAtom 3] (ascii "d")));
   (14, TEST_THROW 0 (ascii "es::RuntimeError") (Throws 1))].
Example ex_plain : Forall (fun c => plain ex_env (snd c)) ex_good /\
  run ex_env (ascii "t.cpp") (fun _ ty => Nat.leb ty 1) ex_good = Some (0, [], 5%nat).
Proof.
  split; [|vm_compute; reflexivity].
  repeat (apply Forall_cons; [cbn [snd plain]|]); [| | | | |apply Forall_nil].
  - split; eexists; (split; [vm_compute; reflexivity|cbn; first [exact I|lia]]).
  - eexists. split; [vm_compute; reflexivity|exact I].
  - exists 0, (EBin OLt (EAtom 0) (EAtom 1)). split; vm_compute; reflexivity.
  - split; eexists; (split; [vm_compute; reflexivity|cbn; first [exact I|lia]]).
  - exact I.
Qed.
Example ex_bad :
  run ex_env (ascii "t.cpp") (fun _ _ => false)
    (ex_good ++ [(15, TEST_CHECK (Arg [TAtom 9] (ascii "z")))])%list = Some (1, [ascii "Unhandled exception t.cpp(14): Expected es::RuntimeError"], 5%nat) /\
  run ex_env (ascii "t.cpp") (fun _ _ => false)
    [(15, TEST_CMP TEST_GT (Arg [TAtom 0] (ascii "a")) (Arg [TAtom 3] (ascii "d")))] = Some (1, [ascii "Check failed t.cpp(15): a <= d, 5 <= 8"], 1%nat).
Proof. split; vm_compute; reflexivity. Qed.
Example ex_cases : TEST_CASES [(ascii "f", 0); (ascii "g", 1)] =
  Some ([(MSG, ascii "Testing 2 cases."); (ERR, ascii "Method g failed!"); (MSG, ascii "Testing result: 1 out of 2 successed.")], 1).
Proof. vm_compute. reflexivity. Qed.
