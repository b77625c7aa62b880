(** Where Save puts the parts of a class and of an enumeration. *)
From Coq Require Import String Ascii Sorting.Sorted.
From Verif Require Import Base Dds_Model RefDb_Model RefDb_Proof RefDb_Slots_Proof.
Local Open Scope Z_scope.

(* ---------- numbers of pointers and destinations, phase by phase ---------- *)
Definition sumc (f : cls -> Z) (l : list cls) : Z := sum (map f l).
Lemma sumc_nonneg f l : (forall c, 0 <= f c) -> 0 <= sumc f l.
Proof. intros H. induction l as [|a l IH]; cbn; [lia|]. specialize (H a). unfold sumc, sum in *. lia. Qed.
Definition hasN c := b2z (some (names c)).
Definition hasC c := b2z (some (cname c)).
Definition hasA c := b2z (some (aliases c)).
Definition hasH c := b2z (some (ahashes c)).
Definition hasD c := b2z (some (descs c)).
Definition nN c := cnt (names c).
Definition nA c := acnt (aliases c).
Definition nD c := dcnt (descs c).
Definition one (c : cls) := 1.

Lemma sum_zero {A} (l : list A) : sum (map (fun _ => 0) l) = 0.
Proof. apply sum_const. reflexivity. Qed.
Lemma np_R k l : np k (flat_map rec_ops l) =
  match k with KItems => sumc one l | KStrings => sumc hasN l | KClassNames => sumc hasC l | KAliases => sumc hasA l | KDescs => sumc hasD l | KHashes => sumc hasH l end.
Proof.
  rewrite np_flat. unfold sumc. destruct k; apply sum_ext; intros c; rewrite np_rec; unfold is_k, one, hasN, hasC, hasA, hasD, hasH; cbn [kind_eqb b2z]; lia.
Qed.
Lemma nd_R k l : nd k (flat_map rec_ops l) = 0.
Proof. rewrite nd_flat. apply sum_const. apply nd_rec. Qed.
Lemma np_T k l : np k (flat_map types_ops l) = 0.
Proof. rewrite np_flat. apply sum_const. apply np_types. Qed.
Lemma nd_T k l : nd k (flat_map types_ops l) = match k with KItems => sumc one l | _ => 0 end.
Proof. rewrite nd_flat. unfold sumc. destruct k; first [apply sum_const | apply sum_ext]; intros c; rewrite nd_types; reflexivity. Qed.
Lemma np_H k l : np k (flat_map hashes_ops l) = 0.
Proof. rewrite np_flat. apply sum_const. apply np_hashes. Qed.
Lemma nd_H k l : nd k (flat_map hashes_ops l) = match k with KHashes => sumc hasH l | _ => 0 end.
Proof. rewrite nd_flat. unfold sumc, hasH. destruct k; first [apply sum_const | apply sum_ext]; intros c; rewrite nd_hashes; unfold is_k; cbn [kind_eqb b2z]; lia. Qed.
Lemma np_N k l : np k (flat_map names_ops l) = match k with KStrings => sumc nN l | _ => 0 end.
Proof. rewrite np_flat. unfold sumc, nN. destruct k; first [apply sum_const | apply sum_ext]; intros c; rewrite np_names; unfold is_k; cbn [kind_eqb b2z]; lia. Qed.
Lemma nd_N k l : nd k (flat_map names_ops l) = match k with KStrings => sumc hasN l | _ => 0 end.
Proof. rewrite nd_flat. unfold sumc, hasN. destruct k; first [apply sum_const | apply sum_ext]; intros c; rewrite nd_names; unfold is_k; cbn [kind_eqb b2z]; lia. Qed.
Lemma np_A k l : np k (flat_map aliases_ops l) = match k with KAliases => sumc nA l | _ => 0 end.
Proof. rewrite np_flat. unfold sumc, nA. destruct k; first [apply sum_const | apply sum_ext]; intros c; rewrite np_aliases; unfold is_k; cbn [kind_eqb b2z]; lia. Qed.
Lemma nd_A k l : nd k (flat_map aliases_ops l) = match k with KAliases => sumc hasA l | _ => 0 end.
Proof. rewrite nd_flat. unfold sumc, hasA. destruct k; first [apply sum_const | apply sum_ext]; intros c; rewrite nd_aliases; unfold is_k; cbn [kind_eqb b2z]; lia. Qed.
Lemma np_D k l : np k (flat_map descs_ops l) = match k with KDescs => sumc nD l | _ => 0 end.
Proof. rewrite np_flat. unfold sumc, nD. destruct k; first [apply sum_const | apply sum_ext]; intros c; rewrite np_descs; unfold is_k; cbn [kind_eqb b2z]; lia. Qed.
Lemma nd_D k l : nd k (flat_map descs_ops l) = match k with KDescs => sumc hasD l | _ => 0 end.
Proof. rewrite nd_flat. unfold sumc, hasD. destruct k; first [apply sum_const | apply sum_ext]; intros c; rewrite nd_descs; unfold is_k; cbn [kind_eqb b2z]; lia. Qed.
Lemma np_S k l : np k (flat_map strings_ops l) = 0.
Proof. rewrite np_flat. apply sum_const. apply np_strings. Qed.
Lemma nd_S k l : nd k (flat_map strings_ops l) =
  match k with KStrings => sumc nN l | KClassNames => sumc hasC l | KAliases => sumc nA l | KDescs => sumc nD l | _ => 0 end.
Proof.
  rewrite nd_flat. unfold sumc, nN, hasC, nA, nD. destruct k; first [apply sum_const | apply sum_ext]; intros c; rewrite nd_strings; unfold is_k; cbn [kind_eqb b2z]; lia.
Qed.
Lemma has_nonneg c : 0 <= hasN c /\ 0 <= hasC c /\ 0 <= hasA c /\ 0 <= hasH c /\ 0 <= hasD c.
Proof. unfold hasN, hasC, hasA, hasH, hasD, b2z. repeat split; destruct (some _); lia. Qed.
Lemma sum_nonneg {A} (f : A -> Z) l : (forall a, 0 <= f a) -> 0 <= sum (map f l).
Proof. intros H. induction l as [|a l IH]; cbn; [lia|]. specialize (H a). unfold sum in *. lia. Qed.
Lemma n_nonneg c : 0 <= nN c /\ 0 <= nA c /\ 0 <= nD c.
Proof.
  unfold nN, nA, nD, cnt, acnt, dcnt. repeat split.
  - destruct (names c); [apply zlen_nonneg|lia].
  - destruct (aliases c); [apply sum_nonneg; intros a; unfold b2z; destruct (some a); lia|lia].
  - destruct (descs c); [apply sum_nonneg; intros a; unfold full, b2z; destruct (_ <? _)%nat, (_ <? _)%nat; lia|lia].
Qed.
Lemma sums_nonneg l : 0 <= sumc one l /\ 0 <= sumc hasN l /\ 0 <= sumc hasC l /\ 0 <= sumc hasA l /\ 0 <= sumc hasH l /\ 0 <= sumc hasD l /\
  0 <= sumc nN l /\ 0 <= sumc nA l /\ 0 <= sumc nD l.
Proof.
  repeat split; apply sumc_nonneg; intros c; pose proof (has_nonneg c); pose proof (n_nonneg c); unfold one; lia.
Qed.
Ltac counts := rewrite ?np_app, ?nd_app, ?np_R, ?nd_R, ?np_T, ?nd_T, ?np_H, ?nd_H, ?np_N, ?nd_N, ?np_A, ?nd_A, ?np_D, ?nd_D, ?np_S, ?nd_S.

(** the enumerations *)
Definition enum_head (e : enm) : list op :=
  [Wr (u32b (ehash e)); Wr (u32b (Z.of_nat (length (enames e))))] ++ map (fun v => Wr (le_bytes 8 (u64 v))) (evalues e).
Definition enum_text (e : enm) : list op := flat_map (fun n => [FixD KStrings; Wr n; Sk 1]) (enames e) ++ [FixD KStrings; Wr (ename e); Sk 1].
Lemma enum_ops_eq d : enum_ops d = flat_map enum_head (enums d) ++ [Sk (4 * total_strings d)] ++
  flat_map (fun _ => [AddP KStrings; Sk 4]) (seq 0 (Z.to_nat (total_strings d))) ++ flat_map enum_text (enums d).
Proof. reflexivity. Qed.
Lemma np_head k l : np k (flat_map enum_head l) = 0.
Proof.
  rewrite np_flat. apply sum_const. intros e. apply np_plain. repeat (constructor; [discriminate|]).
  apply Forall_forall. intros o Ho. apply in_map_iff in Ho as (x & <- & _). discriminate.
Qed.
Lemma nd_head k l : nd k (flat_map enum_head l) = 0.
Proof.
  rewrite nd_flat. apply sum_const. intros e. apply nd_plain. repeat (constructor; [discriminate|]).
  apply Forall_forall. intros o Ho. apply in_map_iff in Ho as (x & <- & _). discriminate.
Qed.
Lemma np_etext k l : np k (flat_map enum_text l) = 0.
Proof.
  rewrite np_flat. apply sum_const. intros e. unfold enum_text. rewrite np_app, np_flat. rewrite sum_const by reflexivity. reflexivity.
Qed.
Lemma nd_etext_names k (l : list text) : nd k (flat_map (fun n => [FixD KStrings; Wr n; Sk 1]) l) = zlen l * is_k k KStrings.
Proof.
  rewrite nd_flat. rewrite (sum_ext _ (fun _ => 1 * is_k k KStrings)); [rewrite sum_mul, sum_one; reflexivity|].
  intros. unfold is_k, b2z. cbn. destruct (kind_eqb k KStrings); reflexivity.
Qed.
Definition etotal (l : list enm) : Z := sum (map (fun e => zlen (enames e) + 1) l).
Lemma etotal_db d : total_strings d = etotal (enums d). Proof. reflexivity. Qed.
Lemma nd_etext k l : nd k (flat_map enum_text l) = match k with KStrings => etotal l | _ => 0 end.
Proof.
  rewrite nd_flat. assert (E : forall e, nd k (enum_text e) = (zlen (enames e) + 1) * is_k k KStrings).
  { intros e. unfold enum_text. rewrite nd_app, nd_etext_names. cbn [nd]. unfold is_k, b2z. destruct (kind_eqb k KStrings); lia. }
  unfold etotal. destruct k; first [apply sum_const; intros e; rewrite E; unfold is_k; cbn; lia | apply sum_ext; intros e; rewrite E; unfold is_k; cbn [kind_eqb b2z]; lia].
Qed.

(* ---------- Save succeeds ---------- *)
Definition sk_nonneg (o : op) : Prop := match o with Sk n => 0 <= n | _ => True end.
Lemma skips_ok ops : forall p, Forall sk_nonneg ops -> zlen (content p ops) < 2 ^ 31 -> Forall op_ok ops.
Proof.
  induction ops as [|o r IH]; intros p Hn Hl; [constructor|]. inversion Hn as [|? ? H1 H2]; subst.
  cbn [content] in Hl. unfold zlen in Hl. rewrite zlen_app in Hl. constructor.
  - destruct o; try exact I. cbn [sk_nonneg op_ok obytes] in *. pose proof (zlen_zeros n H1). unfold zlen in *. lia.
  - apply (IH (p + zlen (obytes p o)) H2). pose proof (zlen_nonneg (obytes p o)). unfold zlen in *. lia.
Qed.
Lemma skn_flat {A} (f : A -> list op) l : (forall x, Forall sk_nonneg (f x)) -> Forall sk_nonneg (flat_map f l).
Proof. intros H. induction l; cbn; [constructor|]. now apply Forall_app. Qed.
Lemma skn_map {A} (f : A -> list Z) l : Forall sk_nonneg (map (fun x => Wr (f x)) l).
Proof. apply Forall_forall. intros o Ho. apply in_map_iff in Ho as (x & <- & _). exact I. Qed.
Ltac skn := repeat match goal with
  | |- Forall _ (map _ _) => apply skn_map
  | |- Forall _ [] => apply Forall_nil
  | |- Forall _ (_ :: _) => apply Forall_cons; [cbn [sk_nonneg]; try exact I; unfold nTypes; try lia|]
  | |- Forall _ (_ ++ _) => apply Forall_app; split
  | |- Forall _ (flat_map _ _) => apply skn_flat; intros
  end.
Lemma all_skn d : Forall sk_nonneg (all_ops d).
Proof.
  unfold all_ops, class_ops. rewrite enum_ops_eq. pose proof (total_nonneg d). skn.
  - unfold rec_ops, when. destruct (some (names x)), (some (cname x)), (some (aliases x)), (some (ahashes x)), (some (descs x)); cbn [app]; skn.
  - unfold types_ops. apply Forall_cons; [exact I|]. apply (skn_map (fun x => x)).
  - unfold hashes_ops. destruct (ahashes x); skn.
  - unfold names_ops. destruct (names x); skn.
  - unfold aliases_ops, when. destruct (aliases x); skn. destruct (some x0); skn.
  - unfold descs_ops, part_ops, when. destruct (descs x); skn; destruct (_ <? _)%nat; skn.
  - unfold strings_ops. skn; destruct (names x), (aliases x), (descs x), (cname x); skn;
      try (destruct x0; skn); unfold part_text, when; try (destruct (_ <? _)%nat; skn).
  - unfold enum_head. skn.
  - unfold enum_text. skn.
Qed.

Section Db.
Variable d : db.
Let cs := classes d.
Let ops := all_ops d.
Hypothesis Hsize : pos ops < 2 ^ 31.

Definition R := flat_map rec_ops (classes d).
Definition T := flat_map types_ops (classes d).
Definition H := flat_map hashes_ops (classes d).
Definition N := flat_map names_ops (classes d).
Definition A := flat_map aliases_ops (classes d).
Definition D := flat_map descs_ops (classes d).
Definition S_ := flat_map strings_ops (classes d).
Definition E1 := flat_map enum_head (enums d) ++ [Sk (4 * total_strings d)] ++
  flat_map (fun _ => [AddP KStrings; Sk 4]) (seq 0 (Z.to_nat (total_strings d))).
Definition E2 := flat_map enum_text (enums d).

Lemma ops_eq : all_ops d = ((((((((R ++ T) ++ H) ++ N) ++ A) ++ D) ++ S_) ++ [Pad8]) ++ E1) ++ E2.
Proof. unfold all_ops, class_ops, E1, E2, R, T, H, N, A, D, S_. rewrite enum_ops_eq, <- !app_assoc. reflexivity. Qed.
Lemma class_ops_eq : class_ops d = (((((((R ++ T) ++ H) ++ N) ++ A) ++ D) ++ S_) ++ [Pad8]).
Proof. unfold class_ops, R, T, H, N, A, D, S_. rewrite <- !app_assoc. reflexivity. Qed.
Lemma np_E1 k : np k E1 = match k with KStrings => total_strings d | _ => 0 end.
Proof.
  unfold E1. rewrite !np_app, np_head, np_enum_slots. pose proof (total_nonneg d). cbn [np].
  destruct k; unfold is_k; cbn [kind_eqb b2z]; lia.
Qed.
Lemma nd_E1 k : nd k E1 = 0.
Proof. unfold E1. rewrite !nd_app, nd_head, nd_flat. rewrite sum_const by reflexivity. reflexivity. Qed.

Lemma pos_prefix P Q : all_ops d = P ++ Q -> pos P < 2 ^ 31.
Proof. intros E. pose proof (pos_le P Q). unfold ops in Hsize. rewrite E in Hsize. lia. Qed.

Lemma save_runs : exists w1 w2, exec (class_ops d) empty_writer = Some w1 /\ exec (enum_ops d) w1 = Some w2 /\
  out w1 = content 0 (class_ops d) /\ ran (all_ops d) w2.
Proof.
  pose proof (all_skn d) as Hk. rewrite ops_eq in Hk.
  pose proof Hsize as Hz. unfold ops in Hz.
  assert (Hok : Forall op_ok (all_ops d)).
  { eapply skips_ok; [apply all_skn|]. exact Hsize. }
  rewrite ops_eq in Hok, Hz.
  pose proof (sums_nonneg (classes d)) as Hn. pose proof (total_nonneg d) as Ht.
  assert (P : forall P Q, pos (P ++ Q) < 2 ^ 31 -> pos P < 2 ^ 31) by (intros P Q L; pose proof (pos_le P Q); lia).
  pose proof (P _ _ Hz) as Z1. pose proof (P _ _ Z1) as Z2. pose proof (P _ _ Z2) as Z3. pose proof (P _ _ Z3) as Z4.
  pose proof (P _ _ Z4) as Z5. pose proof (P _ _ Z5) as Z6. pose proof (P _ _ Z6) as Z7. pose proof (P _ _ Z7) as Z8. pose proof (P _ _ Z8) as Z9.
  rewrite !Forall_app in Hok. destruct Hok as (((((((((K1 & K2) & K3) & K4) & K5) & K6) & K7) & K8) & K9) & K10).
  destruct (ran_app [] R _ ran_nil K1 Z9) as (w1 & X1 & Y1).
  { intros k. unfold R. cbn [np nd]. rewrite nd_R. lia. }
  cbn [app] in Y1.
  destruct (ran_app _ T _ Y1 K2 Z8) as (w2 & X2 & Y2); [intros k; unfold R, T; counts; destruct k; lia|].
  destruct (ran_app _ H _ Y2 K3 Z7) as (w3 & X3 & Y3); [intros k; unfold R, T, H; counts; destruct k; lia|].
  destruct (ran_app _ N _ Y3 K4 Z6) as (w4 & X4 & Y4); [intros k; unfold R, T, H, N; counts; destruct k; lia|].
  destruct (ran_app _ A _ Y4 K5 Z5) as (w5 & X5 & Y5); [intros k; unfold R, T, H, N, A; counts; destruct k; lia|].
  destruct (ran_app _ D _ Y5 K6 Z4) as (w6 & X6 & Y6); [intros k; unfold R, T, H, N, A, D; counts; destruct k; lia|].
  destruct (ran_app _ S_ _ Y6 K7 Z3) as (w7 & X7 & Y7); [intros k; unfold R, T, H, N, A, D, S_; counts; destruct k; lia|].
  destruct (ran_app _ [Pad8] _ Y7 K8 Z2) as (w8 & X8 & Y8); [intros k; unfold R, T, H, N, A, D, S_; counts; cbn [np nd]; destruct k; lia|].
  destruct (ran_app _ E1 _ Y8 K9 Z1) as (w9 & X9 & Y9); [intros k; unfold R, T, H, N, A, D, S_; counts; rewrite nd_E1; cbn [np nd]; destruct k; lia|].
  destruct (ran_app _ E2 _ Y9 K10 Hz) as (w10 & X10 & Y10).
  { intros k; unfold R, T, H, N, A, D, S_, E2; counts; rewrite nd_E1, np_E1, nd_etext, etotal_db; cbn [np nd]; rewrite etotal_db in Ht; destruct k; lia. }
  exists w8, w10. rewrite class_ops_eq. destruct Y8 as (Y8 & O8 & _). split; [exact Y8|]. split.
  - rewrite enum_ops_eq. change (exec (flat_map enum_head (enums d) ++ [Sk (4 * total_strings d)] ++
      flat_map (fun _ => [AddP KStrings; Sk 4]) (seq 0 (Z.to_nat (total_strings d))) ++ E2) w8 = Some w10).
    replace (flat_map enum_head (enums d) ++ [Sk (4 * total_strings d)] ++
      flat_map (fun _ => [AddP KStrings; Sk 4]) (seq 0 (Z.to_nat (total_strings d))) ++ E2) with (E1 ++ E2) by (unfold E1; rewrite <- !app_assoc; reflexivity).
    rewrite exec_app, X9. exact X10.
  - split; [exact O8|]. rewrite ops_eq. exact Y10.
Qed.

Lemma save_file : Save d = Some (header (zlen cs) (zlen (enums d)) (total_strings d) (pos (class_ops d)) (pos (all_ops d))
  ++ peek (fin (all_ops d)) 0 (Z.to_nat (pos (all_ops d)))).
Proof.
  destruct save_runs as (w1 & w2 & X1 & X2 & O1 & (_ & O2 & F)). unfold Save. rewrite X1, X2. cbv zeta.
  unfold tell. rewrite O1, O2. unfold fin, fxs.
  assert (FF : forall k, fx w2 k = Fx (fill (ptrs k 0 (all_ops d)) (dests k 0 (all_ops d))) (length (dests k 0 (all_ops d)))) by (intros k; apply F).
  rewrite !FF. unfold pos, zlen. rewrite Nat2Z.id. reflexivity.
Qed.
End Db.
