From Coq Require Znumtheory.
From Verif Require Import Base Endian_Model Endian_Spec Endian_Proof Stream_Model Stream_Spec Stream_Proof.

(** ** containers with caller-supplied element functions *)
Section Lambda.
  Context {A : Type} (fw : A -> nav -> option nav) (fr : A -> nav -> option (A * nav))
          (enc : bool -> A -> list Z) (ok : A -> Prop) (dflt : A).
  Hypothesis Hw : forall a w, ok a -> usable w -> fw a w = Some (WriteBuffer (enc (swapEndian w) a) w).
  Hypothesis Hr : forall a r rest, ok a -> at_bytes r (enc (swapEndian r) a ++ rest) ->
    exists r', fr dflt r = Some (a, r') /\ at_bytes r' rest /\ swapEndian r' = swapEndian r.

  Lemma lambda_write_eq l : Forall ok l -> forall w, usable w ->
    lambda_write fw l w = Some (WriteBuffer (flat_map (enc (swapEndian w)) l) w).
  Proof.
    intros F. induction F as [|a l Ha F IH]; intros w U; cbn [lambda_write flat_map].
    - unfold WriteBuffer, raw_write. replace (good (st w)) with true by (symmetry; apply good_true; assumption).
      destruct w as [[d p e f fl] sp lp sw]. destruct U as [E1 E2]. cbn in *. subst.
      unfold with_st. cbn. rewrite Nat.add_0_r. reflexivity.
    - rewrite Hw by assumption. rewrite IH by (apply WriteBuffer_usable; assumption).
      f_equal. apply WriteBuffer_app. assumption.
  Qed.

  Lemma lambda_read_eq l : Forall ok l -> forall r rest,
    at_bytes r (flat_map (enc (swapEndian r)) l ++ rest) ->
    exists r', lambda_read fr (repeat dflt (length l)) r = Some (l, r') /\ at_bytes r' rest /\
               swapEndian r' = swapEndian r.
  Proof.
    intros F. induction F as [|a l Ha F IH]; intros r rest A0; cbn [length repeat lambda_read flat_map] in *.
    - exists r. auto.
    - rewrite <- app_assoc in A0. destruct (Hr a r _ Ha A0) as (r1 & -> & A1 & S1).
      rewrite <- S1 in A1. destruct (IH r1 rest A1) as (r2 & -> & A2 & S2).
      exists r2. rewrite S2. auto.
  Qed.

  Lemma lambda_round_trip csz l w w' r g : scalar_size csz -> Forall ok l -> usable w ->
    Z.of_nat (length l) < 256 ^ Z.of_nat csz ->
    WriteContainerLambda csz fw l w = Some w' -> reads_back w w' r -> swapEndian r = swapEndian w ->
    exists r' rest, ReadContainerLambda csz fr g [] dflt r = Some (l, r') /\ at_bytes r' rest.
  Proof.
    intros Hc F U Hl E B Hs. unfold WriteContainerLambda in E.
    rewrite Write_eq in E by (try assumption; apply wrap_fits).
    rewrite lambda_write_eq in E by (try assumption; apply WriteBuffer_usable; assumption).
    apply (f_equal (fun o => match o with Some x => x | None => w end)) in E. cbn beta iota in E.
    rewrite WriteBuffer_app in E by assumption. rewrite <- E in B.
    apply reads_back_at in B; [|assumption|left].
    2:{ intros Hnil. apply app_eq_nil in Hnil. destruct Hnil as [Hnil _].
        apply (f_equal (@length Z)) in Hnil. rewrite encoding_length in Hnil.
        destruct Hc as [?|[?|[?|?]]]; cbn in Hnil; lia. }
    destruct B as [rest B]. rewrite pow256 in Hl by lia. rewrite wrap_small in B by (split; [apply Nat2Z.is_nonneg|exact Hl]). rewrite <- pow256 in Hl by lia.
    rewrite <- app_assoc in B. change (swapEndian (WriteBuffer _ w)) with (swapEndian w) in B.
    rewrite <- Hs in B.
    destruct (Read_same r csz (Z.of_nat (length l)) _ g Hc ltac:(split; [apply Nat2Z.is_nonneg|exact Hl]) B) as [R B'].
    unfold ReadContainerLambda. rewrite R. rewrite Nat2Z.id, firstn_nil, Nat.sub_0_r. cbn [app].
    destruct (lambda_read_eq l F _ rest B') as (r' & -> & A2 & _). eauto.
  Qed.
End Lambda.

(** ** navigation *)
Lemma raw_tell_usable s : eof s = false -> fail s = false -> raw_tell s = (Z.of_nat (pos s), s).
Proof. intros E F. unfold raw_tell. rewrite F, E. reflexivity. Qed.

Lemma raw_seek_ok p s (q : nat) : fail s = false -> sgn 64 p = Z.of_nat q -> Z.of_nat q < 2 ^ 63 ->
  (file_like s = true \/ (q <= length (data s))%nat) ->
  raw_seek p Beg s = mkStream (data s) q false false (file_like s).
Proof.
  intros F E Hq V. unfold raw_seek. rewrite F, E. cbn [Z.add]. 
  destruct (Z.ltb_spec (Z.of_nat q) 0); [lia|]. destruct (Z.leb_spec (2 ^ 63) (Z.of_nat q)); [lia|].
  cbn [orb].
  replace (negb (file_like s) && (Z.of_nat (length (data s)) <? Z.of_nat q)) with false.
  - rewrite Nat2Z.id. reflexivity.
  - symmetry. destruct V as [->|V]; [reflexivity|].
    destruct (Z.ltb_spec (Z.of_nat (length (data s))) (Z.of_nat q)); [lia|]. apply andb_false_r.
Qed.

Lemma sgn_u64 x : sgn 64 (u64 x) = sgn 64 x.
Proof. apply wrap_sgn. lia. Qed.

Lemma sgn_nat (q : nat) : Z.of_nat q < 2 ^ 63 -> sgn 64 (Z.of_nat q) = Z.of_nat q.
Proof. intros. apply sgn_small; [lia|]. unfold is_sword. change (64 - 1) with 63. lia. Qed.

Lemma moved_self r : usable r -> moved r (pos (st r)) = r.
Proof. intros [U1 U2]. destruct r as [[d p e f fl] sp lp sw]. cbn in *. subst. reflexivity. Qed.

Lemma Tell_eq r : usable r -> Tell r = (u64 (Z.of_nat (pos (st r)) - localPos r), r).
Proof.
  intros [U1 U2]. unfold Tell. rewrite raw_tell_usable by assumption.
  destruct r as [s sp lp sw]. reflexivity.
Qed.

Lemma u64_add_u64 a b : u64 (u64 a + b) = u64 (a + b).
Proof. unfold u64, wrap. rewrite Zplus_mod_idemp_l. reflexivity. Qed.

Lemma Seek_eq r p (q : nat) : usable r -> u64 (p + localPos r) = Z.of_nat q -> Z.of_nat q < 2 ^ 63 ->
  (file_like (st r) = true \/ (q <= length (data (st r)))%nat) ->
  Seek p Beg r = moved r q.
Proof.
  intros [U1 U2] E Hq V. unfold Seek. cbv zeta.
  rewrite (raw_seek_ok _ _ q); [reflexivity|assumption| |assumption|assumption].
  rewrite E. apply sgn_nat. assumption.
Qed.

Lemma Seek_Tell r : usable r -> placed r -> Seek (fst (Tell r)) Beg r = r.
Proof.
  intros U [P V]. rewrite Tell_eq by assumption. cbn [fst].
  rewrite (Seek_eq r _ (pos (st r))); [apply moved_self; assumption|assumption| |assumption|assumption].
  rewrite u64_add_u64. replace (_ - _ + _) with (Z.of_nat (pos (st r))) by lia. apply wrap_small. lia.
Qed.

Lemma Seek_then_Tell r p (q : nat) : usable r -> 0 <= p < 2 ^ 64 -> u64 (p + localPos r) = Z.of_nat q -> Z.of_nat q < 2 ^ 63 ->
  (file_like (st r) = true \/ (q <= length (data (st r)))%nat) ->
  fst (Tell (Seek p Beg r)) = p.
Proof.
  intros U Hp E Hq V. rewrite (Seek_eq r p q) by assumption.
  rewrite Tell_eq by (unfold usable, moved; cbn; auto). cbn [fst moved st pos localPos].
  rewrite <- E. unfold Z.sub. rewrite u64_add_u64. replace (p + localPos r + - localPos r) with p by lia.
  apply wrap_small. assumption.
Qed.

(** invariants of histories *)
Definition keeps (s s' : stream) : Prop :=
  file_like s' = file_like s /\ (length (data s) <= length (data s'))%nat.

Lemma keeps_refl s : keeps s s. Proof. split; [reflexivity|lia]. Qed.
Lemma keeps_trans a b c : keeps a b -> keeps b c -> keeps a c.
Proof. intros [A B] [C D]. split; [congruence|lia]. Qed.

Lemma raw_tell_keeps s : keeps s (snd (raw_tell s)).
Proof. unfold raw_tell. destruct (fail s), (eof s); apply keeps_refl || (split; cbn; lia || reflexivity). Qed.
Lemma raw_seek_keeps p d s : keeps s (raw_seek p d s).
Proof. unfold raw_seek. destruct (fail s); [split; cbn; lia || reflexivity|].
  cbv zeta. match goal with |- context [if ?c then _ else _] => destruct c end; split; cbn; lia || reflexivity. Qed.
Lemma raw_write_keeps bs s : keeps s (raw_write bs s).
Proof.
  unfold raw_write. destruct (good s); split; cbn [data file_like]; try reflexivity; try lia.
  destruct bs as [|b bs]; [rewrite overwrite_nil; lia|]. rewrite overwrite_length by discriminate. lia.
Qed.
Lemma raw_read_keeps n o s : keeps s (snd (raw_read n o s)).
Proof. unfold raw_read. destruct (good s); split; cbn; lia || reflexivity. Qed.
Lemma iter_write_keeps n bs s : keeps s (Nat.iter n (raw_write bs) s).
Proof. induction n as [|n IH]; cbn; [apply keeps_refl|]. eapply keeps_trans; [exact IH|apply raw_write_keeps]. Qed.

Definition nav_keeps (r r' : nav) : Prop := keeps (st r) (st r') /\ savePos r' = savePos r.
Lemma nav_keeps_refl r : nav_keeps r r. Proof. split; [apply keeps_refl|reflexivity]. Qed.
Lemma nav_keeps_trans a b c : nav_keeps a b -> nav_keeps b c -> nav_keeps a c.
Proof. intros [A B] [C D]. split; [eapply keeps_trans; eassumption|congruence]. Qed.
Lemma with_st_keeps r s : keeps (st r) s -> nav_keeps r (with_st r s).
Proof. intros H. split; [exact H|reflexivity]. Qed.

Lemma Tell_keeps r : nav_keeps r (snd (Tell r)).
Proof.
  unfold Tell. pose proof (raw_tell_keeps (st r)) as H. destruct (raw_tell (st r)) as [p s].
  cbn [snd] in *. apply with_st_keeps. exact H.
Qed.
Lemma Seek_keeps p d r : nav_keeps r (Seek p d r).
Proof. apply with_st_keeps. apply raw_seek_keeps. Qed.

Lemma Skip_keeps (writer : bool) n r : nav_keeps r ((if writer then WriterSkip else ReaderSkip) n r).
Proof.
  destruct writer; unfold WriterSkip, ReaderSkip.
  - destruct (0 <? n).
    + cbv zeta. apply with_st_keeps. eapply keeps_trans; [apply iter_write_keeps|apply raw_write_keeps].
    + pose proof (raw_tell_keeps (st r)) as H. destruct (raw_tell (st r)) as [p s].
      apply with_st_keeps. eapply keeps_trans; [exact H|apply raw_seek_keeps].
  - destruct (n <? 0).
    + pose proof (raw_tell_keeps (st r)) as H. destruct (raw_tell (st r)) as [p s].
      apply with_st_keeps. eapply keeps_trans; [exact H|apply raw_seek_keeps].
    + apply with_st_keeps. apply raw_seek_keeps.
Qed.

Lemma step_keeps writer o r : nav_keeps r (step writer o r).
Proof.
  destruct o; cbn [step].
  - apply Seek_keeps.
  - apply Skip_keeps.
  - unfold SetRelativeOrigin. destruct useSeek.
    + eapply nav_keeps_trans; [|apply Seek_keeps]. split; [apply keeps_refl|reflexivity].
    + split; [apply keeps_refl|reflexivity].
  - unfold ApplyPadding. pose proof (Tell_keeps r) as H. destruct (Tell r) as [p r1]. cbn [snd] in H.
    cbv zeta. match goal with |- context [if ?c =? 0 then _ else _] => destruct (c =? 0) end; [exact H|].
    eapply nav_keeps_trans; [exact H|apply Skip_keeps].
  - unfold GetSize. pose proof (Tell_keeps r) as H. destruct (Tell r) as [p r1]. cbn [snd] in H.
    cbv zeta. pose proof (Tell_keeps (Seek 0 End_ r1)) as H2. destruct (Tell (Seek 0 End_ r1)) as [c r3].
    cbn [snd] in *. eapply nav_keeps_trans; [exact H|]. eapply nav_keeps_trans; [apply Seek_keeps|].
    eapply nav_keeps_trans; [exact H2|apply Seek_keeps].
  - apply with_st_keeps. apply raw_seek_keeps.
  - split; [apply keeps_refl|reflexivity].
  - apply Tell_keeps.
  - destruct writer.
    + apply with_st_keeps. apply raw_write_keeps.
    + unfold ReadBuffer. pose proof (raw_read_keeps (length bs) bs (st r)) as H.
      destruct (raw_read _ _ _) as [b s]. cbn [snd] in *. apply with_st_keeps. exact H.
Qed.

Lemma run_keeps writer ops : forall r, nav_keeps r (run writer ops r).
Proof.
  induction ops as [|o ops IH]; intros r; [apply nav_keeps_refl|].
  cbn. eapply nav_keeps_trans; [apply (step_keeps writer o r)|apply IH].
Qed.

Lemma Push_Pop writer ops r : usable r -> placed r ->
  let r' := run writer ops (snd (Push r)) in
  fail (st r') = false ->
  fst (Push r) = Z.of_nat (pos (st r)) /\ Pop r' = moved r' (pos (st r)).
Proof.
  intros [U1 U2] [P V]. unfold Push. rewrite raw_tell_usable by assumption. cbn [fst snd].
  pose proof (run_keeps writer ops (mkNav (st r) (Z.of_nat (pos (st r))) (localPos r) (swapEndian r))) as [[K1 K2] K3].
  cbn [st savePos] in K1, K2, K3. cbv zeta. remember (run writer ops _) as r'. clear Heqr'. intros F.
  split; [reflexivity|].
  unfold Pop. rewrite K3, (raw_seek_ok _ _ (pos (st r))); [reflexivity|assumption| |assumption|].
  - apply sgn_nat. assumption.
  - destruct V as [V|V]; [left; congruence|right; lia].
Qed.

Lemma GetSize_eq r : usable r -> placed r -> Z.of_nat (length (data (st r))) < 2 ^ 63 ->
  GetSize r = (u64 (Z.of_nat (length (data (st r))) - localPos r), r).
Proof.
  intros U P L. unfold GetSize. rewrite Tell_eq by assumption.
  assert (E : Seek 0 End_ r = moved r (length (data (st r)))).
  { unfold Seek. cbv zeta. unfold raw_seek. rewrite (proj2 U).
    replace (sgn 64 0) with 0 by reflexivity. cbv zeta. rewrite Z.add_0_r.
    destruct (Z.ltb_spec (Z.of_nat (length (data (st r)))) 0); [lia|].
    destruct (Z.leb_spec (2 ^ 63) (Z.of_nat (length (data (st r))))); [lia|].
    rewrite Z.ltb_irrefl, andb_false_r. cbn [orb]. rewrite Nat2Z.id. reflexivity. }
  rewrite E. rewrite Tell_eq by (unfold usable, moved; cbn; auto).
  cbn [moved st pos localPos]. f_equal.
  set (m := moved r (length (data (st r)))).
  destruct P as [P V].
  rewrite (Seek_eq m _ (pos (st r))).
  - transitivity (moved r (pos (st r))); [reflexivity|apply moved_self; assumption].
  - unfold usable, m, moved; cbn; auto.
  - unfold m, moved. cbn [localPos]. rewrite u64_add_u64.
    replace (_ - _ + _) with (Z.of_nat (pos (st r))) by lia. apply wrap_small. lia.
  - assumption.
  - assumption.
Qed.

(** failure is sticky *)
Definition stuck (s s' : stream) : Prop := fail s' = true /\ data s' = data s /\ pos s' = pos s.
Lemma raw_write_stuck bs s : fail s = true -> stuck s (raw_write bs s).
Proof. intros H. unfold raw_write, good. rewrite H, andb_false_r. repeat split. Qed.
Lemma raw_seek_stuck p d s : fail s = true -> stuck s (raw_seek p d s).
Proof. intros H. unfold raw_seek. rewrite H. repeat split. Qed.
Lemma raw_tell_stuck s : fail s = true -> raw_tell s = (2 ^ 64 - 1, s).
Proof. intros H. unfold raw_tell. rewrite H. reflexivity. Qed.
Lemma iter_write_stuck n bs s : fail s = true -> stuck s (Nat.iter n (raw_write bs) s).
Proof.
  intros H. induction n as [|n IH]; [repeat split; assumption|].
  change (Nat.iter (S n) (raw_write bs) s) with (raw_write bs (Nat.iter n (raw_write bs) s)).
  destruct IH as (A & B & C). destruct (raw_write_stuck bs _ A) as (D & E & F). repeat split; congruence.
Qed.

Lemma Skip_stuck (writer : bool) n r : fail (st r) = true ->
  stuck (st r) (st ((if writer then WriterSkip else ReaderSkip) n r)).
Proof.
  intros H. destruct writer; unfold WriterSkip, ReaderSkip.
  - destruct (0 <? n).
    + cbv zeta. cbn [with_st st].
      destruct (iter_write_stuck (Z.to_nat (n / 32)) (repeat 0 32) (st r) H) as (A & B & C).
      destruct (raw_write_stuck (repeat 0 (Z.to_nat (n mod 32))) _ A) as (D & E & F). repeat split; congruence.
    + rewrite raw_tell_stuck by assumption. apply raw_seek_stuck. assumption.
  - destruct (n <? 0).
    + rewrite raw_tell_stuck by assumption. apply raw_seek_stuck. assumption.
    + apply raw_seek_stuck. assumption.
Qed.

Lemma step_stuck writer o r : fail (st r) = true -> stuck (st r) (st (step writer o r)).
Proof.
  intros H. assert (T : Tell r = (u64 (2 ^ 64 - 1 - localPos r), with_st r (st r))).
  { unfold Tell. rewrite raw_tell_stuck by assumption. reflexivity. }
  destruct o; cbn [step].
  - apply raw_seek_stuck. assumption.
  - apply Skip_stuck. assumption.
  - unfold SetRelativeOrigin. destruct useSeek; [apply raw_seek_stuck; assumption|repeat split; assumption].
  - unfold ApplyPadding. rewrite T. cbv zeta.
    match goal with |- context [if ?c =? 0 then _ else _] => destruct (c =? 0) end; [repeat split; assumption|].
    apply (Skip_stuck writer _ (with_st r (st r))). assumption.
  - unfold GetSize. rewrite T. cbv zeta.
    destruct (raw_seek_stuck 0 End_ (st r) H) as (A & B & C).
    unfold Tell at 1. cbn [Seek with_st st]. rewrite raw_tell_stuck by assumption. cbn [snd].
    unfold Seek at 1. cbn [with_st st].
    match goal with |- stuck _ (raw_seek ?p ?d ?s) => destruct (raw_seek_stuck p d s A) as (D & E & F) end.
    repeat split; congruence.
  - apply raw_seek_stuck. assumption.
  - repeat split; assumption.
  - rewrite T. repeat split; assumption.
  - destruct writer; [apply raw_write_stuck; assumption|].
    unfold ReadBuffer, raw_read, good. rewrite H, andb_false_r. repeat split.
Qed.

Lemma run_stuck writer ops : forall r, fail (st r) = true -> stuck (st r) (st (run writer ops r)).
Proof.
  induction ops as [|o ops IH]; intros r H; [repeat split; assumption|].
  cbn. destruct (step_stuck writer o r H) as (A & B & C). destruct (IH _ A) as (D & E & F).
  repeat split; unfold run in *; congruence.
Qed.

(** ** skipping and padding *)
Lemma iter_write_zeros n s : good s = true ->
  Nat.iter n (raw_write (repeat 0 32)) s = raw_write (repeat 0 (32 * n)) s.
Proof.
  intros G. induction n as [|n IH].
  - cbn [Nat.iter Nat.mul repeat]. rewrite raw_write_good by assumption.
    destruct s as [d p e f fl]. apply good_true in G. cbn in G. destruct G; subst. cbn. rewrite Nat.add_0_r. reflexivity.
  - change (Nat.iter (S n) (raw_write (repeat 0 32)) s) with (raw_write (repeat 0 32) (Nat.iter n (raw_write (repeat 0 32)) s)).
    rewrite IH, raw_write_app by assumption.
    rewrite <- repeat_app. do 2 f_equal. lia.
Qed.

Lemma WriterSkip_pos n w : usable w -> 0 < n -> WriterSkip n w = WriteBuffer (repeat 0 (Z.to_nat n)) w.
Proof.
  intros U H. unfold WriterSkip. destruct (Z.ltb_spec 0 n); [|lia]. cbv zeta.
  rewrite iter_write_zeros by (apply good_true; assumption).
  rewrite raw_write_app by (apply good_true; assumption).
  unfold WriteBuffer. do 2 f_equal. rewrite <- repeat_app. f_equal.
  rewrite (Z.div_mod n 32) at 3 by lia.
  rewrite Z2Nat.inj_add, Z2Nat.inj_mul by lia. reflexivity.
Qed.

Lemma Skip_back (writer : bool) n r : usable r -> placed r -> n <= 0 -> (writer = false -> n < 0) ->
  0 <= Z.of_nat (pos (st r)) + n ->
  (if writer then WriterSkip else ReaderSkip) n r = moved r (Z.to_nat (Z.of_nat (pos (st r)) + n)).
Proof.
  intros U [P V] Hn Hw H. 
  assert (E : with_st r (raw_seek (u64 (Z.of_nat (pos (st r)) + n)) Beg (st r)) =
              moved r (Z.to_nat (Z.of_nat (pos (st r)) + n))).
  { rewrite (raw_seek_ok _ _ (Z.to_nat (Z.of_nat (pos (st r)) + n))).
    - reflexivity.
    - apply U.
    - rewrite sgn_u64, Z2Nat.id by lia. apply sgn_small; [lia|]. unfold is_sword. change (64 - 1) with 63. lia.
    - rewrite Z2Nat.id; lia.
    - destruct V as [V|V]; [left; assumption|right; lia]. }
  destruct U as [U1 U2]. destruct writer; unfold WriterSkip, ReaderSkip.
  - destruct (Z.ltb_spec 0 n); [lia|]. rewrite raw_tell_usable by assumption. exact E.
  - specialize (Hw eq_refl). destruct (Z.ltb_spec n 0); [|lia]. rewrite raw_tell_usable by assumption. exact E.
Qed.

Lemma Skip_back_fails (writer : bool) n r : usable r -> placed r -> -2 ^ 31 <= n ->
  Z.of_nat (pos (st r)) + n < 0 ->
  fail (st ((if writer then WriterSkip else ReaderSkip) n r)) = true.
Proof.
  intros [U1 U2] [P V] Hn H.
  assert (E : fail (raw_seek (u64 (Z.of_nat (pos (st r)) + n)) Beg (st r)) = true).
  { unfold raw_seek. rewrite U2, sgn_u64. rewrite sgn_small by (unfold is_sword; change (64 - 1) with 63; lia).
    cbn [Z.add]. destruct (Z.ltb_spec (Z.of_nat (pos (st r)) + n) 0); [|lia]. reflexivity. }
  destruct writer; unfold WriterSkip, ReaderSkip.
  - destruct (Z.ltb_spec 0 n); [lia|]. rewrite raw_tell_usable by assumption. exact E.
  - destruct (Z.ltb_spec n 0); [|lia]. rewrite raw_tell_usable by assumption. exact E.
Qed.

Lemma ReaderSkip_pos n r : usable r -> 0 <= n < 2 ^ 31 -> Z.of_nat (pos (st r)) + n < 2 ^ 63 ->
  (file_like (st r) = true \/ (pos (st r) + Z.to_nat n <= length (data (st r)))%nat) ->
  ReaderSkip n r = moved r (pos (st r) + Z.to_nat n).
Proof.
  intros [U1 U2] Hn Hp V. unfold ReaderSkip. destruct (Z.ltb_spec n 0); [lia|].
  unfold raw_seek. rewrite U2. rewrite sgn_small by (unfold is_sword; change (64 - 1) with 63; lia).
  cbv zeta. destruct (Z.ltb_spec (Z.of_nat (pos (st r)) + n) 0); [lia|].
  destruct (Z.leb_spec (2 ^ 63) (Z.of_nat (pos (st r)) + n)); [lia|]. cbn [orb].
  replace (_ && _) with false.
  - unfold moved, with_st. do 2 f_equal. lia.
  - symmetry. destruct V as [->|V]; [reflexivity|].
    destruct (Z.ltb_spec (Z.of_nat (length (data (st r)))) (Z.of_nat (pos (st r)) + n)); [lia|apply andb_false_r].
Qed.

Definition padding_of (r : nav) (a : Z) : Z := (- (Z.of_nat (pos (st r)) - localPos r)) mod a.

Lemma ApplyPadding_eq skip k r : usable r -> 0 <= k <= 30 ->
  ApplyPadding skip (2 ^ k) r =
    (if padding_of r (2 ^ k) =? 0 then r else skip (padding_of r (2 ^ k)) r).
Proof.
  intros U Hk. unfold ApplyPadding. rewrite Tell_eq by assumption. cbv zeta.
  set (rel := Z.of_nat (pos (st r)) - localPos r). unfold padding_of. fold rel.
  pose proof (Z.pow_le_mono_r 2 k 30 ltac:(lia) ltac:(lia)) as Hk30.
  pose proof (pow2_pos k ltac:(lia)) as Hk0.
  assert (M : u64 (2 ^ k - 1) = 2 ^ k - 1) by (apply wrap_small; lia).
  rewrite M, land_pow2m1 by lia.
  assert (R : u64 rel mod 2 ^ k = rel mod 2 ^ k).
  { unfold u64, wrap. symmetry. apply Znumtheory.Zmod_div_mod; [lia|lia|].
    exists (2 ^ (64 - k)). rewrite <- Z.pow_add_r by lia. f_equal. lia. }
  rewrite R. pose proof (Z.mod_pos_bound rel (2 ^ k) Hk0) as B.
  rewrite sgn_small by (unfold is_sword; change (32 - 1) with 31; lia).
  destruct (Z.eqb_spec (rel mod 2 ^ k) 0) as [E|E].
  - rewrite (Z.mod_opp_l_z rel (2 ^ k)) by lia. reflexivity.
  - rewrite (Z.mod_opp_l_nz rel (2 ^ k)) by lia.
    destruct (Z.eqb_spec (2 ^ k - rel mod 2 ^ k) 0); [lia|reflexivity].
Qed.
