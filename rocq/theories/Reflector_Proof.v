From Verif Require Import Base Supercore_Model StringView_Model Bitfield_Model Reflector_Model Reflector_Spec.

(** ** Characters and digits *)
Lemma digit_val_iff base c d : base = 10 \/ base = 16 -> (digit_val base c = Some d <-> is_digit base c d).
Proof.
  intros Hb. unfold digit_val, is_digit.
  destruct (Z.leb_spec 48 c), (Z.leb_spec c 57), (Z.leb_spec 97 c), (Z.leb_spec c 122), (Z.leb_spec 65 c), (Z.leb_spec c 90);
    cbn [andb]; try lia;
    match goal with |- context [?x <? base] => destruct (Z.ltb_spec x base) end;
    (split; [intros E; try discriminate E; apply (f_equal (fun o => match o with Some z => z | None => -1 end)) in E; lia
            |intros E; first [f_equal; lia|exfalso; lia]]).
Qed.
Lemma digit_val_none base s c : base = 10 \/ base = 16 -> no_digit_first base (c :: s) -> digit_val base c = None.
Proof.
  intros Hb H. destruct (digit_val base c) eqn:E; [|reflexivity]. apply digit_val_iff in E; [|assumption].
  exfalso. exact (H z E).
Qed.

Lemma scan_app base ds m : base = 10 \/ base = 16 -> digits base ds m -> forall rest acc seen,
  scan_digits base (ds ++ rest) acc seen = scan_digits base rest (acc * base ^ Z.of_nat (length ds) + m) true.
Proof.
  intros Hb H. induction H as [c d Hd|s v c d H IH Hd]; intros rest acc seen.
  - cbn [app scan_digits length]. apply (digit_val_iff base) in Hd; [|assumption]. rewrite Hd.
    f_equal. change (Z.of_nat 1) with 1. rewrite Z.pow_1_r. reflexivity.
  - rewrite <- app_assoc. rewrite IH. cbn [app scan_digits].
    apply (digit_val_iff base) in Hd; [|assumption]. rewrite Hd.
    f_equal. rewrite app_length. cbn [length]. rewrite Nat.add_1_r, Nat2Z.inj_succ, Z.pow_succ_r by lia. ring.
Qed.
Lemma scan_stop base rest acc seen : base = 10 \/ base = 16 -> no_digit_first base rest ->
  scan_digits base rest acc seen = (acc, seen).
Proof.
  intros Hb H. destruct rest as [|c r]; [reflexivity|]. cbn [scan_digits].
  rewrite (digit_val_none base r) by assumption. reflexivity.
Qed.
Lemma scan_literal base ds m rest : base = 10 \/ base = 16 -> digits base ds m -> no_digit_first base rest ->
  scan_digits base (ds ++ rest) 0 false = (m, true).
Proof. intros. rewrite (scan_app base ds m) by assumption. rewrite scan_stop by assumption. reflexivity. Qed.

Lemma digits_nonneg base s v : base = 10 \/ base = 16 -> digits base s v -> 0 <= v.
Proof.
  intros Hb H. induction H as [c d Hd|s v c d H IH Hd]; unfold is_digit in Hd; [lia|].
  assert (0 <= v * base) by (apply Z.mul_nonneg_nonneg; lia). lia.
Qed.
Lemma digits_head base s v : digits base s v -> exists c r d, s = c :: r /\ is_digit base c d.
Proof.
  intros H. induction H as [c d Hd|s v c d H IH Hd]; [exists c, [], d; auto|].
  destruct IH as (c0 & r & d0 & -> & H0). exists c0, (r ++ [c]), d0. auto.
Qed.
Lemma digits_all base s v : digits base s v -> Forall (fun c => exists d, is_digit base c d) s.
Proof.
  intros H. induction H as [c d Hd|s v c d H IH Hd]; [constructor; [exists d; exact Hd|constructor]|].
  apply Forall_app. split; [exact IH|constructor; [exists d; exact Hd|constructor]].
Qed.

Lemma skip_start_eq s : skip_start s = match s with c :: r => if is_blank false c then skip_start r else s | [] => [] end.
Proof.
  unfold skip_start. destruct s as [|c r]; [reflexivity|]. cbn [SkipStartWhitespace].
  destruct (is_blank false c); reflexivity.
Qed.
Lemma is_blank_spec c : is_blank false c = true <-> c = 32 \/ c = 9.
Proof. unfold is_blank. cbn [andb]. lia. Qed.
Lemma skip_start_blanks b s : blanks b -> skip_start (b ++ s) = skip_start s.
Proof.
  induction b as [|c b IH]; intros H; [reflexivity|]. inversion H as [|? ? H1 H2]; subst.
  cbn [app]. rewrite skip_start_eq. apply is_blank_spec in H1. rewrite H1. apply IH. exact H2.
Qed.
Lemma skip_start_id c s : c <> 32 -> c <> 9 -> skip_start (c :: s) = c :: s.
Proof.
  intros. rewrite skip_start_eq. destruct (is_blank false c) eqn:E; [|reflexivity]. apply is_blank_spec in E. lia.
Qed.
Lemma skip_start_split s : exists b, s = b ++ skip_start s /\ blanks b /\
  match skip_start s with [] => True | c :: _ => c <> 32 /\ c <> 9 end.
Proof.
  induction s as [|c s IH]; [exists []; repeat constructor|].
  rewrite skip_start_eq. destruct (is_blank false c) eqn:E.
  - destruct IH as (b & E2 & Hb & Hn). exists (c :: b). repeat split.
    + cbn. rewrite <- E2. reflexivity.
    + constructor; [apply is_blank_spec; exact E|exact Hb].
    + exact Hn.
  - exists []. repeat split; [constructor| |]; intros ->; discriminate E.
Qed.
Lemma skip_start_idem s : skip_start (skip_start s) = skip_start s.
Proof.
  destruct (skip_start_split s) as (b & _ & _ & H). destruct (skip_start s) as [|c r]; [reflexivity|].
  apply skip_start_id; tauto.
Qed.
Lemma skip_space_split s : exists ws, s = ws ++ skip_space s /\ Forall white ws.
Proof.
  induction s as [|c s IH]; [exists []; split; [reflexivity|constructor]|]. cbn [skip_space].
  destruct (c_isspace c) eqn:E.
  - destruct IH as (ws & E2 & H). exists (c :: ws). split; [cbn; rewrite <- E2; reflexivity|].
    constructor; [|exact H]. unfold c_isspace, white in *. lia.
  - exists []. split; [reflexivity|constructor].
Qed.
Lemma skip_space_id c s : c_isspace c = false -> skip_space (c :: s) = c :: s.
Proof. intros E. cbn [skip_space]. rewrite E. reflexivity. Qed.

Lemma digit_no_space base c d : is_digit base c d -> c_isspace c = false /\ c <> 45 /\ c <> 43 /\ c <> 32 /\ c <> 9.
Proof. unfold is_digit, c_isspace. lia. Qed.

(** The sign part of strto on a text whose first character is no digit-eater. *)
Lemma strto_unsigned base c s : c_isspace c = false -> c <> 45 -> c <> 43 ->
  strto base (c :: s) =
  let '(v, seen) := scan_digits base (strip_hex base (c :: s)) 0 false in if seen then Some (false, v) else None.
Proof.
  intros E H1 H2. unfold strto. rewrite skip_space_id by assumption.
  destruct (Z.eqb_spec c 45); [contradiction|]. destruct (Z.eqb_spec c 43); [contradiction|]. reflexivity.
Qed.
Lemma strto_signed base c s : c = 45 \/ c = 43 ->
  strto base (c :: s) =
  let '(v, seen) := scan_digits base (strip_hex base s) 0 false in if seen then Some (c =? 45, v) else None.
Proof.
  intros H. unfold strto. rewrite skip_space_id by (unfold c_isspace; lia).
  destruct H as [-> | ->]; reflexivity.
Qed.

Lemma prefix_dec (s : list Z) : strip_hex 10 s = s.
Proof. destruct s as [|z [|x [|d r]]]; reflexivity. Qed.
Lemma prefix_hex (d : Z) (r : list Z) v : is_digit 16 d v -> strip_hex 16 (48 :: 120 :: d :: r) = d :: r.
Proof. intros H. apply digit_val_iff in H; [|auto]. unfold strip_hex. rewrite H. reflexivity. Qed.

(** Everything the setters need to know about a literal. *)
Lemma literal_parse text neg m : literal text neg m ->
  0 <= m /\ exists s, skip_start text = s /\ first_is_minus s = neg /\ strto (number_base s) s = Some (neg, m).
Proof.
  intros H. destruct H as [b sg neg ds m rest Hb Hs Hd Hr Hx|b sg neg ds m rest Hb Hs Hd Hr].
  - split; [eapply digits_nonneg; [|exact Hd]; auto|]. rewrite skip_start_blanks by assumption.
    destruct (digits_head _ _ _ Hd) as (c & r & d & E & Hc). pose proof (digit_no_space _ _ _ Hc) as (N1 & N2 & N3 & N4 & N5).
    pose proof (digits_all _ _ _ Hd) as Ha.
    assert (NX : starts_with [48; 120] (ds ++ rest) = false).
    { destruct (starts_with [48; 120] (ds ++ rest)) eqn:X; [|reflexivity]. exfalso. subst ds. cbn [app starts_with] in X.
      destruct (Z.eqb_spec 48 c) as [<-|]; [|discriminate X]. cbn [andb] in X.
      destruct r as [|c' r']; cbn [app] in X.
      - destruct rest as [|y rest]; [discriminate X|]. destruct (Z.eqb_spec 120 y) as [<-|]; [|discriminate X].
        apply (Hx eq_refl rest). reflexivity.
      - destruct (Z.eqb_spec 120 c') as [<-|]; [|discriminate X].
        inversion Ha as [|? ? _ Ha']; subst. inversion Ha' as [|? ? [d' Hd'] _]; subst. unfold is_digit in Hd'. lia. }
    destruct Hs as [[-> ->]|[[-> ->]|[-> ->]]]; cbn [app].
    + exists (ds ++ rest). split; [subst ds; apply skip_start_id; assumption|].
      split; [subst ds; cbn [app first_is_minus]; apply Z.eqb_neq; exact N2|].
      assert (number_base (ds ++ rest) = 10) as ->.
      { unfold number_base. rewrite NX. subst ds. cbn [app starts_with orb]. destruct (Z.eqb_spec 45 c); [lia|reflexivity]. }
      pose proof (scan_literal 10 ds m rest ltac:(auto) Hd Hr) as S. subst ds. cbn [app] in *.
      rewrite strto_unsigned by assumption. rewrite prefix_dec. rewrite S. reflexivity.
    + exists (43 :: ds ++ rest). split; [apply skip_start_id; discriminate|]. split; [reflexivity|].
      change (number_base (43 :: ds ++ rest)) with 10.
      pose proof (scan_literal 10 ds m rest ltac:(auto) Hd Hr) as S.
      rewrite strto_signed by auto. rewrite prefix_dec. rewrite S. reflexivity.
    + exists (45 :: ds ++ rest). split; [apply skip_start_id; discriminate|]. split; [reflexivity|].
      assert (number_base (45 :: ds ++ rest) = 10) as ->.
      { unfold number_base. change (starts_with [45; 48; 120] (45 :: ds ++ rest)) with (starts_with [48; 120] (ds ++ rest)).
        rewrite NX. reflexivity. }
      pose proof (scan_literal 10 ds m rest ltac:(auto) Hd Hr) as S.
      rewrite strto_signed by auto. rewrite prefix_dec. rewrite S. reflexivity.
  - split; [eapply digits_nonneg; [|exact Hd]; auto|]. rewrite skip_start_blanks by assumption.
    destruct (digits_head _ _ _ Hd) as (c & r & d & E & Hc).
    pose proof (scan_literal 16 ds m rest ltac:(auto) Hd Hr) as S.
    destruct Hs as [[-> ->]|[-> ->]]; cbn [app].
    + exists (48 :: 120 :: ds ++ rest). split; [apply skip_start_id; discriminate|]. split; [reflexivity|].
      change (number_base (48 :: 120 :: ds ++ rest)) with 16.
      rewrite strto_unsigned by (reflexivity || discriminate). subst ds. cbn [app] in *.
      rewrite (prefix_hex c _ d Hc). rewrite S. reflexivity.
    + exists (45 :: 48 :: 120 :: ds ++ rest). split; [apply skip_start_id; discriminate|]. split; [reflexivity|].
      change (number_base (45 :: 48 :: 120 :: ds ++ rest)) with 16.
      rewrite strto_signed by auto. subst ds. cbn [app] in *.
      rewrite (prefix_hex c _ d Hc). rewrite S. reflexivity.
Qed.

Lemma malformed_parse text : malformed text -> let s := skip_start text in strto (number_base s) s = None.
Proof.
  intros H s. destruct (skip_start_split text) as (b & E & Hb & _). fold s in E.
  assert (Hw : Forall white b).
  { eapply Forall_impl; [|exact Hb]. intros c [-> | ->]; unfold white; lia. }
  assert (NB : number_base s = 10).
  { unfold number_base. destruct (starts_with [48; 120] s) eqn:X1.
    - exfalso. destruct s as [|c s']; [discriminate X1|]. cbn [starts_with] in X1.
      destruct (Z.eqb_spec 48 c) as [<-|]; [|discriminate X1].
      assert (N : no_digit_first 10 (48 :: s')) by (apply (H b [] (48 :: s')); auto).
      apply (N 0). left. lia.
    - destruct (starts_with [45; 48; 120] s) eqn:X2; [|reflexivity].
      exfalso. destruct s as [|c [|c' s']]; try discriminate X2.
      { cbn [starts_with] in X2. destruct (45 =? c); discriminate X2. }
      cbn [starts_with] in X2.
      destruct (Z.eqb_spec 45 c) as [<-|]; [|discriminate X2]. destruct (Z.eqb_spec 48 c') as [<-|]; [|discriminate X2].
      assert (N : no_digit_first 10 (48 :: s')) by (apply (H b [45] (48 :: s')); auto).
      apply (N 0). left. lia. }
  rewrite NB. unfold strto. destruct (skip_space_split s) as (ws & E2 & Hws).
  assert (Hbw : Forall white (b ++ ws)) by (apply Forall_app; auto).
  destruct (skip_space s) as [|c s1] eqn:E3.
  - reflexivity.
  - destruct (Z.eqb_spec c 45) as [->|N1]; [|destruct (Z.eqb_spec c 43) as [->|N2]].
    + rewrite prefix_dec. rewrite scan_stop; [reflexivity|auto|].
      apply (H (b ++ ws) [45] s1); [rewrite E, E2, <- app_assoc; reflexivity|assumption|auto].
    + rewrite prefix_dec. rewrite scan_stop; [reflexivity|auto|].
      apply (H (b ++ ws) [43] s1); [rewrite E, E2, <- app_assoc; reflexivity|assumption|auto].
    + rewrite prefix_dec. rewrite scan_stop; [reflexivity|auto|].
      apply (H (b ++ ws) [] (c :: s1)); [rewrite E, E2, <- app_assoc; reflexivity|assumption|auto].
Qed.

(** ** Memory *)
Lemma store_ok bs addr mem : inside addr (length bs) mem ->
  exists new, store bs addr mem = Some new /\ replaced mem addr bs new.
Proof.
  unfold inside, store, replaced. intros H. destruct (Nat.leb_spec (addr + length bs) (length mem)); [|lia].
  eexists. split; [reflexivity|]. exists (firstn addr mem), (firstn (length bs) (skipn addr mem)), (skipn (addr + length bs) mem).
  repeat split.
  - rewrite <- (firstn_skipn addr mem) at 1. f_equal.
    rewrite <- (firstn_skipn (length bs) (skipn addr mem)) at 1. f_equal. rewrite skipn_skipn. f_equal. lia.
  - rewrite firstn_length. lia.
  - rewrite firstn_length, skipn_length. lia.
Qed.
Lemma store_inv bs addr mem new : store bs addr mem = Some new -> inside addr (length bs) mem /\ replaced mem addr bs new.
Proof.
  intros E. unfold store in E. destruct (Nat.leb_spec (addr + length bs) (length mem)) as [L|]; [|discriminate].
  split; [exact L|]. destruct (store_ok bs addr mem L) as (n' & E2 & R). unfold store in E2.
  destruct (Nat.leb_spec (addr + length bs) (length mem)); [|lia]. congruence.
Qed.
Lemma replaced_bytes mem addr bs new : replaced mem addr bs new -> bytes_at addr (length bs) new = bs.
Proof.
  intros (a & m & z & _ & La & _ & ->). unfold bytes_at. subst addr. rewrite skipn_app_exact. apply firstn_app_exact.
Qed.
Lemma replaced_outside mem addr bs new : replaced mem addr bs new -> same_outside addr (length bs) mem new.
Proof.
  intros (a & m & z & -> & La & Lm & ->). subst addr. split; [rewrite !app_length; lia|].
  intros i Hi. destruct Hi as [Hi|Hi].
  - rewrite !nth_error_app1 by lia. reflexivity.
  - rewrite (nth_error_app2 a) by lia. rewrite (nth_error_app2 a) by lia.
    rewrite (nth_error_app2 m) by lia. rewrite (nth_error_app2 bs) by lia. f_equal. lia.
Qed.
Lemma replaced_length mem addr bs new : replaced mem addr bs new -> length new = length mem.
Proof. intros (a & m & z & -> & _ & Lm & ->). rewrite !app_length. lia. Qed.
Lemma replaced_self mem addr n : inside addr n mem -> replaced mem addr (bytes_at addr n mem) mem.
Proof.
  intros H. unfold inside, bytes_at in *.
  exists (firstn addr mem), (firstn n (skipn addr mem)), (skipn (addr + n) mem).
  assert (E : mem = firstn addr mem ++ firstn n (skipn addr mem) ++ skipn (addr + n) mem).
  { rewrite <- (firstn_skipn addr mem) at 1. f_equal.
    rewrite <- (firstn_skipn n (skipn addr mem)) at 1. f_equal. rewrite skipn_skipn. f_equal. lia. }
  repeat split; [exact E|rewrite firstn_length; lia|exact E].
Qed.
Lemma load_ok n addr mem : inside addr n mem -> load n addr mem = Some (bytes_at addr n mem).
Proof. unfold inside, load, bytes_at. intros H. destruct (Nat.leb_spec (addr + n) (length mem)); [reflexivity|lia]. Qed.
Lemma load_none n addr mem : ~ inside addr n mem -> load n addr mem = None.
Proof. unfold inside, load. intros H. destruct (Nat.leb_spec (addr + n) (length mem)); [contradiction|reflexivity]. Qed.
Lemma bytes_at_length n addr mem : inside addr n mem -> length (bytes_at addr n mem) = n.
Proof. unfold inside, bytes_at. intros. rewrite firstn_length, skipn_length. lia. Qed.

Lemma assign_value n e x addr mem : inside addr n mem ->
  exists new, assign n (e, Some x) addr mem = Some (e, new) /\ replaced mem addr (le_bytes n x) new.
Proof.
  intros H. unfold assign.
  destruct (store_ok (le_bytes n x) addr mem) as (new & -> & R); [rewrite le_bytes_length; exact H|].
  exists new. auto.
Qed.
Lemma assign_none n e addr mem : assign n (e, None) addr mem = Some (e, mem).
Proof. reflexivity. Qed.

(** ** The number setters *)
Lemma SetSigned_literal w text neg m : 8 <= w <= 64 -> literal text neg m ->
  let v := if neg then - m else m in
  SetSigned w (skip_start text) =
    (if (- 2 ^ (w - 1) <=? v) && (v <? 2 ^ (w - 1)) then ENone else EOutOfRange,
     Some (clamp (- 2 ^ (w - 1)) (2 ^ (w - 1) - 1) v)).
Proof.
  intros Hw H v. destruct (literal_parse _ _ _ H) as (Hm & s & -> & Hn & Hp).
  assert (Hp63 : 2 ^ (w - 1) <= 2 ^ 63) by (apply Z.pow_le_mono_r; lia).
  pose proof (pow2_pos (w - 1) ltac:(lia)) as Hpos.
  unfold SetSigned, stoll. rewrite Hp, Hn. fold v.
  remember (2 ^ (w - 1)) as P eqn:EP. clear EP. remember (2 ^ 63) as Q. clear HeqQ.
  assert (Hv : v = m \/ v = - m) by (unfold v; destruct neg; auto).
  assert (Hsign : if neg then v <= 0 else 0 <= v) by (unfold v; destruct neg; lia).
  clearbody v. unfold clamp.
  destruct (Z.ltb_spec v (- Q)), (Z.leb_spec Q v), (Z.leb_spec (- P) v), (Z.ltb_spec v P), (Z.ltb_spec (P - 1) v), (Z.ltb_spec v (- P)), neg;
    cbn [orb andb]; try (exfalso; lia); f_equal; f_equal; try lia.
  all: destruct (Z.ltb_spec (P - 1) v), (Z.ltb_spec v (- P)); cbn [orb]; try (exfalso; lia); f_equal; f_equal; lia.
Qed.

Lemma SetUnsigned_literal (cast : Z -> Z) uMax text neg m : 0 <= uMax < 2 ^ 64 -> literal text neg m ->
  SetUnsigned cast uMax (skip_start text) =
    if 2 ^ 64 <=? m then (EOutOfRange, Some uMax)
    else if neg then
      let v := cast (u64 (- m)) in if uMax <? v then (EOutOfRange, Some uMax) else (ESignMismatch, Some v)
    else (if m <=? uMax then ENone else EOutOfRange, Some (Z.min uMax m)).
Proof.
  intros Hu H. destruct (literal_parse _ _ _ H) as (Hm & s & -> & Hn & Hp).
  unfold SetUnsigned, stoull. rewrite Hp, Hn. destruct (Z.leb_spec (2 ^ 64) m); [reflexivity|].
  destruct neg; [reflexivity|].
  destruct (Z.ltb_spec uMax m), (Z.leb_spec m uMax); try lia; f_equal; f_equal; lia.
Qed.
Lemma SetSigned_malformed w text : malformed text -> SetSigned w (skip_start text) = (EInvalidFormat, None).
Proof. intros H. unfold SetSigned, stoll. pose proof (malformed_parse _ H) as E. cbv zeta in E. rewrite E. reflexivity. Qed.
Lemma SetUnsigned_malformed cast u text : malformed text -> SetUnsigned cast u (skip_start text) = (EInvalidFormat, None).
Proof. intros H. unfold SetUnsigned, stoull. pose proof (malformed_parse _ H) as E. cbv zeta in E. rewrite E. reflexivity. Qed.
