(** C72: error messages. *)
From Coq Require Import Strings.String.
From Verif Require Import Base Supercore_Model Supercore_Spec Supercore_Proof Reflector_Model Errors_Model Errors_Spec.

Lemma strlen_shown l n k : c_strlen l = Some n -> firstn (Nat.min k n) l = shown l k.
Proof.
  revert n k. induction l as [|b l IH]; intros n k E; [discriminate E|]. cbn [c_strlen] in E.
  destruct (Z.eqb_spec b 0) as [->|B].
  - injection E as <-. rewrite Nat.min_0_r. destruct k; reflexivity.
  - destruct (c_strlen l) as [m|] eqn:M; [|discriminate E]. injection E as <-. destruct k as [|k]; [reflexivity|].
    cbn [Nat.min firstn shown]. destruct (Z.eqb_spec b 0); [contradiction|]. f_equal. apply IH. reflexivity.
Qed.
Lemma strlen_none l : c_strlen l = None <-> ~ In 0 l.
Proof.
  induction l as [|b l IH]; cbn [c_strlen In]; [split; auto|]. destruct (Z.eqb_spec b 0) as [->|B].
  - split; [discriminate|]. intros H. exfalso. apply H. auto.
  - destruct (c_strlen l) as [m|]; cbn [option_map].
    + split; [discriminate|]. intros H. exfalso. destruct IH as [_ IH]. enough (@Some nat m = None) by discriminate. apply IH. tauto.
    + split; [|reflexivity]. intros _ [H|H]; [contradiction|]. apply IH in H; auto.
Qed.
Lemma Decompile_shown v size : DecompileFourCC v size =
  if (if c_strlen (le_bytes 8 v) then true else false) then
    match all_alnum (shown (le_bytes 8 v) size) with
    | None => None | Some true => Some (shown (le_bytes 8 v) size) | Some false => Some (flat_map hex_byte (shown (le_bytes 8 v) size)) end
  else None.
Proof. unfold DecompileFourCC. destruct (c_strlen (le_bytes 8 v)) as [n|] eqn:E; [|reflexivity]. rewrite (strlen_shown _ _ _ E). reflexivity. Qed.

Lemma hexdigit d : 0 <= d < 16 -> hex_digit d = digit_char d.
Proof. unfold hex_digit, digit_char. destruct (Z.ltb_spec d 10); lia. Qed.
Lemma hex_byte_writes b : 0 <= b < 256 -> exists d, writes 16 b d /\ hex_byte b = [48; 120] ++ d ++ [32].
Proof.
  intros B. unfold hex_byte. destruct (Z.ltb_spec b 16).
  - exists [hex_digit b]. split; [|reflexivity]. exists [b]. cbn. rewrite hexdigit by lia. repeat split; try discriminate; auto.
    constructor; [lia|constructor].
  - exists [hex_digit (b / 16); hex_digit (b mod 16)]. split; [|reflexivity]. exists [b / 16; b mod 16]. cbn [map length hd fold_left].
    rewrite !hexdigit by lia. split; [reflexivity|]. split; [constructor; [lia|constructor; [lia|constructor]]|]. split; [discriminate|]. split; lia.
Qed.
Lemma hex_flat s : Forall (fun b => 0 <= b < 256) s -> hex_list s (flat_map hex_byte s).
Proof.
  induction 1 as [|b s B _ IH]; [constructor|]. cbn [flat_map]. destruct (hex_byte_writes b B) as (d & W & ->).
  rewrite <- !app_assoc. constructor; assumption.
Qed.
Lemma all_alnum_spec s : Forall (fun b => 0 <= b < 256) s ->
  match all_alnum s with
  | Some true => Forall alnum s
  | Some false => exists a c b, s = a ++ c :: b /\ Forall alnum a /\ ~ alnum c /\ (c < 128 \/ c = 255)
  | None => exists a c b, s = a ++ c :: b /\ Forall alnum a /\ 128 <= c < 255
  end.
Proof.
  induction 1 as [|c s C _ IH]; [constructor|]. cbn [all_alnum]. unfold c_isalnum. destruct (Z.ltb_spec c 128).
  - match goal with |- context [if ?x then _ else _] => destruct x eqn:X end.
    + assert (A : alnum c) by (unfold alnum; lia). destruct (all_alnum s) as [[]|].
      * constructor; assumption.
      * destruct IH as (a & x & b & -> & Ha & Hx). exists (c :: a), x, b. split; [reflexivity|]. split; [constructor; assumption|exact Hx].
      * destruct IH as (a & x & b & -> & Ha & Hx). exists (c :: a), x, b. split; [reflexivity|]. split; [constructor; assumption|exact Hx].
    + exists [], c, s. split; [reflexivity|]. split; [constructor|]. split; [unfold alnum; lia|auto].
  - destruct (Z.eqb_spec c 255).
    + exists [], c, s. split; [reflexivity|]. split; [constructor|]. split; [unfold alnum; lia|auto].
    + exists [], c, s. split; [reflexivity|]. split; [constructor|]. lia.
Qed.
Lemma shown_bytes l size : Forall (fun b => 0 <= b < 256) l -> Forall (fun b => 0 <= b < 256) (shown l size).
Proof. revert size. induction l as [|b l IH]; intros [|n] F; cbn [shown]; try constructor. inversion F as [|? ? F1 F2]. subst. destruct (b =? 0); constructor; auto. Qed.
Lemma le_bytes_ok n x : Forall (fun b => 0 <= b < 256) (le_bytes n x).
Proof. revert x. induction n as [|n IH]; intros x; cbn [le_bytes]; constructor; [lia|apply IH]. Qed.

Lemma le_bytes_small w : forall x k, 0 <= x < 256 ^ Z.of_nat w -> le_bytes (w + k) x = le_bytes w x ++ repeat 0 k.
Proof.
  induction w as [|w IH]; intros x k X.
  - change (256 ^ Z.of_nat 0) with 1 in X. assert (x = 0) by lia. subst x. cbn [Nat.add le_bytes app].
    induction k as [|k IHk]; [reflexivity|]. cbn [le_bytes repeat]. change (0 mod 256) with 0. change (0 / 256) with 0. rewrite IHk. reflexivity.
  - cbn [Nat.add le_bytes app]. f_equal. apply IH. rewrite Nat2Z.inj_succ, Z.pow_succ_r in X by lia. split; [apply Z.div_pos; lia|].
    apply Z.div_lt_upper_bound; lia.
Qed.
Lemma shown_app_zero l k size : shown (l ++ repeat 0 k) size = shown l size.
Proof.
  revert size. induction l as [|b l IH]; intros size.
  - cbn [app]. destruct k, size; reflexivity.
  - destruct size; [reflexivity|]. cbn [app shown]. rewrite IH. reflexivity.
Qed.
Lemma small_magic w v size : (w < 8)%nat -> 0 <= v < 256 ^ Z.of_nat w ->
  DecompileFourCC (u64 v) size = match all_alnum (shown (le_bytes w v) size) with
    | None => None | Some true => Some (shown (le_bytes w v) size) | Some false => Some (flat_map hex_byte (shown (le_bytes w v) size)) end.
Proof.
  intros W V. assert (P : 256 ^ Z.of_nat w <= 256 ^ 7) by (apply Z.pow_le_mono_r; lia).
  assert (Q : (256 ^ 7) < 2 ^ 64) by reflexivity.
  replace (u64 v) with v by (unfold u64, wrap; rewrite Z.mod_small; [reflexivity|split; [apply V|]; eapply Z.lt_trans; [|exact Q]; eapply Z.lt_le_trans; [apply V|exact P]]).
  rewrite Decompile_shown. replace 8%nat with (w + S (7 - w))%nat by lia. rewrite le_bytes_small by exact V.
  destruct (c_strlen _) as [n|] eqn:E; [|exfalso; apply strlen_none in E; apply E, in_or_app; right; left; reflexivity].
  rewrite shown_app_zero. reflexivity.
Qed.

(** A tag kept in an unsigned value of less than 8 bytes: the message names the first [size]
    characters of the tag, up to a NUL - themselves when all are letters or digits, else
    the number of each. *)
Theorem C72_header_message : forall w v size, (w < 8)%nat -> 0 <= v < 256 ^ Z.of_nat w -> Forall askable (shown (le_bytes w v) size) ->
  exists t, InvalidHeaderError (Magic v size) = Some (ascii "Invalid format: " ++ t) /\ rendered (shown (le_bytes w v) size) t.
Proof.
  intros w v size W V A. cbn [InvalidHeaderError]. rewrite (small_magic w) by assumption.
  pose proof (shown_bytes _ size (le_bytes_ok w v)) as B. pose proof (all_alnum_spec _ B) as S1.
  destruct (all_alnum _) as [[]|].
  - eexists. split; [reflexivity|]. left. auto.
  - eexists. split; [reflexivity|]. right. split; [|apply hex_flat, B]. destruct S1 as (a & c & b & E & _ & N & _). rewrite E.
    intros F. apply Forall_app in F. destruct F as [_ F]. inversion F. contradiction.
  - exfalso. destruct S1 as (a & c & b & E & _ & N). rewrite E in A. apply Forall_app in A. destruct A as [_ A].
    inversion A as [|? ? A1]. unfold askable in A1. lia.
Qed.
Print Assumptions C72_header_message.

(** Which messages exist at all: the value, widened to 8 bytes, must contain a zero byte, and
    the first character shown that is neither letter nor digit must be one isalnum knows. *)
Theorem C72_defined : forall v size, InvalidHeaderError (Magic v size) <> None <->
  In 0 (le_bytes 8 (u64 v)) /\ forall a c b, shown (le_bytes 8 (u64 v)) size = a ++ c :: b -> Forall alnum a -> alnum c \/ askable c.
Proof.
  intros v size. cbn [InvalidHeaderError]. rewrite Decompile_shown. pose proof (shown_bytes _ size (le_bytes_ok 8 (u64 v))) as B.
  pose proof (all_alnum_spec _ B) as S1. destruct (c_strlen _) as [n|] eqn:E.
  - assert (I : In 0 (le_bytes 8 (u64 v))).
    { destruct (in_dec Z.eq_dec 0 (le_bytes 8 (u64 v))) as [H|H]; [exact H|]. apply strlen_none in H. congruence. }
    assert (Z0 : Forall (fun b => b <> 0) (shown (le_bytes 8 (u64 v)) size)).
    { generalize (le_bytes 8 (u64 v)) size. clear. induction l as [|b l IH]; intros [|n]; cbn [shown]; try constructor.
      destruct (Z.eqb_spec b 0); constructor; auto. }
    destruct (all_alnum _) as [[]|].
    + split; [|discriminate]. intros _. split; [exact I|]. intros a c b Q _. rewrite Q in S1. apply Forall_app in S1. destruct S1 as [_ S1].
      inversion S1. auto.
    + split; [|discriminate]. intros _. split; [exact I|]. intros a c b Q Ha. destruct S1 as (a' & c' & b' & Q' & Ha' & Nc & Hc).
      rewrite Q in B, Z0. apply Forall_app in B. destruct B as [_ B]. inversion B as [|? ? Bc]. subst.
      apply Forall_app in Z0. destruct Z0 as [_ Z0]. inversion Z0 as [|? ? Zc]. subst.
      destruct (Z_lt_dec c 128) as [|G]; [right; left; lia|]. right.
      rewrite Q in Q'. assert (c = c').
      { clear -Q' Ha Ha' Nc G. revert a' Q' Ha'. induction a as [|x a IH]; intros [|y a'] Q' Ha'; cbn [app] in Q'.
        - injection Q'. auto.
        - injection Q' as -> _. inversion Ha' as [|? ? U]. unfold alnum in U. lia.
        - injection Q' as -> _. inversion Ha. contradiction.
        - injection Q' as -> Q'. inversion Ha. inversion Ha'. subst. eapply IH; eassumption. }
      subst c'. right. destruct Hc; [lia|assumption].
    + split; [intros H; exfalso; apply H; reflexivity|]. intros [_ H]. destruct S1 as (a & c & b & Q & Ha & Hc). specialize (H a c b Q Ha).
      unfold alnum, askable in H. lia.
  - apply strlen_none in E. split; [intros H; exfalso; apply H; reflexivity|]. intros [H _]. contradiction.
Qed.
Print Assumptions C72_defined.

(** A negative value without a zero byte, and any 8 byte value without one, has no end: the
    search for it leaves the object, even when [size] asks for fewer characters. *)
Theorem C72_negative_refuted :
  (forall w v size, (1 <= w <= 8)%nat -> - 256 ^ Z.of_nat w <= v < 0 -> ~ In 0 (le_bytes w v) -> InvalidHeaderError (Magic v size) = None) /\
  (forall v size, ~ In 0 (le_bytes 8 v) -> InvalidHeaderError (Magic v size) = None).
Proof.
  assert (U : forall v, le_bytes 8 (u64 v) = le_bytes 8 v).
  { intros v. unfold u64, wrap. change (2 ^ 64) with (256 ^ Z.of_nat 8). generalize 8%nat. intros n. revert v.
    induction n as [|n IH]; intros v; [reflexivity|]. cbn [le_bytes]. rewrite Nat2Z.inj_succ, Z.pow_succ_r by lia.
    assert (P : 0 < 256 ^ Z.of_nat n) by (apply Z.pow_pos_nonneg; lia).
    rewrite Z.rem_mul_r by lia. rewrite <- (IH (v / 256)). f_equal.
    - replace (v mod 256 + 256 * ((v / 256) mod 256 ^ Z.of_nat n)) with (v mod 256 + ((v / 256) mod 256 ^ Z.of_nat n) * 256) by ring.
      rewrite Z.mod_add by lia. apply Z.mod_mod. lia.
    - f_equal. generalize ((v / 256) mod 256 ^ Z.of_nat n). intros q. lia. }
  assert (G : forall v size, ~ In 0 (le_bytes 8 v) -> InvalidHeaderError (Magic v size) = None).
  { intros v size H. cbn [InvalidHeaderError]. rewrite Decompile_shown, U. apply strlen_none in H. rewrite H. reflexivity. }
  split; [|exact G]. intros w v size W V N. apply G. intros H. apply N.
  assert (D : forall w k v, - 256 ^ Z.of_nat w <= v < 0 -> le_bytes (w + k) v = le_bytes w v ++ repeat 255 k).
  { clear. induction w as [|w IH]; intros k v V.
    - change (256 ^ Z.of_nat 0) with 1 in V. assert (v = -1) by lia. subst v. cbn [Nat.add le_bytes app].
      induction k as [|k IHk]; [reflexivity|]. cbn [le_bytes repeat]. change (-1 mod 256) with 255. change (-1 / 256) with (-1). rewrite IHk. reflexivity.
    - cbn [Nat.add le_bytes app]. f_equal. apply IH. rewrite Nat2Z.inj_succ, Z.pow_succ_r in V by lia. lia. }
  replace 8%nat with (w + (8 - w))%nat in H by lia. rewrite D in H by exact V. apply in_app_or in H. destruct H as [H|H]; [exact H|].
  apply repeat_spec in H. discriminate.
Qed.
Print Assumptions C72_negative_refuted.

(** Two tags of up to 7 ASCII characters are shown the same way only if they are the same. *)
Theorem C72_distinct : forall s s' t, (length s < 8)%nat -> (length s' < 8)%nat ->
  Forall (fun c => 1 <= c < 128) s -> Forall (fun c => 1 <= c < 128) s' ->
  InvalidHeaderError (Magic (le_value s) 8) = Some t -> InvalidHeaderError (Magic (le_value s') 8) = Some t -> s = s'.
Proof.
  assert (K : forall s, (length s < 8)%nat -> Forall ascii_nz s -> exists t, InvalidHeaderError (Magic (le_value s) 8) = Some (ascii "Invalid format: " ++ t) /\
     ((Forall alnum s /\ t = s) \/ (~ Forall alnum s /\ t = flat_map hex_byte s))).
  { intros s L F. assert (V : 0 <= le_value s < 256 ^ Z.of_nat (length s) /\ le_bytes (length s) (le_value s) = s).
    { clear L. induction F as [|c s C _ IH]; [split; [cbn; lia|reflexivity]|]. unfold ascii_nz in C. cbn [length le_value le_bytes].
      rewrite Nat2Z.inj_succ, Z.pow_succ_r by lia. destruct IH as [I1 I2]. split; [lia|].
      replace (c + 256 * le_value s) with (c + le_value s * 256) by lia. rewrite Z.mod_add, Z.div_add by lia. rewrite Z.mod_small by lia.
      rewrite (Z.div_small c) by lia. rewrite Z.add_0_l, I2. reflexivity. }
    destruct V as [V B]. cbn [InvalidHeaderError]. rewrite (small_magic (length s)) by assumption. rewrite B.
    assert (Sh : shown s 8 = s).
    { clear -L F. revert L. generalize 8%nat. induction F as [|c s C _ IH]; intros [|n] L; cbn [length] in L; try lia; [reflexivity|].
      cbn [shown]. unfold ascii_nz in C. destruct (Z.eqb_spec c 0); [lia|]. rewrite IH by lia. reflexivity. }
    rewrite Sh. destruct (all_alnum_ascii s F) as (b & E & I). rewrite E. destruct b.
    - exists s. split; [reflexivity|]. left. split; [apply I; reflexivity|reflexivity].
    - eexists. split; [reflexivity|]. right. split; [|reflexivity]. intros H. apply I in H. discriminate. }
  intros s s' t L L' F F' E E'. destruct (K s L F) as (t1 & E1 & H1). destruct (K s' L' F') as (t2 & E2 & H2).
  rewrite E1 in E. rewrite E2 in E'. injection E as E. injection E' as E'. rewrite <- E' in E. injection E as E; subst t2.
  destruct H1 as [[A ->]|[A ->]], H2 as [[A' Q]|[A' Q]].
  - exact Q.
  - destruct s' as [|c s']; [exfalso; apply A'; constructor|]. exfalso. apply (alnum_no_space _ A). rewrite Q.
    apply hex_has_space; [discriminate|exact F'].
  - destruct s as [|c s]; [exfalso; apply A; constructor|]. exfalso. apply (alnum_no_space _ A'). rewrite <- Q.
    apply hex_has_space; [discriminate|exact F].
  - apply hex_list_inj; assumption.
Qed.
Print Assumptions C72_distinct.

Lemma dec_writes : forall f x, 0 <= x < 10 ^ Z.of_nat (S f) -> writes 10 x (dec_digits (S f) x).
Proof.
  induction f as [|f IH]; intros x X.
  - change (10 ^ Z.of_nat 1) with 10 in X. cbn [dec_digits]. destruct (Z.ltb_spec x 10); [|lia]. exists [x]. cbn [map length hd fold_left digit_char].
    unfold digit_char. destruct (Z.ltb_spec x 10); [|lia]. repeat split; try discriminate. constructor; [lia|constructor].
  - remember (S f) as g. cbn [dec_digits]. destruct (Z.ltb_spec x 10).
    + exists [x]. cbn [map length hd fold_left]. unfold digit_char. destruct (Z.ltb_spec x 10); [|lia].
      repeat split; try discriminate. constructor; [lia|constructor].
    + rewrite Nat2Z.inj_succ, Z.pow_succ_r in X by lia. destruct (IH (x / 10)) as (ds & E & F & N & H0 & V).
      { split; [apply Z.div_pos; lia|apply Z.div_lt_upper_bound; lia]. }
      exists (ds ++ [x mod 10]). rewrite E, map_app, fold_left_app, V. cbn [map fold_left]. replace (digit_char (x mod 10)) with (48 + x mod 10) by (unfold digit_char; destruct (Z.ltb_spec (x mod 10) 10); lia).
      split; [reflexivity|]. split; [apply Forall_app; split; [exact F|constructor; [lia|constructor]]|].
      split; [destruct ds; discriminate|]. split; [|lia].
      destruct ds as [|d ds]; [congruence|]. cbn [app hd] in *. intros Hd. specialize (H0 Hd). destruct ds; [|discriminate H0].
      exfalso. cbn in V. lia.
Qed.

(** The version is written in decimal; a file name as it is. *)
Theorem C72_version_and_files :
  (forall v, 0 <= v < 2 ^ 64 -> exists t, InvalidVersionError (Some v) = ascii "Invalid version: " ++ t /\ writes 10 v t) /\
  (forall n, FileNotFoundError (Some n) = ascii "Couldn't open file: " ++ n /\ FileInvalidAccessError (Some n) = ascii "Couldn't access file: " ++ n) /\
  (forall s, InvalidHeaderError (Text s) = Some (ascii "Invalid format: " ++ s)) /\
  (InvalidVersionError None = ascii "Invalid version." /\ FileNotFoundError None = ascii "Couldn't open file." /\
   FileInvalidAccessError None = ascii "Couldn't access file." /\ InvalidHeaderError NoArg = Some (ascii "Invalid format.") /\
   UnexpectedEOS = ascii "Unexpected end of stream.").
Proof.
  split; [|split; [split; reflexivity|split; [reflexivity|repeat split; reflexivity]]]. intros v V. exists (to_string v). split.
  - unfold InvalidVersionError, u64, wrap. rewrite Z.mod_small by exact V. reflexivity.
  - unfold to_string. destruct (Z.ltb_spec v 0); [lia|]. apply dec_writes. split; [lia|]. eapply Z.lt_trans; [apply V|]. reflexivity.
Qed.
Print Assumptions C72_version_and_files.

Example C72_example :
  InvalidHeaderError (Magic 0x5453494C 4) = Some (ascii "Invalid format: LIST") /\
  InvalidHeaderError (Magic 0x20544D46 4) = Some (ascii "Invalid format: 0x46 0x4D 0x54 0x20 ") /\
  InvalidHeaderError (Magic 0x5453494C 2) = Some (ascii "Invalid format: LI") /\
  InvalidHeaderError (Magic (-2) 4) = None /\
  InvalidVersionError (Some 120) = ascii "Invalid version: 120".
Proof. vm_compute. repeat split; reflexivity. Qed.
