(** C82: console colours. *)
From Verif Require Import Base Flags_Model Reflector_Model Errors_Spec Errors_Props VecText_Props Console_Model Console_Spec.

Lemma decimal_to_string x : is_int x -> decimal x (to_string x).
Proof.
  unfold is_int. intros H. unfold to_string. destruct (Z.ltb_spec x 0).
  - right. split; [assumption|]. eexists. split; [reflexivity|]. apply dec_writes. split; [lia|]. change (10 ^ Z.of_nat 20) with 100000000000000000000. lia.
  - left. split; [assumption|]. apply dec_writes. split; [lia|]. change (10 ^ Z.of_nat 20) with 100000000000000000000. lia.
Qed.
Lemma dec_len f : forall x n, (1 <= n)%nat -> 0 <= x < 10 ^ Z.of_nat n -> (length (dec_digits f x) <= n)%nat.
Proof.
  induction f as [|f IH]; intros x n N X; [cbn; lia|]. cbn [dec_digits]. destruct (Z.ltb_spec x 10); [cbn; lia|].
  destruct n as [|[|n]]; [lia|change (10 ^ Z.of_nat 1) with 10 in X; lia|]. rewrite app_length. cbn [length].
  rewrite Nat2Z.inj_succ, Z.pow_succ_r in X by lia. specialize (IH (x / 10) (S n) ltac:(lia)).
  assert (0 <= x / 10 < 10 ^ Z.of_nat (S n)) by (split; [apply Z.div_pos; lia|apply Z.div_lt_upper_bound; lia]). specialize (IH H0). lia.
Qed.
Lemma writes_bound n t : writes 10 n t -> 0 <= n < 10 ^ Z.of_nat (length t).
Proof.
  intros (ds & -> & F & _ & _ & <-). rewrite map_length. induction ds as [|d ds IH] using rev_ind; [cbn; lia|].
  apply Forall_app in F. destruct F as [F1 F2]. inversion F2 as [|? ? D]. subst. specialize (IH F1).
  rewrite fold_left_app, app_length. cbn [fold_left length]. rewrite Nat.add_1_r, Nat2Z.inj_succ, Z.pow_succ_r by lia. lia.
Qed.

(** The escape sequence of a colour, and when it fits the buffer. *)
Theorem C82_escape : forall r g b, is_int r -> is_int g -> is_int b -> exists t1 t2 t3, decimal r t1 /\ decimal g t2 /\ decimal b t3 /\
  ((length t1 + length t2 + length t3 <= 21)%nat -> set_ix r g b = Some ([27; 91] ++ [51; 56; 59] ++ [50; 59] ++ t1 ++ [59] ++ t2 ++ [59] ++ t3 ++ [109])) /\
  ((21 < length t1 + length t2 + length t3)%nat -> set_ix r g b = None).
Proof.
  intros r g b R G B. exists (to_string r), (to_string g), (to_string b). repeat (split; [apply decimal_to_string; assumption|]).
  unfold set_ix, buffer_size.
  assert (L : length (escape r g b) = (10 + (length (to_string r) + length (to_string g) + length (to_string b)))%nat).
  { unfold escape. rewrite !app_length. cbn [length]. lia. }
  rewrite L. split; intros H; destruct (Nat.leb_spec (S (10 + (length (to_string r) + length (to_string g) + length (to_string b)))) 32); try lia; reflexivity.
Qed.
Print Assumptions C82_escape.
(** All colours of components below ten million fit; three numbers of more do not. *)
Theorem C82_escape_safe :
  (forall r g b, (forall x, In x [r; g; b] -> - 10 ^ 6 < x < 10 ^ 7) -> set_ix r g b <> None) /\
  (forall r g b, (forall x, In x [r; g; b] -> is_int x /\ 10 ^ 7 <= Z.abs x) -> set_ix r g b = None).
Proof.
  split.
  - intros r g b H. assert (K : forall x, - 10 ^ 6 < x < 10 ^ 7 -> (length (to_string x) <= 7)%nat).
    { intros x X. unfold to_string. destruct (Z.ltb_spec x 0).
      - cbn [length]. pose proof (dec_len 20 (- x) 6 ltac:(lia)) as D. change (10 ^ Z.of_nat 6) with (10 ^ 6) in D. specialize (D ltac:(lia)). lia.
      - apply dec_len; [lia|]. change (10 ^ Z.of_nat 7) with (10 ^ 7). lia. }
    pose proof (K r (H r (or_introl eq_refl))). pose proof (K g (H g (or_intror (or_introl eq_refl)))).
    pose proof (K b (H b (or_intror (or_intror (or_introl eq_refl))))).
    unfold set_ix, buffer_size, escape. rewrite !app_length. cbn [length].
    destruct (Nat.leb_spec (S (7 + (length (to_string r) + (1 + (length (to_string g) + (1 + (length (to_string b) + 1))))))) 32); [discriminate|lia].
  - intros r g b H. destruct (H r) as [R R']; [cbn; auto|]. destruct (H g) as [G G']; [cbn; auto|]. destruct (H b) as [B B']; [cbn; auto|].
    destruct (C82_escape r g b R G B) as (t1 & t2 & t3 & D1 & D2 & D3 & _ & N). apply N. clear N.
    assert (K : forall x t, decimal x t -> 10 ^ 7 <= Z.abs x -> (8 <= length t)%nat).
    { clear. intros x t D X. assert (M : forall n d, writes 10 n d -> 10 ^ 7 <= n -> (8 <= length d)%nat).
      { intros n d W N. apply writes_bound in W. destruct (Nat.le_gt_cases 8 (length d)); [assumption|].
        assert (10 ^ Z.of_nat (length d) <= 10 ^ 7) by (apply Z.pow_le_mono_r; lia). lia. }
      destruct D as [[P W]|[P (d & -> & W)]]; [apply (M _ _ W); lia|]. cbn [length]. specialize (M _ _ W ltac:(lia)). lia. }
    pose proof (K _ _ D1 R'). pose proof (K _ _ D2 G'). pose proof (K _ _ D3 B'). lia.
Qed.
Print Assumptions C82_escape_safe.

Lemma dec_chars f : forall x, 0 <= x -> Forall (fun c => 48 <= c <= 57) (dec_digits f x).
Proof.
  induction f as [|f IH]; intros x X; [constructor|]. cbn [dec_digits]. destruct (Z.ltb_spec x 10); [constructor; [lia|constructor]|].
  apply Forall_app. split; [apply IH, Z.div_pos; lia|]. constructor; [lia|constructor].
Qed.
Lemma to_string_chars x : Forall (fun c => c <> 59 /\ c <> 109) (to_string x).
Proof.
  unfold to_string. destruct (Z.ltb_spec x 0); [constructor; [lia|]|]; (eapply Forall_impl; [|apply dec_chars; lia]); cbn; intros; lia.
Qed.
Lemma cut_at k (a a' b b' : list Z) : Forall (fun c => c <> k) a -> Forall (fun c => c <> k) a' -> a ++ k :: b = a' ++ k :: b' -> a = a' /\ b = b'.
Proof.
  intros F. revert a'. induction F as [|c a C _ IH]; intros [|c' a'] F' E; cbn [app] in E.
  - injection E. auto.
  - injection E as <- _. inversion F'. congruence.
  - injection E as -> _. congruence.
  - injection E as -> E. inversion F'. subst. destruct (IH a' ltac:(assumption) E) as [-> ->]. auto.
Qed.
(** Different colours have different sequences, none of which is the one that ends the colour. *)
Theorem C82_escape_distinct : forall r g b r' g' b' t, is_int r -> is_int g -> is_int b -> is_int r' -> is_int g' -> is_int b' ->
  set_ix r g b = Some t -> set_ix r' g' b' = Some t -> (r = r' /\ g = g' /\ b = b') /\ t <> restore_ix.
Proof.
  intros r g b r' g' b' t R G B R' G' B' E E'. unfold set_ix in *.
  destruct (S _ <=? _)%nat in E; [|discriminate E]. destruct (S _ <=? _)%nat in E'; [|discriminate E'].
  injection E as <-. injection E' as E. unfold escape in *. split; [|discriminate].
  cbn [app] in E.
  assert (C1 : forall x, Forall (fun c => c <> 59) (to_string x)) by (intros x; eapply Forall_impl; [|apply to_string_chars]; cbn; tauto).
  assert (C2 : forall x, Forall (fun c => c <> 109) (to_string x)) by (intros x; eapply Forall_impl; [|apply to_string_chars]; cbn; tauto).
  apply cut_at in E; [|apply C1|apply C1]. destruct E as [E1 E]. apply cut_at in E; [|apply C1|apply C1]. destruct E as [E2 E].
  apply cut_at in E; [|apply C2|apply C2]. destruct E as [E3 _].
  assert (I : forall x y, is_int x -> is_int y -> to_string x = to_string y -> x = y).
  { unfold is_int. intros x y X Y H. assert (Q : Some x = Some y); [|congruence]. rewrite <- (integer_to_string x), <- (integer_to_string y) by lia. rewrite H. reflexivity. }
  split; [|split]; symmetry; apply I; assumption.
Qed.
Print Assumptions C82_escape_distinct.

Lemma win_bits s (i r g b : bool) : 0 <= s < 16 ->
  (match Flags_set 32 s MSC_Text_Intensify i with None => None | Some f1 => match Flags_set 32 f1 MSC_Text_Red r with None => None | Some f2 =>
     match Flags_set 32 f2 MSC_Text_Green g with None => None | Some f3 => option_map (wrap 16) (Flags_set 32 f3 MSC_Text_Blue b) end end end) = Some (colour16 i r g b).
Proof.
  intros S1. assert (E : In s (map Z.of_nat (seq 0 16))) by (apply in_map_iff; exists (Z.to_nat s); split; [lia|apply in_seq; lia]).
  cbn in E. clear S1. repeat (destruct E as [<-|E]; [destruct i, r, g, b; vm_compute; reflexivity|]). contradiction.
Qed.
Lemma lor_parts x y : component x -> component y -> Z.lor x y / 128 = Z.lor (x / 128) (y / 128) /\ Z.lor x y mod 128 = Z.lor (x mod 128) (y mod 128).
Proof.
  intros X Y. change 128 with (2 ^ 7). rewrite <- !Z.shiftr_div_pow2, <- !Z.land_ones by lia. rewrite Z.shiftr_lor, Z.land_lor_distr_l. split; reflexivity.
Qed.
Lemma lor_bit a b : 0 <= a <= 1 -> 0 <= b <= 1 -> Z.lor a b = Z.max a b.
Proof. intros A B. assert (a = 0 \/ a = 1) as [->| ->] by lia; assert (b = 0 \/ b = 1) as [->| ->] by lia; reflexivity. Qed.
Lemma lor_component x y : component x -> component y -> let z := Z.lor x y in component z /\
  (z < 128 <-> x < 128 /\ y < 128) /\ (z = 128 <-> (x = 128 \/ x = 0) /\ (y = 128 \/ y = 0) /\ (x = 128 \/ y = 128)) /\ (z = 0 <-> x = 0 /\ y = 0).
Proof.
  intros X Y z. destruct (lor_parts x y X Y) as (D & M). fold z in D, M. unfold component in *.
  pose proof (lor_bounds 8 x y ltac:(lia) ltac:(lia) ltac:(lia)) as C. fold z in C.
  pose proof (Z.lor_eq_0_iff x y) as Q. fold z in Q. pose proof (Z.lor_eq_0_iff (x mod 128) (y mod 128)) as R. rewrite <- M in R. clear M.
  pose proof (Z.div_mod x 128 ltac:(lia)) as EX. pose proof (Z.div_mod y 128 ltac:(lia)) as EY. pose proof (Z.div_mod z 128 ltac:(lia)) as EZ.
  pose proof (Z.mod_pos_bound x 128 ltac:(lia)) as BX. pose proof (Z.mod_pos_bound y 128 ltac:(lia)) as BY. pose proof (Z.mod_pos_bound z 128 ltac:(lia)) as BZ.
  rewrite lor_bit in D by lia. clearbody z. generalize dependent (x / 128). generalize dependent (y / 128). generalize dependent (z / 128).
  generalize dependent (x mod 128). generalize dependent (y mod 128). generalize dependent (z mod 128).
  intros zm BZ ym xm R BY BX zq EZ yq EY xq D EX. clear C.
  assert (XQ : xq = 0 \/ xq = 1) by lia. assert (YQ : yq = 0 \/ yq = 1) by lia.
  split; [|split; [|split; [|exact Q]]]; destruct XQ as [-> | ->], YQ as [-> | ->]; cbn [Z.max Z.compare] in D; subst zq; lia.
Qed.
Lemma intense_iff r g b : component r -> component g -> component b -> (Z.lor (Z.lor r g) b >? 128) = true <-> intense r g b.
Proof.
  intros R G B. destruct (lor_component r g R G) as (C & A1 & A2 & A3). destruct (lor_component _ b C B) as (C' & B1 & B2 & B3).
  set (u := Z.lor r g) in *. set (v := Z.lor u b) in *. unfold component in *. rewrite Z.gtb_lt. unfold intense. cbn [In]. split.
  - intros V. assert (D : r > 128 \/ g > 128 \/ b > 128 \/ ((r = 128 \/ g = 128 \/ b = 128) /\ (1 <= r <= 127 \/ 1 <= g <= 127 \/ 1 <= b <= 127))) by lia.
    destruct D as [D|[D|[D|[D1 D2]]]]; [exists r; auto|exists g; auto|exists b; auto|].
    destruct D2 as [D2|[D2|D2]], D1 as [D1|[D1|D1]]; exists 128; (split; [lia|]); right; (split; [reflexivity|]); eexists; (split; [|eassumption]); auto.
  - intros (x & X & [H|[-> (y & Y & H)]]); lia.
Qed.

(** The Windows colour. *)
Theorem C82_windows_colour : forall s r g b, 0 <= s < 16 -> component r -> component g -> component b ->
  (intense r g b -> win_attribute s r g b = Some (colour16 true (127 <? r) (127 <? g) (127 <? b))) /\
  (~ intense r g b -> win_attribute s r g b = Some (colour16 false (0 <? r) (0 <? g) (0 <? b))).
Proof.
  intros s r g b S1 R G B. pose proof (intense_iff r g b R G B) as I. unfold win_attribute. cbv zeta. rewrite win_bits by exact S1.
  destruct (Z.lor (Z.lor r g) b >? 128).
  - split; [|intros H; exfalso; apply H, I; reflexivity]. intros _. f_equal. f_equal; rewrite Z.gtb_ltb; apply Bool.eq_iff_eq_true; rewrite !Z.ltb_lt; lia.
  - split; [intros H; apply I in H; discriminate H|]. intros _. rewrite !Z.gtb_ltb. reflexivity.
Qed.
Print Assumptions C82_windows_colour.

Lemma set_win_16 r g b c : 0 <= saved c < 16 -> exists a, set_win r g b c = Some (Console a (saved c)) /\ 0 <= a < 16.
Proof.
  intros S1. unfold set_win, win_attribute. cbv zeta. rewrite win_bits by exact S1. cbn [option_map]. eexists. split; [reflexivity|].
  generalize (Z.lor (Z.lor r g) b >? 128). intros i. repeat match goal with |- context [(if i then ?x else ?y) >? 0] => destruct ((if i then x else y) >? 0) end; destruct i; cbn; lia.
Qed.
Lemma run_saved l : forall c c', 0 <= saved c < 16 -> run l c = Some c' -> 0 <= saved c' < 16.
Proof.
  induction l as [|o l IH]; intros c c' S1 E; [cbn in E; congruence|]. cbn [run] in E. destruct (do_call o c) as [c1|] eqn:D; [|discriminate E].
  apply (IH c1 c'); [|exact E]. destruct o as [|r g b|]; cbn [do_call] in D.
  - injection D as <-. cbn [make_printer saved]. change 15 with (Z.ones 4). rewrite Z.land_ones by lia. change (2 ^ 4) with 16. lia.
  - destruct (set_win_16 r g b c S1) as (a & E1 & _). rewrite E1 in D. injection D as <-. exact S1.
  - unfold restore_win in D. destruct (set_win_16 31 31 31 c S1) as (a & E1 & _). rewrite E1 in D. injection D as <-. exact S1.
Qed.
Lemma run_ok l : forall c, 0 <= saved c < 16 -> run l c <> None.
Proof.
  induction l as [|o l IH]; intros c S1; [discriminate|]. cbn [run]. pose proof (run_saved [o] c) as H. cbn [run] in H.
  destruct o as [|r g b|]; cbn [do_call] in *; unfold restore_win in *; cbv beta in *.
  - apply IH. apply (H _ S1 eq_refl).
  - destruct (set_win_16 r g b c S1) as (a & E1 & _). rewrite E1. apply IH. exact S1.
  - destruct (set_win_16 31 31 31 c S1) as (a & E1 & _). rewrite E1. apply IH. exact S1.
Qed.
(** Whatever was called before and whatever the console looked like: a warning is bright yellow, an error bright red, and the
    last call decides. *)
Theorem C82_windows_history : forall a l o, exists c, run (l ++ [o]) (Console a 0) = Some c /\
  (o = SetColor 255 255 0 -> attr c = colour16 true true true false) /\
  (o = SetColor 255 0 0 -> attr c = colour16 true true false false) /\
  (o = Restore -> attr c = colour16 false true true true).
Proof.
  intros a l o. assert (A : forall l c, run (l ++ [o]) c = match run l c with None => None | Some c' => do_call o c' end).
  { clear. induction l as [|x l IH]; intros c; [cbn; destruct (do_call o c); reflexivity|]. cbn [app run]. destruct (do_call x c); auto. }
  rewrite A. assert (S0 : 0 <= saved (Console a 0) < 16) by (cbn; lia).
  pose proof (run_ok l _ S0) as K. destruct (run l (Console a 0)) as [c|] eqn:E; [|congruence]. pose proof (run_saved l _ _ S0 E) as S1. clear K E A.
  destruct (do_call o c) as [c'|] eqn:D.
  - exists c'. split; [reflexivity|]. repeat split; intros ->; cbn [do_call] in D; unfold restore_win, set_win, win_attribute in D; cbv zeta in D;
      rewrite win_bits in D by exact S1; injection D as <-; reflexivity.
  - exfalso. pose proof (run_ok [o] c S1) as K. cbn [run] in K. rewrite D in K. congruence.
Qed.
Print Assumptions C82_windows_history.

(** Not so: that restoring brings the attributes back.  It does only for grey on black. *)
Theorem C82_restore_refuted : forall a r g b, exists c, run [MakePrinter; SetColor r g b; Restore] (Console a 0) = Some c /\ (attr c = a <-> a = 7).
Proof.
  intros a r g b. destruct (C82_windows_history a [MakePrinter; SetColor r g b] Restore) as (c & E & _ & _ & H). exists c. split; [exact E|].
  rewrite (H eq_refl). cbn. lia.
Qed.
Print Assumptions C82_restore_refuted.
(** Not so: that a component that is present shows.  Beside one above 128 those up to 127 are as good as absent; and the background is lost
    always. *)
Theorem C82_lost_refuted :
  (forall s r g b, 0 <= s < 16 -> component r -> 128 < g <= 255 -> component b -> r <= 127 -> win_attribute s r g b = win_attribute s 0 g b) /\
  (forall a r g b, exists c, run [MakePrinter; SetColor r g b] (Console a 0) = Some c /\ 0 <= attr c < 16).
Proof.
  split.
  - intros s r g b S1 R G B H. unfold component in *.
    destruct (C82_windows_colour s r g b S1 R ltac:(unfold component; lia) B) as [E1 _]. destruct (C82_windows_colour s 0 g b S1 ltac:(unfold component; lia) ltac:(unfold component; lia) B) as [E2 _].
    rewrite E1, E2; [|exists g; split; [cbn; auto|lia]|exists g; split; [cbn; auto|lia]].
    destruct (Z.ltb_spec 127 r); [lia|]. reflexivity.
  - intros a r g b. cbn [run do_call].
    assert (S1 : 0 <= saved (make_printer (Console a 0)) < 16).
    { cbn [make_printer saved attr]. change 15 with (Z.ones 4). rewrite Z.land_ones by lia. change (2 ^ 4) with 16. lia. }
    destruct (set_win_16 r g b _ S1) as (x & E & X). rewrite E. eexists. split; [reflexivity|]. exact X.
Qed.
Print Assumptions C82_lost_refuted.

Example C82_example :
  set_ix 127 127 255 = Some [27; 91; 51; 56; 59; 50; 59; 49; 50; 55; 59; 49; 50; 55; 59; 50; 53; 53; 109] /\
  set_ix (-1) 0 0 <> None /\ set_ix (2 ^ 31 - 1) (- 2 ^ 31) 0 = None /\
  win_attribute 7 127 127 255 = Some 9 /\ win_attribute 0 128 1 0 = Some 12 /\ win_attribute 15 128 0 0 = Some 4 /\ intense 128 1 0 /\ ~ intense 128 0 0 /\ ~ intense 127 127 127.
Proof.
  split; [vm_compute; reflexivity|]. split; [vm_compute; discriminate|]. do 4 (split; [vm_compute; reflexivity|]).
  split; [exists 128; split; [cbn; auto|]; right; split; [reflexivity|]; exists 1; cbn; lia|].
  split; intros (x & X & [H|[-> (y & Y & H)]]); cbn [In] in *; lia.
Qed.
