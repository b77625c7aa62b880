From Verif Require Import Base StringView_Model StringView_Spec.

(** * compare *)
Lemma traits_spec : forall n a b, n = Nat.min (length a) (length b) ->
  (traits_compare a b n = 0 /\ exists p ra rb, a = p ++ ra /\ b = p ++ rb /\ (ra = [] \/ rb = [])) \/
  (traits_compare a b n = -1 /\ exists p x y ra rb, a = p ++ x :: ra /\ b = p ++ y :: rb /\ x < y) \/
  (traits_compare a b n = 1 /\ exists p x y ra rb, a = p ++ x :: ra /\ b = p ++ y :: rb /\ y < x).
Proof.
  induction n as [|n IH]; intros a b Hn.
  - left. split; [reflexivity|]. exists [], a, b. split; [reflexivity|]. split; [reflexivity|].
    destruct a; [auto|]. destruct b; [auto|]. cbn in Hn. discriminate.
  - destruct a as [|x a]; [discriminate|]. destruct b as [|y b]; [discriminate|]. cbn [length Nat.min] in Hn.
    cbn [traits_compare]. destruct (Z.eqb_spec x y) as [->|Hne].
    + destruct (IH a b ltac:(lia)) as [(E & p & ra & rb & Ha & Hb & Hor)|[(E & p & u & v & ra & rb & Ha & Hb & Hl)|(E & p & u & v & ra & rb & Ha & Hb & Hl)]]; subst.
      * left. split; [exact E|]. exists (y :: p), ra, rb. auto.
      * right; left. split; [exact E|]. exists (y :: p), u, v, ra, rb. auto.
      * right; right. split; [exact E|]. exists (y :: p), u, v, ra, rb. auto.
    + destruct (Z.ltb_spec x y).
      * right; left. split; [reflexivity|]. exists [], x, y, a, b. auto.
      * right; right. split; [reflexivity|]. exists [], x, y, a, b. repeat split; auto; lia.
Qed.

Lemma compare_spec a b :
  (sv_compare a b = 0 /\ a = b) \/ (sv_compare a b = -1 /\ lex_lt a b) \/ (sv_compare a b = 1 /\ lex_lt b a).
Proof.
  unfold sv_compare. destruct (traits_spec _ a b eq_refl)
    as [(-> & p & ra & rb & Ha & Hb & Hor)|[(-> & p & u & v & ra & rb & Ha & Hb & Hl)|(-> & p & u & v & ra & rb & Ha & Hb & Hl)]].
  - cbv iota. change (0 =? 0) with true. cbv iota. unfold size. subst a b. rewrite !app_length.
    destruct Hor as [->| ->].
    + cbn [length]. destruct rb as [|y rb].
      * left. cbn [length]. rewrite Z.ltb_irrefl, Z.gtb_ltb, Z.ltb_irrefl. auto.
      * right; left. cbn [length].
        replace (Z.of_nat (length p + 0) <? Z.of_nat (length p + S (length rb))) with true by lia.
        split; [reflexivity|]. right. rewrite app_nil_r. exists y, rb. reflexivity.
    + cbn [length]. destruct ra as [|y ra].
      * left. cbn [length]. rewrite Z.ltb_irrefl, Z.gtb_ltb, Z.ltb_irrefl. auto.
      * right; right. cbn [length].
        replace (Z.of_nat (length p + S (length ra)) <? Z.of_nat (length p + 0)) with false by lia.
        rewrite Z.gtb_ltb. replace (Z.of_nat (length p + 0) <? Z.of_nat (length p + S (length ra))) with true by lia.
        split; [reflexivity|]. right. rewrite app_nil_r. exists y, ra. reflexivity.
  - right; left. split; [reflexivity|]. left. exists p, u, v, ra, rb. auto.
  - right; right. split; [reflexivity|]. left. exists p, v, u, rb, ra. auto.
Qed.

Lemma app_mid_compare p : forall q x y u v (ra rb rc rd : list Z),
  p ++ x :: ra = q ++ u :: rc -> p ++ y :: rb = q ++ v :: rd -> x <> y -> u <> v -> p = q /\ x = u /\ y = v.
Proof.
  induction p as [|c p IH]; intros [|d q] x y u v ra rb rc rd E1 E2 H1 H2; cbn [app] in *;
    apply cons_inj in E1; apply cons_inj in E2; destruct E1 as [E1 E1'], E2 as [E2 E2']; subst.
  - auto.
  - congruence.
  - congruence.
  - destruct (IH q x y u v ra rb rc rd E1' E2' H1 H2) as (-> & -> & ->). auto.
Qed.

Lemma lex_irrefl a : ~ lex_lt a a.
Proof.
  intros [(p & x & y & ra & rb & E1 & E2 & L)|(x & r & E)].
  - rewrite E1 in E2. apply app_inv_head in E2. injection E2 as E2 _. lia.
  - assert (length a = length (a ++ x :: r)) by congruence. rewrite app_length in H. cbn in H. lia.
Qed.

Lemma lex_asym a b : lex_lt a b -> lex_lt b a -> False.
Proof.
  intros [(p & x & y & ra & rb & E1 & E2 & L)|(x & r & E)] [(q & u & v & rc & rd & E3 & E4 & L')|(u & t & E')].
  - subst. destruct (app_mid_compare p q x y v u ra rb rd rc) as (_ & -> & ->); try lia; auto.
  - subst. rewrite <- app_assoc in E'. apply app_inv_head in E'. injection E' as E' _. lia.
  - subst. rewrite <- app_assoc in E3. apply app_inv_head in E3. injection E3 as E3 _. lia.
  - subst. assert (length a = length ((a ++ x :: r) ++ u :: t)) by congruence.
    rewrite !app_length in H. cbn in H. lia.
Qed.

Lemma compare_iff a b :
  (sv_compare a b = 0 <-> a = b) /\ (sv_compare a b < 0 <-> lex_lt a b) /\ (sv_compare a b > 0 <-> lex_lt b a).
Proof.
  destruct (compare_spec a b) as [(-> & ->)|[(-> & H)|(-> & H)]].
  - pose proof (lex_irrefl b). repeat split; intros; try lia; try tauto.
  - pose proof (lex_asym _ _ H). assert (a <> b) by (intros ->; apply (lex_irrefl _ H)).
    repeat split; intros; try lia; tauto.
  - pose proof (lex_asym _ _ H). assert (a <> b) by (intros ->; apply (lex_irrefl _ H)).
    repeat split; intros; try lia; tauto.
Qed.

Lemma lex_total a b : lex_lt a b \/ a = b \/ lex_lt b a.
Proof. destruct (compare_spec a b) as [(_ & H)|[(_ & H)|(_ & H)]]; auto. Qed.

Lemma traits_trans : forall a b c,
  lex_lt a b -> lex_lt b c -> lex_lt a c.
Proof.
  induction a as [|x a IH]; intros b c Hab Hbc.
  - assert (Hc : c <> []).
    { intros ->. destruct Hbc as [(p & u & v & r1 & r2 & E1 & E2 & L)|(u & r & E)]; [destruct p|destruct b]; discriminate. }
    destruct c as [|z c]; [congruence|]. right. exists z, c. reflexivity.
  - assert (Hb : b <> []).
    { intros ->. destruct Hab as [(p & u & v & r1 & r2 & E1 & E2 & L)|(u & r & E)]; [destruct p|]; discriminate. }
    destruct b as [|y b]; [congruence|].
    assert (Hc : c <> []).
    { intros ->. destruct Hbc as [(p & u & v & r1 & r2 & E1 & E2 & L)|(u & r & E)]; [destruct p|]; discriminate. }
    destruct c as [|z c]; [congruence|].
    assert (Step : forall x y a b, lex_lt (x :: a) (y :: b) <-> x < y \/ (x = y /\ lex_lt a b)).
    { clear. intros x y a b. split.
      - intros [(p & u & v & r1 & r2 & E1 & E2 & L)|(u & r & E)].
        + destruct p as [|w p]; cbn [app] in *; apply cons_inj in E1; apply cons_inj in E2; destruct E1 as [-> E1], E2 as [-> E2].
          * left; exact L.
          * right. split; [reflexivity|]. left. exists p, u, v, r1, r2. auto.
        + cbn [app] in E. apply cons_inj in E. destruct E as [-> E]. right. split; [reflexivity|]. right. exists u, r. exact E.
      - intros [L|[-> [(p & u & v & r1 & r2 & E1 & E2 & L)|(u & r & E)]]].
        + left. exists [], x, y, a, b. auto.
        + left. exists (y :: p), u, v, r1, r2. cbn [app]. subst; auto.
        + right. exists u, r. cbn [app]. subst; auto. }
    apply Step in Hab. apply Step in Hbc. apply Step.
    destruct Hab as [L1|[-> H1]], Hbc as [L2|[-> H2]]; try (left; lia).
    right. split; [reflexivity|]. eapply IH; eassumption.
Qed.

Lemma operators_agree a b :
  (sv_eq a b = true <-> a = b) /\ (sv_ne a b = true <-> a <> b) /\
  (sv_lt a b = true <-> lex_lt a b) /\ (sv_gt a b = true <-> lex_lt b a) /\
  (sv_le a b = true <-> (lex_lt a b \/ a = b)) /\ (sv_ge a b = true <-> (lex_lt b a \/ a = b)).
Proof.
  destruct (compare_iff a b) as (H0 & H1 & H2).
  unfold sv_eq, sv_ne, sv_lt, sv_gt, sv_le, sv_ge.
  rewrite negb_true_iff, Z.eqb_eq, Z.eqb_neq, Z.ltb_lt, Z.gtb_lt, Z.leb_le, Z.geb_le, <- H0, <- H1, <- H2.
  repeat split; intros; lia.
Qed.

(** * reads *)
Lemma rd_some s i : 0 <= i < size s -> exists c, rd s i = Some c /\ char_at s i = Some c.
Proof.
  intros H. unfold rd, char_at. replace ((0 <=? i) && (i <? size s)) with true by lia.
  destruct (nth_error s (Z.to_nat i)) eqn:E; [eauto|].
  exfalso. apply nth_error_None in E. unfold size in H. lia.
Qed.
Lemma rd_char s i c : rd s i = Some c -> char_at s i = Some c /\ 0 <= i < size s.
Proof.
  unfold rd, char_at. destruct ((0 <=? i) && (i <? size s)) eqn:E; [|discriminate]. intros H; split; [exact H|lia].
Qed.

Lemma at_spec s pos : 0 <= pos ->
  (pos < size s -> exists c, sv_at s pos = Ret (Some c) /\ char_at s pos = Some c) /\
  (size s <= pos -> sv_at s pos = Throw).
Proof.
  intros Hp. unfold sv_at. split; intros H.
  - replace (pos <? size s) with true by lia. destruct (rd_some s pos ltac:(lia)) as (c & -> & E). eauto.
  - replace (pos <? size s) with false by lia. reflexivity.
Qed.

Lemma substr_spec s pos len : 0 <= pos -> 0 <= len ->
  (pos < size s -> exists a b m, sv_substr s pos len = Ret m /\ s = a ++ m ++ b /\
      size a = pos /\ size m = Z.min len (size s - pos)) /\
  (size s <= pos -> sv_substr s pos len = Throw).
Proof.
  intros Hp Hl. unfold sv_substr. split; intros H.
  - replace (pos <? size s) with true by lia.
    set (n := Z.to_nat (if len >? (if pos >? size s then 0 else size s - pos) then (if pos >? size s then 0 else size s - pos) else len)).
    exists (firstn (Z.to_nat pos) s), (skipn n (skipn (Z.to_nat pos) s)), (firstn n (skipn (Z.to_nat pos) s)).
    split; [reflexivity|]. split; [rewrite firstn_skipn, firstn_skipn; reflexivity|].
    assert (En : Z.of_nat n = Z.min len (size s - pos)).
    { unfold n. replace (pos >? size s) with false by lia. rewrite Z.gtb_ltb.
      destruct (Z.ltb_spec (size s - pos) len); lia. }
    unfold size in *. rewrite !firstn_length, skipn_length. lia.
  - replace (pos <? size s) with false by lia. reflexivity.
Qed.

Lemma copy_spec s pos count : 0 <= pos -> 0 <= count < 2 ^ 64 ->
  (pos < size s -> exists m, sv_copy s count pos = Ret m /\
     (exists a b, s = a ++ m ++ b /\ size a = pos) /\
     size m = if count =? 2 ^ 64 - 1 then 0 else Z.min (size s - pos) (count + 1)) /\
  (size s <= pos -> sv_copy s count pos = Throw).
Proof.
  intros Hp Hc. unfold sv_copy. split; intros H.
  - replace (pos >=? size s) with false by lia.
    eexists. split; [reflexivity|]. set (n := Z.to_nat (Z.min (size s - pos) (u64 (count + 1)))).
    split.
    + exists (firstn (Z.to_nat pos) s), (skipn n (skipn (Z.to_nat pos) s)).
      rewrite firstn_skipn, firstn_skipn. split; [reflexivity|].
      unfold size in *. rewrite firstn_length. lia.
    + assert (E : u64 (count + 1) = if count =? 2 ^ 64 - 1 then 0 else count + 1).
      { unfold u64, wrap. destruct (Z.eqb_spec count (2 ^ 64 - 1)) as [->|]; [reflexivity|]. apply Z.mod_small. lia. }
      unfold size in *. rewrite firstn_length, skipn_length. unfold n. rewrite E.
      destruct (count =? 2 ^ 64 - 1); lia.
  - replace (pos >=? size s) with true by lia. reflexivity.
Qed.

(** * scans *)
Lemma scan_up_spec test (Q : Z -> Prop) k : forall i,
  (forall j, i <= j < i + Z.of_nat k -> exists b, test j = Some b /\ (b = true <-> Q j)) ->
  exists r, scan_up test k i = Some r /\ least_in Q i (i + Z.of_nat k) npos r.
Proof.
  induction k as [|k IH]; intros i H; cbn [scan_up].
  - exists npos. split; [reflexivity|]. right. split; [reflexivity|]. intros; lia.
  - destruct (H i ltac:(lia)) as (b & -> & Hb). destruct b.
    + exists i. split; [reflexivity|]. left. split; [lia|]. split; [apply Hb; reflexivity|]. intros; lia.
    + assert (Hi : ~ Q i) by (intros Hq; apply Hb in Hq; discriminate).
      destruct (IH (i + 1)) as (r & E & L). { intros j Hj. apply H. lia. }
      exists r. split; [exact E|]. destruct L as [(L1 & L2 & L3)|(L1 & L2)].
      * left. split; [lia|]. split; [exact L2|]. intros j Hj. destruct (Z.eq_dec j i) as [->|]; [exact Hi|]. apply L3; lia.
      * right. split; [exact L1|]. intros j Hj. destruct (Z.eq_dec j i) as [->|]; [exact Hi|]. apply L2; lia.
Qed.

Lemma scan_down_spec test (Q : Z -> Prop) k : forall i, i = Z.of_nat k - 1 ->
  (forall j, 0 <= j <= i -> exists b, test j = Some b /\ (b = true <-> Q j)) ->
  exists r, scan_down test k i = Some r /\ greatest_in Q 0 (i + 1) npos r.
Proof.
  induction k as [|k IH]; intros i Hi H; cbn [scan_down].
  - exists npos. split; [reflexivity|]. right. split; [reflexivity|]. intros; lia.
  - destruct (H i ltac:(lia)) as (b & -> & Hb). destruct b.
    + exists i. split; [reflexivity|]. left. split; [lia|]. split; [apply Hb; reflexivity|]. intros; lia.
    + assert (Hn : ~ Q i) by (intros Hq; apply Hb in Hq; discriminate).
      destruct (IH (i - 1) ltac:(lia)) as (r & E & L). { intros j Hj. apply H. lia. }
      exists r. split; [exact E|]. destruct L as [(L1 & L2 & L3)|(L1 & L2)].
      * left. split; [lia|]. split; [exact L2|]. intros j Hj. destruct (Z.eq_dec j i) as [->|]; [exact Hn|]. apply L3; lia.
      * right. split; [exact L1|]. intros j Hj. destruct (Z.eq_dec j i) as [->|]; [exact Hn|]. apply L2; lia.
Qed.

Lemma one_of_spec s v i : 0 <= i < size s -> exists b, one_of s v i = Some b /\ (b = true <-> char_in s v i).
Proof.
  intros H. destruct (rd_some s i H) as (c & E & C). unfold one_of. destruct v as [|x v].
  - exists false. split; [reflexivity|]. split; [discriminate|]. intros (d & _ & []).
  - rewrite E. eexists. split; [reflexivity|]. rewrite existsb_exists. split.
    + intros (y & Hy & Ey). apply Z.eqb_eq in Ey. subst y. exists c. auto.
    + intros (d & Cd & Hd). rewrite C in Cd. injection Cd as <-. exists c. split; [exact Hd|]. apply Z.eqb_refl.
Qed.

Lemma least_in_empty Q a b none : b <= a -> least_in Q a b none none.
Proof. intros; right; split; [reflexivity|]; intros; lia. Qed.

Lemma up_range test Q pos hi :
  (forall i, pos <= i < hi -> exists b, test i = Some b /\ (b = true <-> Q i)) ->
  exists r, scan_up test (Z.to_nat (hi - pos)) pos = Some r /\ least_in Q pos hi npos r.
Proof.
  intros HT. destruct (Z_lt_le_dec pos hi) as [L|L].
  - destruct (scan_up_spec test Q (Z.to_nat (hi - pos)) pos) as (r & E & H).
    + intros j Hj. apply HT. lia.
    + exists r. split; [exact E|]. replace (pos + Z.of_nat (Z.to_nat (hi - pos))) with hi in H by lia. exact H.
  - replace (Z.to_nat (hi - pos)) with 0%nat by lia. cbn [scan_up]. exists npos. split; [reflexivity|].
    apply least_in_empty. lia.
Qed.

Lemma up_to test Q s pos : 0 <= pos ->
  (forall i, 0 <= i < size s -> exists b, test i = Some b /\ (b = true <-> Q i)) ->
  exists r, scan_up test (Z.to_nat (size s - pos)) pos = Some r /\ least_in Q pos (size s) npos r.
Proof. intros Hp HT. apply up_range. intros i Hi. apply HT. lia. Qed.

Lemma down_to test Q (s : list Z) pos : 0 <= pos < 2 ^ 64 -> size s < 2 ^ 64 ->
  (s = [] -> pos = npos) ->
  (forall i, 0 <= i < size s -> exists b, test i = Some b /\ (b = true <-> Q i)) ->
  exists r, down_from test (Z.min (u64 (size s - 1)) pos) = Some r /\
            greatest_in Q 0 (Z.min (size s) (pos + 1)) npos r.
Proof.
  intros Hp Hs He HT. assert (H0 : 0 <= size s) by (unfold size; lia).
  unfold down_from. destruct s as [|c s'].
  - rewrite (He eq_refl). change (size []) with 0. cbn. exists npos. split; [reflexivity|]. right. split; [reflexivity|]. intros; lia.
  - assert (Hsz : 1 <= size (c :: s')) by (unfold size; cbn [length]; lia). set (s := c :: s') in *.
    unfold u64. rewrite wrap_small by lia. unfold npos in *.
    replace (Z.min (size s - 1) pos =? 2 ^ 64 - 1) with false by lia.
    replace (Z.min (size s) (pos + 1)) with (Z.min (size s - 1) pos + 1) by lia.
    apply scan_down_spec; [lia|]. intros j Hj. apply HT. lia.
Qed.

Lemma find_first_of_spec s v pos : 0 <= pos ->
  exists r, sv_find_first_of s v pos = Some r /\ least_in (char_in s v) pos (size s) npos r.
Proof. intros Hp. apply up_to; [exact Hp|]. intros; apply one_of_spec; assumption. Qed.

Lemma find_last_of_spec s v pos : 0 <= pos < 2 ^ 64 -> size s < 2 ^ 64 -> (s = [] -> pos = npos) ->
  exists r, sv_find_last_of s v pos = Some r /\
            greatest_in (char_in s v) 0 (Z.min (size s) (pos + 1)) npos r.
Proof. intros. apply down_to; try assumption. intros; apply one_of_spec; assumption. Qed.

Lemma not_first_spec s x v i : 0 <= i < size s ->
  exists b, not_first_of s (x :: v) i = Some b /\ (b = true <-> char_not s x i).
Proof.
  intros H. destruct (rd_some s i H) as (c & E & C). unfold not_first_of. rewrite E. eexists. split; [reflexivity|].
  rewrite negb_true_iff, Z.eqb_neq. split.
  - intros Hn. exists c. auto.
  - intros (d & Cd & Hd). rewrite C in Cd. injection Cd as <-. auto.
Qed.

Lemma find_first_not_of_spec s x v pos : 0 <= pos ->
  exists r, sv_find_first_not_of s (x :: v) pos = Some r /\ least_in (char_not s x) pos (size s) npos r.
Proof. intros Hp. apply up_to; [exact Hp|]. intros; apply not_first_spec; assumption. Qed.

Lemma find_last_not_of_spec s x v pos : 0 <= pos < 2 ^ 64 -> size s < 2 ^ 64 -> (s = [] -> pos = npos) ->
  exists r, sv_find_last_not_of s (x :: v) pos = Some r /\
            greatest_in (char_not s x) 0 (Z.min (size s) (pos + 1)) npos r.
Proof. intros. apply down_to; try assumption. intros; apply not_first_spec; assumption. Qed.

Lemma find_last_of_empty_ub c v pos : 0 <= pos < npos -> sv_find_last_of [] (c :: v) pos = None.
Proof.
  intros H. unfold sv_find_last_of, down_from. change (u64 (size [] - 1)) with npos. rewrite Z.min_r by lia.
  replace (pos =? npos) with false by lia.
  destruct (Z.to_nat (pos + 1)) eqn:E; [lia|]. cbn [scan_down one_of]. unfold rd. change (size []) with 0.
  replace ((0 <=? pos) && (pos <? 0)) with false by lia. reflexivity.
Qed.

(** * find(char) *)
Lemma find_char_spec s c pos : 0 <= pos ->
  exists r, sv_find s [c] pos = Some r /\ least_in (char_in s [c]) pos (size s - 1) npos r.
Proof.
  intros Hp. unfold sv_find. change (size [c]) with 1. cbn [length].
  destruct (Z.gtb_spec 1 (size s)) as [L|L].
  - cbn [orb]. exists npos. split; [reflexivity|]. apply least_in_empty. lia.
  - change ((1 =? 0) || false) with false. cbv iota. change (1 - 1)%nat with 0%nat. cbv iota.
    set (t := fun i => match rd s i with Some a => match rd [c] 0 with Some b => Some (a =? b) | None => None end | None => None end).
    assert (HT : forall i, 0 <= i < size s -> exists b, t i = Some b /\ (b = true <-> char_in s [c] i)).
    { intros i Hi. unfold t. destruct (rd_some s i Hi) as (d & -> & C). change (rd [c] 0) with (Some c).
      eexists. split; [reflexivity|]. rewrite Z.eqb_eq. split.
      - intros ->. exists c. split; [exact C|left; reflexivity].
      - intros (e & Ce & [<-|[]]). congruence. }
    apply (up_range t). intros j Hj. apply HT. lia.
Qed.

(** * find(view), two or more characters: only v[1..] is compared and the last
      possible position is never tried *)
Definition tail_occurs (s v : list Z) (i : Z) : Prop :=
  forall j, 1 <= j < size v -> char_at s (i + j) = char_at v j.

Lemma back_match_spec s v i j : 0 <= i -> i + Z.of_nat j < size s -> Z.of_nat j < size v ->
  exists r, back_match s v i j = Some r /\
    (r = 0%nat <-> forall k, 1 <= k <= Z.of_nat j -> char_at s (i + k) = char_at v k).
Proof.
  intros Hi. induction j as [|j IH]; intros Hs Hv; cbn [back_match].
  - exists 0%nat. split; [reflexivity|]. split; [|reflexivity]. intros; lia.
  - destruct (rd_some v (Z.of_nat (S j)) ltac:(lia)) as (a & -> & Ca).
    destruct (rd_some s (i + Z.of_nat (S j)) ltac:(lia)) as (b & -> & Cb).
    destruct (Z.eqb_spec a b) as [->|Hne].
    + destruct IH as (r & E & Hr); [lia|lia|]. exists r. split; [exact E|]. rewrite Hr. split; intros H k Hk.
      * destruct (Z.eq_dec k (Z.of_nat (S j))) as [->|]; [congruence|]. apply H; lia.
      * apply H; lia.
    + exists (S j). split; [reflexivity|]. split; [lia|]. intros H. exfalso. apply Hne.
      specialize (H (Z.of_nat (S j)) ltac:(lia)). congruence.
Qed.

Lemma find_view_spec s v pos : 0 <= pos -> 2 <= size v ->
  exists r, sv_find s v pos = Some r /\ least_in (tail_occurs s v) pos (size s - size v) npos r.
Proof.
  intros Hp Hv. unfold sv_find. replace (size v =? 0) with false by lia. cbn [orb].
  destruct (Z.gtb_spec (size v) (size s)) as [L|L].
  - exists npos. split; [reflexivity|]. apply least_in_empty. lia.
  - destruct (length v - 1)%nat as [|n] eqn:En; [unfold size in Hv; lia|].
    set (t := fun i => option_map (fun j' => Nat.eqb j' 0) (back_match s v i (S n))).
    assert (HT : forall i, 0 <= i < size s - size v -> exists b, t i = Some b /\ (b = true <-> tail_occurs s v i)).
    { intros i Hi. unfold t. destruct (back_match_spec s v i (S n)) as (r & -> & Hr); [lia|unfold size in *; lia|unfold size in *; lia|].
      cbn [option_map]. eexists. split; [reflexivity|]. rewrite Nat.eqb_eq, Hr. unfold tail_occurs.
      replace (size v) with (Z.of_nat (S n) + 1) by (unfold size; lia).
      split; intros H k Hk; apply H; lia. }
    apply (up_range t). intros j Hj. apply HT. lia.
Qed.

Lemma occurs_chars s v i : 0 <= i ->
  (occurs s v i <-> (i + size v <= size s /\ forall j, 0 <= j < size v -> char_at s (i + j) = char_at v j)).
Proof.
  intros Hi. split.
  - intros (a & b & -> & Ha). unfold size. rewrite !app_length. split; [lia|]. intros j Hj.
    unfold char_at. rewrite nth_error_app2 by lia. rewrite nth_error_app1 by lia. f_equal. lia.
  - intros (Hb & H). exists (firstn (Z.to_nat i) s), (skipn (Z.to_nat i + length v) s).
    split; [|rewrite firstn_length; unfold size in *; lia].
    rewrite <- (firstn_skipn (Z.to_nat i) s) at 1. f_equal.
    rewrite <- (firstn_skipn (length v) (skipn (Z.to_nat i) s)). rewrite skipn_skipn.
    f_equal; [|f_equal; lia].
    apply list_ext. intros n. destruct (Nat.lt_ge_cases n (length v)) as [L|L].
    + specialize (H (Z.of_nat n) ltac:(unfold size; lia)). unfold char_at in H. rewrite Nat2Z.id in H. rewrite <- H.
      replace (Z.to_nat (i + Z.of_nat n)) with (Z.to_nat i + n)%nat by lia.
      clear -L. generalize (Z.to_nat i). intros m. revert s. induction m as [|m IH]; intros s.
      * cbn [skipn plus]. revert n L s. induction (length v) as [|k IHk]; intros n L s; [lia|].
        destruct s as [|x s]; [destruct n; reflexivity|]. destruct n as [|n]; [reflexivity|]. cbn [firstn nth_error]. apply IHk. lia.
      * destruct s as [|x s]; [rewrite skipn_nil, firstn_nil; destruct n; reflexivity|]. cbn [skipn plus nth_error]. apply IH.
    + rewrite (proj2 (nth_error_None _ _)) by (rewrite firstn_length, skipn_length; unfold size in *; lia).
      symmetry. apply nth_error_None. lia.
Qed.

(** the reported index never lies after a real occurrence that is not the last
    possible position, i.e. real, non-final occurrences are never skipped *)
Lemma find_view_no_skip s v pos i r : 0 <= pos -> 2 <= size v ->
  sv_find s v pos = Some r -> occurs s v i -> pos <= i -> i + size v < size s -> r <= i.
Proof.
  intros Hp Hv E Ho Hi Hlt. destruct (find_view_spec s v pos Hp Hv) as (r' & E' & L). rewrite E in E'. injection E' as <-.
  assert (T : tail_occurs s v i).
  { intros j Hj. apply (occurs_chars s v i) in Ho; [|lia]. apply Ho. lia. }
  destruct L as [(L1 & L2 & L3)|(L1 & L2)].
  - destruct (Z_lt_le_dec i r) as [G|G]; [|exact G]. exfalso. apply (L3 i); [lia|exact T].
  - exfalso. apply (L2 i); [lia|exact T].
Qed.

Lemma rfind_char_spec s c pos : 2 <= size s < 2 ^ 64 -> 0 <= pos < 2 ^ 64 ->
  exists r, sv_rfind s [c] pos = Some r /\
            greatest_in (char_in s [c]) 0 (Z.min (size s - 1) (pos + 1)) npos r.
Proof.
  intros Hs Hp. unfold sv_rfind. change (size [c]) with 1. unfold u64.
  rewrite (wrap_small 64 (size s - 1)) by lia. rewrite (wrap_small 64 (size s - 1 - 1)) by lia.
  unfold down_from, npos. replace (Z.min (size s - 1 - 1) pos =? 2 ^ 64 - 1) with false by lia.
  replace (Z.min (size s - 1) (pos + 1)) with (Z.min (size s - 1 - 1) pos + 1) by lia.
  apply scan_down_spec; [lia|]. intros j Hj. cbn [rev_match].
  destruct (rd_some s j ltac:(lia)) as (d & -> & C). destruct (Z.eqb_spec c d) as [->|Hne].
  - exists true. split; [reflexivity|]. split; [|reflexivity]. intros _. exists d. split; [exact C|left; reflexivity].
  - exists false. split; [reflexivity|]. split; [discriminate|]. intros (e & Ce & [<-|[]]). congruence.
Qed.

Lemma char_at_cons c v j : 0 < j -> char_at (c :: v) j = char_at v (j - 1).
Proof. intros H. unfold char_at. replace (Z.to_nat j) with (S (Z.to_nat (j - 1))) by lia. reflexivity. Qed.
Lemma rev_match_spec s v : forall i, -1 <= i < size s ->
  match rev_match s v i with Some true => rev_at s v i /\ ~ falls s v i | Some false => ~ rev_at s v i /\ ~ falls s v i | None => falls s v i /\ ~ rev_at s v i end.
Proof.
  induction v as [|c v IH]; intros i Hi; cbn [rev_match].
  - unfold rev_at, falls. cbn [length]. change (Z.of_nat 0) with 0. split; [intros; lia|]. intros [H _]. lia.
  - assert (Sz : size (c :: v) = size v + 1) by (unfold size; cbn [length]; lia).
    assert (Nn : 0 <= size v) by (unfold size; lia).
    destruct (Z.eq_dec i (-1)) as [->|Hn].
    + replace (rd s (-1)) with (@None Z) by (unfold rd; reflexivity). unfold falls, rev_at. fold (size (c :: v)). rewrite Sz. split.
      * split; [lia|]. intros; lia.
      * intros H. destruct (H 0); lia.
    + destruct (rd_some s i ltac:(lia)) as (a & -> & Ca). destruct (Z.eqb_spec c a) as [->|Hc].
      * specialize (IH (i - 1) ltac:(lia)).
        assert (R : rev_at s (a :: v) i <-> rev_at s v (i - 1)).
        { unfold rev_at. fold (size (a :: v)). fold (size v). rewrite Sz. split; intros H j Hj.
          - destruct (H (j + 1) ltac:(lia)) as [H1 H2]. split; [lia|]. rewrite char_at_cons in H2 by lia. replace (j + 1 - 1) with j in H2 by lia. replace (i - 1 - j) with (i - (j + 1)) by lia. exact H2.
          - destruct (Z.eq_dec j 0) as [->|]; [split; [lia|]; rewrite Z.sub_0_r; rewrite Ca; reflexivity|].
            destruct (H (j - 1) ltac:(lia)) as [H1 H2]. split; [lia|]. rewrite char_at_cons by lia. replace (i - j) with (i - 1 - (j - 1)) by lia. exact H2. }
        assert (F : falls s (a :: v) i <-> falls s v (i - 1)).
        { unfold falls. fold (size (a :: v)). fold (size v). rewrite Sz. split; intros [H0 H]; (split; [lia|]); intros j Hj.
          - specialize (H (j + 1) ltac:(lia)). rewrite char_at_cons in H by lia. replace (j + 1 - 1) with j in H by lia. replace (i - 1 - j) with (i - (j + 1)) by lia. exact H.
          - destruct (Z.eq_dec j 0) as [->|]; [rewrite Z.sub_0_r; rewrite Ca; reflexivity|].
            specialize (H (j - 1) ltac:(lia)). rewrite char_at_cons by lia. replace (i - j) with (i - 1 - (j - 1)) by lia. exact H. }
        destruct (rev_match s v (i - 1)) as [[]|]; rewrite R, F; exact IH.
      * assert (X : char_at (c :: v) 0 <> char_at s (i - 0)).
        { rewrite Z.sub_0_r, Ca. cbn. congruence. }
        split; [intros H; apply X; apply (H 0); fold (size (c :: v)); lia|]. intros [_ H]. apply X, H. lia.
Qed.
Lemma scan_down_exact s v k : forall i, i = Z.of_nat k - 1 -> i < size s -> i < npos ->
  match scan_down (rev_match s v) k i with
  | Some r => greatest_in (rev_at s v) 0 (i + 1) npos r /\ forall x, (r = npos \/ r < x) -> 0 <= x < i + 1 -> ~ falls s v x
  | None => exists x, 0 <= x < i + 1 /\ falls s v x /\ forall y, x < y < i + 1 -> ~ rev_at s v y /\ ~ falls s v y
  end.
Proof.
  induction k as [|k IH]; intros i Hi Hs Hp; cbn [scan_down].
  - split; [right; split; [reflexivity|]; intros; lia|]. intros; lia.
  - pose proof (rev_match_spec s v i ltac:(lia)) as R. destruct (rev_match s v i) as [[]|].
    + destruct R as [R1 R2]. split; [left; split; [lia|]; split; [exact R1|intros; lia]|]. intros x Hx Hr. destruct Hx; lia.
    + destruct R as [R1 R2]. specialize (IH (i - 1) ltac:(lia) ltac:(lia) ltac:(lia)). replace (i - 1 + 1) with i in IH by lia.
      destruct (scan_down (rev_match s v) k (i - 1)) as [r|].
      * destruct IH as [G F]. split.
        -- destruct G as [(G1 & G2 & G3)|(G1 & G2)]; [left|right].
           ++ split; [lia|]. split; [exact G2|]. intros x Hx. destruct (Z.eq_dec x i) as [->|]; [exact R1|apply G3; lia].
           ++ split; [exact G1|]. intros x Hx. destruct (Z.eq_dec x i) as [->|]; [exact R1|apply G2; lia].
        -- intros x Hx Hr. destruct (Z.eq_dec x i) as [->|]; [exact R2|apply F; [exact Hx|lia]].
      * destruct IH as (x & Hx & Fx & Hy). exists x. split; [lia|]. split; [exact Fx|]. intros y Yb. destruct (Z.eq_dec y i) as [->|]; [auto|apply Hy; lia].
    + destruct R as [R1 R2]. exists i. split; [lia|]. split; [exact R1|]. intros; lia.
Qed.
Lemma rfind_exact s v pos : size v < size s < 2 ^ 64 -> 0 <= pos < 2 ^ 64 ->
  let top := Z.min (size s - size v) (pos + 1) in
  match sv_rfind s v pos with
  | Some r => greatest_in (rev_at s v) 0 top npos r /\ forall i, (r = npos \/ r < i) -> 0 <= i < top -> ~ falls s v i
  | None => exists i, 0 <= i < top /\ falls s v i /\ forall k, i < k < top -> ~ rev_at s v k /\ ~ falls s v k
  end.
Proof.
  intros Hs Hp top. assert (Nn : 0 <= size v) by (unfold size; lia). unfold sv_rfind, u64.
  rewrite (wrap_small 64 (size s - size v)) by lia. rewrite (wrap_small 64 (size s - size v - 1)) by lia.
  unfold down_from. replace (Z.min (size s - size v - 1) pos =? npos) with false by (unfold npos; lia).
  pose proof (scan_down_exact s v (Z.to_nat (Z.min (size s - size v - 1) pos + 1)) (Z.min (size s - size v - 1) pos)) as K.
  replace (Z.min (size s - size v - 1) pos + 1) with top in K by (unfold top; lia).
  replace (Z.min (size s - size v - 1) pos + 1) with top by (unfold top; lia).
  apply K; unfold top, npos in *; lia.
Qed.
