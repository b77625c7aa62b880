(** C70: views into a memory: construction, modifiers, reading, comparison of parts. *)
From Verif Require Import Base Supercore_Model Stream_Model StringView_Model StringView_Spec StringView_Proof View_Model View_Spec.

Lemma walk_app before t after : walk (before ++ t ++ after) (Z.of_nat (length before)) (length t) = Some t.
Proof.
  revert before. induction t as [|c t IH]; intros before; [reflexivity|]. cbn [length walk]. unfold load at 1.
  destruct (Z.ltb_spec (Z.of_nat (length before)) 0); [lia|]. rewrite Nat2Z.id, nth_error_app2, Nat.sub_diag by lia. cbn [app nth_error].
  replace (before ++ c :: t ++ after) with ((before ++ [c]) ++ t ++ after) by (rewrite <- app_assoc; reflexivity).
  replace (Z.of_nat (length before) + 1) with (Z.of_nat (length (before ++ [c]))) by (rewrite app_length; cbn; lia).
  rewrite IH. reflexivity.
Qed.
Lemma walk_part before t after n : (n <= length t)%nat -> walk (before ++ t ++ after) (Z.of_nat (length before)) n = Some (firstn n t).
Proof.
  intros H. rewrite <- (firstn_skipn n t) at 1. rewrite <- app_assoc.
  rewrite <- (walk_app before (firstn n t) (skipn n t ++ after)). rewrite firstn_length, Nat.min_l by lia. reflexivity.
Qed.

(** Constructing a view: from a string, all its characters whatever they are; from a
    C string, the characters before the first NUL; from two pointers, what lies between. *)
Theorem C70_constructors : forall before t after,
  let mem := before ++ t ++ after in
  let p := Z.of_nat (length before) in let n := Z.of_nat (length t) in n < 2 ^ 64 ->
  shows mem (view_string p n) t /\ shows mem (view_count p n) t /\ shows mem (view_range p (p + n)) t /\
  (~ In 0 t -> (exists r, after = 0 :: r) -> exists v, view_cstr mem p = Some v /\ shows mem v t) /\
  (~ In 0 t -> after = [] -> view_cstr mem p = None).
Proof.
  intros before t after mem p n Hn.
  assert (S : shows mem (mkView p n) t) by (exists before, after; repeat split).
  split; [exact S|]. split; [exact S|]. split.
  - unfold view_range. replace (u64 (p + n - p)) with n; [exact S|]. unfold u64, wrap. rewrite Z.mod_small by (unfold n in *; lia). lia.
  - assert (K : skipn (Z.to_nat p) mem = t ++ after) by (unfold p, mem; rewrite Nat2Z.id, skipn_app, skipn_all, Nat.sub_diag; reflexivity).
    unfold view_cstr. rewrite K. split.
    + intros Z0 (r & ->). assert (E : strlen (t ++ 0 :: r) = Some n).
      { unfold n. clear -Z0. induction t as [|c t IH]; [reflexivity|]. cbn [app strlen length].
        destruct (Z.eqb_spec c 0) as [->|N]; [exfalso; apply Z0; left; reflexivity|].
        rewrite IH by (intros H; apply Z0; right; exact H). cbn [option_map]. f_equal. lia. }
      rewrite E. eexists. split; [reflexivity|exact S].
    + intros Z0 ->. rewrite app_nil_r. clear -Z0. enough (E : strlen t = None) by (rewrite E; reflexivity).
      induction t as [|c t IH]; [reflexivity|]. cbn [strlen].
      destruct (Z.eqb_spec c 0) as [->|N]; [exfalso; apply Z0; left; reflexivity|].
      rewrite IH by (intros H; apply Z0; right; exact H). reflexivity.
Qed.
Print Assumptions C70_constructors.

(** Reading a view gives its text: iteration and conversion to a string, indexing, at, the
    first and the last character. *)
Theorem C70_reading : forall mem v t, shows mem v t -> m_size v < 2 ^ 64 ->
  to_string mem v = Some t /\
  (forall i, 0 <= i < m_size v -> exists c, nth_error t (Z.to_nat i) = Some c /\ index mem v i = Some c /\ at_ mem v i = Ret (Some c)) /\
  (forall i, m_size v <= i -> at_ mem v i = Throw) /\
  (forall c r, t = c :: r -> front mem v = Some c) /\ (forall r c, t = r ++ [c] -> back mem v = Some c).
Proof.
  intros mem v t (b & a & -> & P & N) Hs. unfold to_string. rewrite P, N, Nat2Z.id. split; [apply walk_app|].
  assert (L : forall i, 0 <= i < Z.of_nat (length t) -> load (b ++ t ++ a) (Z.of_nat (length b) + i) = nth_error t (Z.to_nat i)).
  { intros i Hi. unfold load. destruct (Z.ltb_spec (Z.of_nat (length b) + i) 0); [lia|].
    rewrite nth_error_app2 by lia. replace (Z.to_nat (Z.of_nat (length b) + i) - length b)%nat with (Z.to_nat i) by lia.
    apply nth_error_app1. lia. }
  unfold index, at_, front, back. rewrite P, N. split; [|split; [|split]].
  - intros i Hi. rewrite (L i Hi). destruct (nth_error t (Z.to_nat i)) as [c|] eqn:E; [|apply nth_error_None in E; lia].
    exists c. split; [reflexivity|]. split; [reflexivity|]. destruct (Z.ltb_spec i (Z.of_nat (length t))); [reflexivity|lia].
  - intros i Hi. destruct (Z.ltb_spec i (Z.of_nat (length t))); [lia|reflexivity].
  - intros c r ->. specialize (L 0 ltac:(cbn [length]; lia)). rewrite Z.add_0_r in L. rewrite L. reflexivity.
  - intros r c E. assert (Lt : Z.of_nat (length t) = Z.of_nat (length r) + 1) by (rewrite E, app_length; cbn [length]; lia).
    unfold u64, wrap. rewrite Z.mod_small by lia. rewrite L by lia. rewrite Lt. replace (Z.to_nat (Z.of_nat (length r) + 1 - 1)) with (length r) by lia.
    rewrite E, nth_error_app2, Nat.sub_diag by lia. reflexivity.
Qed.
Print Assumptions C70_reading.

Lemma modify_ok mem v t m t' : shows mem v t -> m_size v < 2 ^ 64 -> kept m t t' -> shows mem (modify m v) t' /\ m_size (modify m v) < 2 ^ 64.
Proof.
  intros (b & a & E & P & N) Hs K. destruct m as [n|n|n]; cbn [modify kept] in *; destruct K as (g & -> & L).
  - unfold remove_prefix. assert (W : u64 (m_size v - n) = Z.of_nat (length t')).
    { unfold u64, wrap. rewrite N, app_length in *. rewrite Z.mod_small by lia. lia. }
    rewrite W. cbn [m_size]. split; [|rewrite N, app_length in Hs; lia].
    exists (b ++ g), a. split; [rewrite E, <- !app_assoc; reflexivity|]. cbn [m_str m_size]. rewrite P, app_length. split; [lia|reflexivity].
  - unfold remove_suffix. assert (W : u64 (m_size v - n) = Z.of_nat (length t')).
    { unfold u64, wrap. rewrite N, app_length in *. rewrite Z.mod_small by lia. lia. }
    rewrite W. cbn [m_size]. split; [|rewrite N, app_length in Hs; lia].
    exists b, (g ++ a). split; [rewrite E, <- !app_assoc; reflexivity|]. cbn [m_str m_size]. split; [exact P|reflexivity].
  - unfold resize. cbn [m_size]. split; [|rewrite N, app_length in Hs; lia].
    exists b, (g ++ a). split; [rewrite E, <- !app_assoc; reflexivity|]. cbn [m_str m_size]. split; [exact P|lia].
Qed.

(** Any history of remove_prefix, remove_suffix and resize, none of which takes more than
    there is, leaves the view showing exactly what is kept, a part of what it showed. *)
Theorem C70_modifier_history : forall ms mem v t t', shows mem v t -> m_size v < 2 ^ 64 -> legal ms t t' ->
  shows mem (fold_left (fun x m => modify m x) ms v) t' /\ exists x y, t = x ++ t' ++ y.
Proof.
  induction ms as [|m ms IH]; intros mem v t t' S Hs L; inversion L as [t0|m0 ms0 t0 t1 t2 K L' E1 E2 E3]; subst.
  - split; [exact S|]. exists [], []. rewrite app_nil_r. reflexivity.
  - destruct (modify_ok mem v t m t1 S Hs K) as [S' Hs']. destruct (IH mem (modify m v) t1 t' S' Hs' L') as [R (x & y & ->)].
    split; [exact R|]. destruct m; cbn [kept] in K; destruct K as (g & -> & _).
    + exists (g ++ x), y. rewrite <- app_assoc. reflexivity.
    + exists x, (y ++ g). rewrite <- !app_assoc. reflexivity.
    + exists x, (y ++ g). rewrite <- !app_assoc. reflexivity.
Qed.
Print Assumptions C70_modifier_history.

(** A step is legal exactly when its argument is at most the size. *)
Theorem C70_legal_step : forall m t, 0 <= amount m -> ((exists t', kept m t t') <-> amount m <= Z.of_nat (length t)).
Proof.
  intros m t H0. split.
  - intros (t' & K). destruct m as [n|n|n]; cbn [kept amount] in *; destruct K as (g & -> & L); rewrite app_length; lia.
  - intros Hle. destruct m as [n|n|n]; cbn [kept amount] in *.
    + exists (skipn (Z.to_nat n) t), (firstn (Z.to_nat n) t). rewrite firstn_skipn, firstn_length. split; [reflexivity|lia].
    + exists (firstn (length t - Z.to_nat n) t), (skipn (length t - Z.to_nat n) t). rewrite firstn_skipn, skipn_length. split; [reflexivity|lia].
    + exists (firstn (Z.to_nat n) t), (skipn (Z.to_nat n) t). rewrite firstn_skipn, firstn_length. split; [reflexivity|lia].
Qed.
Print Assumptions C70_legal_step.

(** Taking more than there is wraps the size: the view claims almost all of memory, and the
    checked access lets every index below that through. *)
Theorem C70_overrun_refuted : forall mem v n, 0 <= m_size v < n -> n < 2 ^ 64 ->
  m_size (remove_prefix n v) = 2 ^ 64 - (n - m_size v) /\ m_size (remove_suffix n v) = 2 ^ 64 - (n - m_size v) /\
  at_ mem (remove_suffix n v) (m_size v) <> Throw.
Proof.
  intros mem v n Hv Hn.
  assert (W : u64 (m_size v - n) = 2 ^ 64 - (n - m_size v)).
  { unfold u64, wrap. rewrite <- (Z.mod_add _ 1) by lia. rewrite Z.mod_small; lia. }
  unfold remove_prefix, remove_suffix, at_. cbn [m_size]. rewrite !W. repeat split.
  destruct (Z.ltb_spec (m_size v) (2 ^ 64 - (n - m_size v))); [discriminate|lia].
Qed.
Print Assumptions C70_overrun_refuted.

Theorem C70_swap : forall mem a b s t, shows mem a s -> shows mem b t ->
  shows mem (fst (swap a b)) t /\ shows mem (snd (swap a b)) s.
Proof. intros mem a b s t A B. split; [exact B|exact A]. Qed.
Print Assumptions C70_swap.

Lemma substr_shows mem v t pos len : shows mem v t -> 0 <= pos -> 0 <= len ->
  (pos < m_size v -> exists w m x y, substr v pos len = Ret w /\ t = x ++ m ++ y /\ Z.of_nat (length x) = pos /\
     Z.of_nat (length m) = Z.min len (m_size v - pos) /\ shows mem w m) /\ (m_size v <= pos -> substr v pos len = Throw).
Proof.
  intros (b & a & E & P & N) Hp Hl. unfold substr. split.
  - intros H. destruct (Z.ltb_spec pos (m_size v)); [|lia]. replace (pos >? m_size v) with false by (symmetry; rewrite Z.gtb_ltb; apply Z.ltb_ge; lia).
    set (n := if len >? m_size v - pos then m_size v - pos else len).
    assert (En : n = Z.min len (m_size v - pos)) by (unfold n; rewrite Z.gtb_ltb; destruct (Z.ltb_spec (m_size v - pos) len); lia).
    exists (mkView (m_str v + pos) n), (firstn (Z.to_nat n) (skipn (Z.to_nat pos) t)), (firstn (Z.to_nat pos) t), (skipn (Z.to_nat n) (skipn (Z.to_nat pos) t)).
    assert (Ex : t = firstn (Z.to_nat pos) t ++ firstn (Z.to_nat n) (skipn (Z.to_nat pos) t) ++ skipn (Z.to_nat n) (skipn (Z.to_nat pos) t))
      by (rewrite !firstn_skipn; reflexivity).
    assert (L1 : Z.of_nat (length (firstn (Z.to_nat pos) t)) = pos) by (rewrite firstn_length; lia).
    assert (L2 : Z.of_nat (length (firstn (Z.to_nat n) (skipn (Z.to_nat pos) t))) = n) by (rewrite firstn_length, skipn_length; lia).
    split; [reflexivity|]. split; [exact Ex|]. split; [exact L1|]. split; [lia|].
    exists (b ++ firstn (Z.to_nat pos) t), (skipn (Z.to_nat n) (skipn (Z.to_nat pos) t) ++ a).
    cbn [m_str m_size]. split; [|split; [rewrite app_length; lia|lia]].
    rewrite E. rewrite Ex at 1. rewrite <- !app_assoc. reflexivity.
  - intros H. destruct (Z.ltb_spec pos (m_size v)); [lia|reflexivity].
Qed.

(** The substring of a view shows that part of the text. *)
Theorem C70_substr : forall mem v t pos len, shows mem v t -> 0 <= pos -> 0 <= len ->
  (pos < m_size v -> exists w m x y, substr v pos len = Ret w /\ t = x ++ m ++ y /\ Z.of_nat (length x) = pos /\
     Z.of_nat (length m) = Z.min len (m_size v - pos) /\ shows mem w m) /\ (m_size v <= pos -> substr v pos len = Throw).
Proof. exact substr_shows. Qed.
Print Assumptions C70_substr.

Lemma traits_firstn a b n : traits_compare (firstn n a) (firstn n b) n = traits_compare a b n.
Proof.
  revert a b. induction n as [|n IH]; intros [|x a] [|y b]; cbn [firstn traits_compare]; try reflexivity. rewrite IH. reflexivity.
Qed.
Lemma compare_shows mem a b s t : shows mem a s -> shows mem b t -> compare mem a b = Some (sv_compare s t).
Proof.
  intros (b1 & a1 & E1 & P1 & N1) (b2 & a2 & E2 & P2 & N2). unfold compare. rewrite P1, N1, P2, N2.
  replace (Z.to_nat (Z.min (Z.of_nat (length s)) (Z.of_nat (length t)))) with (Nat.min (length s) (length t)) by lia.
  rewrite E1 at 1. rewrite walk_part by lia. rewrite E2 at 1. rewrite walk_part by lia. rewrite traits_firstn. reflexivity.
Qed.

(** What a comparison result means *)
Definition orders (r : Z) (s t : list Z) : Prop := (r = 0 <-> s = t) /\ (r < 0 <-> lex_lt s t) /\ (r > 0 <-> lex_lt t s).

(** All the compare functions order the texts (C20), or the parts of them asked for; they
    throw exactly when a position is not inside its view. *)
Theorem C70_compare : forall mem a s, shows mem a s ->
  (forall b t, shows mem b t -> exists r, compare mem a b = Some r /\ orders r s t) /\
  (forall p t r0 b0, mem = b0 ++ t ++ 0 :: r0 -> p = Z.of_nat (length b0) -> ~ In 0 t -> Z.of_nat (length t) < 2 ^ 64 ->
     exists r, compare_cstr mem a p = Some r /\ orders r s t).
Proof.
  intros mem a s A. split.
  - intros b t B. exists (sv_compare s t). split; [exact (compare_shows mem a b s t A B)|exact (compare_iff s t)].
  - intros p t r0 b0 E -> Z0 Ht. destruct (C70_constructors b0 t (0 :: r0) Ht) as (_ & _ & _ & C & _).
    destruct (C Z0 (ex_intro _ r0 eq_refl)) as (v & Ev & Sv). rewrite <- E in *. unfold compare_cstr. rewrite Ev.
    exists (sv_compare s t). split; [exact (compare_shows mem a v s t A Sv)|exact (compare_iff s t)].
Qed.
Print Assumptions C70_compare.

Theorem C70_compare_parts : forall mem a s pos count, shows mem a s -> 0 <= pos -> 0 <= count ->
  (m_size a <= pos -> forall b p n, compare3 mem a pos count b = Throw /\ compare3_cstr mem a pos count p = Throw /\
     compare4_cstr mem a pos count p n = Throw /\ forall q m, compare5 mem a pos count b q m = Throw) /\
  (pos < m_size a -> exists x part y, s = x ++ part ++ y /\ Z.of_nat (length x) = pos /\ Z.of_nat (length part) = Z.min count (m_size a - pos) /\
     (forall b t, shows mem b t -> exists r, compare3 mem a pos count b = Ret (Some r) /\ orders r part t) /\
     (forall p t r0 b0, mem = b0 ++ t ++ 0 :: r0 -> p = Z.of_nat (length b0) -> ~ In 0 t -> Z.of_nat (length t) < 2 ^ 64 ->
        exists r, compare3_cstr mem a pos count p = Ret (Some r) /\ orders r part t) /\
     (forall p n t, shows mem (mkView p n) t -> exists r, compare4_cstr mem a pos count p n = Ret (Some r) /\ orders r part t) /\
     (forall b t q m, shows mem b t -> 0 <= q -> 0 <= m ->
        (m_size b <= q -> compare5 mem a pos count b q m = Throw) /\
        (q < m_size b -> exists x2 part2 y2 r, t = x2 ++ part2 ++ y2 /\ Z.of_nat (length x2) = q /\
           Z.of_nat (length part2) = Z.min m (m_size b - q) /\ compare5 mem a pos count b q m = Ret (Some r) /\ orders r part part2))).
Proof.
  intros mem a s pos count A Hp Hc. destruct (substr_shows mem a s pos count A Hp Hc) as [In Out].
  unfold compare3, compare3_cstr, compare4_cstr, compare5. split.
  - intros H b p n. rewrite (Out H). repeat split; try reflexivity.
  - intros H. destruct (In H) as (w & part & x & y & -> & Es & Lx & Lp & Sw). exists x, part, y.
    split; [exact Es|]. split; [exact Lx|]. split; [exact Lp|]. split; [|split; [|split]].
    + intros b t B. rewrite (compare_shows mem w b part t Sw B). eexists. split; [reflexivity|exact (compare_iff part t)].
    + intros p t r0 b0 E -> Z0 Ht. destruct (C70_constructors b0 t (0 :: r0) Ht) as (_ & _ & _ & C & _).
      destruct (C Z0 (ex_intro _ r0 eq_refl)) as (v & Ev & Sv). rewrite <- E in *. rewrite Ev.
      rewrite (compare_shows mem w v part t Sw Sv). eexists. split; [reflexivity|exact (compare_iff part t)].
    + intros p n t B. unfold view_count. rewrite (compare_shows mem w _ part t Sw B). eexists. split; [reflexivity|exact (compare_iff part t)].
    + intros b t q m B Hq Hm. destruct (substr_shows mem b t q m B Hq Hm) as [In2 Out2]. split.
      * intros G. rewrite (Out2 G). reflexivity.
      * intros G. destruct (In2 G) as (w2 & part2 & x2 & y2 & -> & Es2 & Lx2 & Lp2 & Sw2).
        rewrite (compare_shows mem w w2 part part2 Sw Sw2). exists x2, part2, y2, (sv_compare part part2).
        split; [exact Es2|]. split; [exact Lx2|]. split; [exact Lp2|]. split; [reflexivity|exact (compare_iff part part2)].
Qed.
Print Assumptions C70_compare_parts.

(** hello\0world\0 *)
Definition ex_mem : list Z := [104; 101; 108; 108; 111; 0; 119; 111; 114; 108; 100; 0].
Example C70_example :
  shows ex_mem (mkView 6 5) [119; 111; 114; 108; 100] /\ view_cstr ex_mem 6 = Some (mkView 6 5) /\
  legal [RemovePrefix 1; RemoveSuffix 2; Resize 1] [119; 111; 114; 108; 100] [111] /\
  fold_left (fun x m => modify m x) [RemovePrefix 1; RemoveSuffix 2; Resize 1] (mkView 6 5) = mkView 7 1 /\
  compare3 ex_mem (mkView 0 5) 4 9 (mkView 7 1) = Ret (Some 0) /\ compare3 ex_mem (mkView 0 5) 5 0 (mkView 7 0) = Throw /\
  compare5 ex_mem (mkView 0 5) 1 3 (mkView 6 5) 3 1 = Ret (Some (-1)).
Proof.
  split; [exists [104; 101; 108; 108; 111; 0], [0]; repeat split|]. split; [reflexivity|]. split; [|vm_compute; repeat split; reflexivity].
  apply legal_cons with [111; 114; 108; 100]; [exists [119]; split; reflexivity|].
  apply legal_cons with [111; 114]; [exists [108; 100]; split; reflexivity|].
  apply legal_cons with [111]; [exists [114]; split; reflexivity|]. constructor.
Qed.
