(** C66: joining a path to the branch it belongs to. *)
From Verif Require Import Base FileInfo_Model FileInfo_Spec FileInfo_Proof FileInfo_Props
  StringView_Model StringView_Spec StringView_Proof StringView_Props Branch_Model.

(** [name] is the first directory (or the file name) of the path [s]: leading
    slash apart, the path starts with it, and it ends at a slash or at the end *)
Definition first_name (s name : list Z) : Prop :=
  name <> [] /\ no_slash name /\
  exists after, drop_lead (normal s) = name ++ after /\ (after = [] \/ exists r, after = slash :: r).
(** [base] is what follows the last slash of [s] *)
Definition base_name (s base : list Z) : Prop :=
  no_slash base /\ exists dir, normal s = dir ++ base /\ (dir = [] \/ exists t, dir = t ++ [slash]).

Lemma no_slash_cut a b x y :
  no_slash a -> no_slash b -> (x = [] \/ exists r, x = slash :: r) -> (y = [] \/ exists r, y = slash :: r) ->
  a ++ x = b ++ y -> a = b.
Proof.
  revert b. induction a as [|c a IH]; intros b Ha Hb Hx Hy E.
  - destruct b as [|d b]; [reflexivity|]. cbn in E. destruct Hx as [->|(r & ->)]; [discriminate|].
    injection E as <- _. exfalso. apply Hb. left; reflexivity.
  - destruct b as [|d b].
    + cbn in E. destruct Hy as [->|(r & ->)]; [discriminate|]. injection E as -> _. exfalso. apply Ha. left; reflexivity.
    + injection E as -> E. f_equal. eapply IH; try eassumption; intros Hi; [apply Ha|apply Hb]; right; exact Hi.
Qed.

Lemma base_unique s a b : base_name s a -> base_name s b -> a = b.
Proof.
  intros (Ha & da & Ea & Ka) (Hb & db & Eb & Kb). rewrite Ea in Eb.
  assert (R : rev a ++ rev da = rev b ++ rev db) by (rewrite <- !rev_app_distr; congruence).
  assert (K : forall d : list Z, (d = [] \/ exists t, d = t ++ [slash]) -> rev d = [] \/ exists r, rev d = slash :: r).
  { intros d [->|(t & ->)]; [left; reflexivity|]. right. rewrite rev_app_distr. exists (rev t). reflexivity. }
  apply no_slash_cut in R; auto.
  - rewrite <- (rev_involutive a), <- (rev_involutive b), R. reflexivity.
  - intros Hi. apply Ha. apply in_rev. exact Hi.
  - intros Hi. apply Hb. apply in_rev. exact Hi.
Qed.

Lemma filename_is_base s f base : ~ In 0 s -> Load s = Some f -> base_name s base -> GetFilenameExt f = base.
Proof.
  intros Hz HL Hb. destruct (C10_decompose s f Hz HL) as (_ & E & _ & Hn & Hf & _).
  apply (base_unique s); [|exact Hb]. split; [exact Hn|]. exists (GetFolder f). split; [symmetry; exact E|exact Hf].
Qed.

Lemma explode_first_gen s f name after : ~ In 0 s -> Load s = Some f ->
  name ++ after <> [] -> no_slash name -> drop_lead (normal s) = name ++ after -> (after = [] \/ exists r, after = slash :: r) ->
  exists rest, Explode f = Some (name :: rest).
Proof.
  intros Hz HL Hne Hns Ea Ka. destruct (C12_explode s f Hz HL) as (cs & E & (HF & HC)).
  rewrite E.
  assert (G : forall c r t, no_slash c -> join (c :: r) ++ t = name ++ after -> t = [] \/ t = [slash] -> c = name).
  { intros c r t Hc EJ Ht.
    assert (S : exists u, join (c :: r) ++ t = c ++ u /\ (u = [] \/ exists r', u = slash :: r')).
    { destruct r as [|c' r]; cbn [join].
      - exists t. split; [reflexivity|]. destruct Ht as [->| ->]; [left; reflexivity|right; exists []; reflexivity].
      - rewrite <- app_assoc. eexists. split; [reflexivity|]. right. eexists. reflexivity. }
    destruct S as (u & Eu & Ku). rewrite Eu in EJ. exact (no_slash_cut c name u after Hc Hns Ku Ka EJ). }
  destruct HC as [(Hb & _)|[(Hc & Hb & _)|(Hc & Hb)]].
  - exfalso. congruence.
  - destruct cs as [|c r]; [congruence|]. exists r. f_equal. f_equal. apply (G c r []); [inversion HF; assumption| |left; reflexivity].
    rewrite app_nil_r. congruence.
  - destruct cs as [|c r]; [congruence|]. exists r. f_equal. f_equal. apply (G c r [slash]); [inversion HF; assumption| |right; reflexivity].
    congruence.
Qed.

Lemma explode_first s f name : ~ In 0 s -> Load s = Some f -> first_name s name ->
  exists rest, Explode f = Some (name :: rest).
Proof.
  intros Hz HL (Hne & Hns & after & Ea & Ka). apply (explode_first_gen s f name after); try assumption.
  destruct name; [congruence|discriminate].
Qed.

(** Which index of [path] the name is taken to start at: the first index, with
    something left over after the name, where all but the first character of
    the name matches (the single character, for a name of one character). *)
Definition taken_at (path name : list Z) (i : Z) : Prop :=
  if size name =? 1 then char_in path name i
  else forall j, 1 <= j < size name -> char_at path (i + j) = char_at name j.

(** C66: the complete behaviour, for every path and every file with a name. *)
Theorem C66_exact : forall s f name base path,
  ~ In 0 s -> Load s = Some f -> first_name s name -> base_name s base -> size path < npos ->
  exists r, least_in (taken_at path name) 0 (size path - size name) npos r /\
    CatchBranch f path =
      (if r =? npos then BPath (path ++ base)
       else if r =? 0 then BThrows
       else BPath (firstn (Z.to_nat (r - 1)) path ++ normal s)).
Proof.
  intros s f name base path Hz HL Hf Hb Hs. destruct (explode_first s f name Hz HL Hf) as (rest & E).
  unfold CatchBranch. rewrite E, (filename_is_base s f base Hz HL Hb).
  destruct (C10_decompose s f Hz HL) as (-> & _).
  assert (K : exists r, sv_find path name 0 = Some r /\ least_in (taken_at path name) 0 (size path - size name) npos r).
  { destruct Hf as (Hne & _). unfold taken_at. destruct (Z.eqb_spec (size name) 1) as [E1|E1].
    - destruct name as [|c [|d name]]; [congruence| |unfold size in E1; cbn [length] in E1; lia].
      destruct (C21_find_char path c 0 ltac:(lia)) as (r & Er & Hr). exists r. split; [exact Er|].
      change (size [c]) with 1. exact Hr.
    - apply C22_find_view_exact; [lia|]. destruct name as [|c [|d name]]; [congruence|unfold size in E1; cbn [length] in E1; lia|].
      unfold size. cbn [length]. lia. }
  destruct K as (r & -> & Hr). exists r. split; [exact Hr|reflexivity].
Qed.
Print Assumptions C66_exact.

Lemma taken_of_occurs root name tail : name <> [] -> taken_at (root ++ name ++ tail) name (size root).
Proof.
  intros Hne. unfold taken_at, char_at, size, char_in. destruct (Z.eqb_spec (Z.of_nat (length name)) 1) as [E|E].
  - destruct name as [|c [|d n]]; [congruence| |cbn [length] in E; lia]. exists c. split; [|left; reflexivity].
    unfold char_at. rewrite Nat2Z.id, nth_error_app2, Nat.sub_diag by lia. reflexivity.
  - intros j Hj. rewrite nth_error_app2, nth_error_app1 by lia. f_equal. lia.
Qed.

Lemma occurs_of_taken path name i :
  0 <= i -> i < size path - size name -> 2 <= size name -> taken_at path name i -> occurs path (tl name) (i + 1).
Proof.
  intros Hi Hb Hn. unfold taken_at. destruct (Z.eqb_spec (size name) 1) as [E|E]; [lia|]. intros H.
  destruct name as [|c n]; [unfold size in Hn; cbn [length] in Hn; lia|]. cbn [tl].
  assert (Sz : size (c :: n) = size n + 1) by (unfold size; cbn [length]; lia). rewrite Sz in *.
  apply occurs_chars; [lia|]. split; [lia|]. intros j Hj. specialize (H (j + 1) ltac:(lia)).
  replace (i + 1 + j) with (i + (j + 1)) by lia. rewrite H. unfold char_at.
  replace (Z.to_nat (j + 1)) with (S (Z.to_nat j)) by lia. reflexivity.
Qed.

Lemma first_of_path path root name tail r :
  path = root ++ name ++ tail -> tail <> [] -> 2 <= size name -> size path < npos ->
  (forall i, 0 <= i -> occurs path (tl name) i -> size root + 1 <= i) ->
  least_in (taken_at path name) 0 (size path - size name) npos r -> r = size root.
Proof.
  intros Ep Ht Hn Hs Ho Hr.
  assert (B : 0 <= size root < size path - size name).
  { rewrite Ep. unfold size. rewrite !app_length. destruct tail; [congruence|]. cbn [length]. lia. }
  assert (T : taken_at path name (size root)).
  { rewrite Ep. apply taken_of_occurs. intros ->. unfold size in Hn. cbn in Hn. lia. }
  destruct Hr as [(Hb & Hq & Hl)|(-> & Hno)].
  - assert (r <= size root). { apply Z.nlt_ge. intros L. apply (Hl (size root)); [lia|exact T]. }
    assert (size root + 1 <= r + 1). { apply Ho; [lia|]. apply occurs_of_taken; [lia|lia|lia|exact Hq]. }
    lia.
  - exfalso. apply (Hno (size root)); [lia|exact T].
Qed.

(** A file "/name/..." given the place of that branch, "root/name..." with
    something after the name, comes out as "root/name/...": provided nothing
    earlier in the place looks like the name. *)
Theorem C66_joins : forall s f name base root tail,
  ~ In 0 s -> Load s = Some f -> first_name s name -> base_name s base -> (exists b, normal s = slash :: b) ->
  2 <= size name -> tail <> [] -> size (root ++ slash :: name ++ tail) < npos ->
  (forall i, 0 <= i -> occurs (root ++ slash :: name ++ tail) (tl name) i -> size root + 2 <= i) ->
  CatchBranch f (root ++ slash :: name ++ tail) = BPath (root ++ normal s).
Proof.
  intros s f name base root tail Hz HL Hf Hb _ Hn Ht Hs Ho.
  destruct (C66_exact s f name base _ Hz HL Hf Hb Hs) as (r & Hr & ->).
  assert (E : r = size (root ++ [slash])).
  { eapply (first_of_path _ (root ++ [slash]) name tail); [rewrite <- app_assoc; reflexivity|exact Ht|exact Hn|exact Hs| |exact Hr].
    intros i Hi Hoc. specialize (Ho i Hi Hoc). unfold size in *. rewrite app_length. cbn [length]. lia. }
  unfold size in E, Hs. rewrite app_length in E, Hs. cbn [length] in E, Hs.
  destruct (Z.eqb_spec r npos) as [Q|_]; [lia|]. destruct (Z.eqb_spec r 0) as [Q|_]; [lia|].
  f_equal. f_equal. rewrite E. replace (Z.to_nat (Z.of_nat (length root + 1) - 1)) with (length root + 0)%nat by lia.
  rewrite firstn_app_2. cbn [firstn]. apply app_nil_r.
Qed.
Print Assumptions C66_joins.

(** The same place and the same file without its leading slash: the separator
    before the name is lost. *)
Theorem C66_relative_file_loses_separator : forall s f name base root tail,
  ~ In 0 s -> Load s = Some f -> first_name s name -> base_name s base -> (forall b, normal s <> slash :: b) ->
  2 <= size name -> tail <> [] -> size (root ++ slash :: name ++ tail) < npos ->
  (forall i, 0 <= i -> occurs (root ++ slash :: name ++ tail) (tl name) i -> size root + 2 <= i) ->
  exists after, normal s = name ++ after /\
    CatchBranch f (root ++ slash :: name ++ tail) = BPath (root ++ name ++ after).
Proof.
  intros s f name base root tail Hz HL Hf Hb Hrel Hn Ht Hs Ho.
  destruct (C66_exact s f name base _ Hz HL Hf Hb Hs) as (r & Hr & ->).
  assert (E : r = size (root ++ [slash])).
  { eapply (first_of_path _ (root ++ [slash]) name tail); [rewrite <- app_assoc; reflexivity|exact Ht|exact Hn|exact Hs| |exact Hr].
    intros i Hi Hoc. specialize (Ho i Hi Hoc). unfold size in *. rewrite app_length. cbn [length]. lia. }
  unfold size in E, Hs. rewrite app_length in E, Hs. cbn [length] in E, Hs.
  destruct Hf as (_ & _ & after & Ea & _). exists after.
  assert (En : normal s = name ++ after).
  { rewrite <- Ea. unfold drop_lead. destruct (normal s) as [|c b]; [reflexivity|].
    destruct (Z.eqb_spec c slash) as [Q|Q]; [exfalso; apply (Hrel b); congruence|reflexivity]. }
  split; [exact En|].
  destruct (Z.eqb_spec r npos) as [Q|_]; [lia|]. destruct (Z.eqb_spec r 0) as [Q|_]; [lia|].
  rewrite <- En. f_equal. f_equal. rewrite E. replace (Z.to_nat (Z.of_nat (length root + 1) - 1)) with (length root + 0)%nat by lia.
  rewrite firstn_app_2. cbn [firstn]. apply app_nil_r.
Qed.
Print Assumptions C66_relative_file_loses_separator.

(** A place that has nothing like the name in it gets the file name appended, as it stands. *)
Theorem C66_other_place : forall s f name base path,
  ~ In 0 s -> Load s = Some f -> first_name s name -> base_name s base -> size path < npos ->
  2 <= size name -> (forall i, 0 <= i -> ~ occurs path (tl name) i) ->
  CatchBranch f path = BPath (path ++ base).
Proof.
  intros s f name base path Hz HL Hf Hb Hs Hn Ho.
  destruct (C66_exact s f name base _ Hz HL Hf Hb Hs) as (r & Hr & ->).
  destruct Hr as [(Hr & Hq & _)|(-> & _)]; [|rewrite Z.eqb_refl; reflexivity].
  exfalso. apply (Ho (r + 1)); [lia|]. apply occurs_of_taken; [lia|lia|exact Hn|exact Hq].
Qed.
Print Assumptions C66_other_place.

(** A place that ends with the name is not recognised: the file name is glued to it. *)
Theorem C66_place_ending_with_name_refuted : forall s f name base root,
  ~ In 0 s -> Load s = Some f -> first_name s name -> base_name s base -> size (root ++ slash :: name) < npos ->
  2 <= size name ->
  (forall i, 0 <= i -> occurs (root ++ slash :: name) (tl name) i -> size root + 2 <= i) ->
  CatchBranch f (root ++ slash :: name) = BPath (root ++ slash :: name ++ base).
Proof.
  intros s f name base root Hz HL Hf Hb Hs Hn Ho.
  destruct (C66_exact s f name base _ Hz HL Hf Hb Hs) as (r & Hr & ->).
  destruct Hr as [(Hr & Hq & _)|(-> & _)].
  - exfalso. assert (Oc : occurs (root ++ slash :: name) (tl name) (r + 1)) by (apply occurs_of_taken; [lia|lia|exact Hn|exact Hq]).
    specialize (Ho (r + 1) ltac:(lia) Oc).
    unfold size in *. rewrite app_length in Hr. cbn [length] in Hr. lia.
  - rewrite Z.eqb_refl. rewrite <- app_assoc. reflexivity.
Qed.
Print Assumptions C66_place_ending_with_name_refuted.

(** A place that starts with the name throws. *)
Theorem C66_place_starting_with_name_refuted : forall s f name base tail,
  ~ In 0 s -> Load s = Some f -> first_name s name -> base_name s base -> size (name ++ tail) < npos ->
  tail <> [] -> CatchBranch f (name ++ tail) = BThrows.
Proof.
  intros s f name base tail Hz HL Hf Hb Hs Ht.
  destruct (C66_exact s f name base _ Hz HL Hf Hb Hs) as (r & Hr & ->).
  assert (T : taken_at (name ++ tail) name 0) by (apply (taken_of_occurs [] name tail); apply Hf).
  assert (B : 0 < size (name ++ tail) - size name).
  { unfold size. rewrite app_length. destruct tail; [congruence|]. cbn [length]. lia. }
  destruct Hr as [(Hr & _ & Hl)|(_ & Hno)]; [|exfalso; apply (Hno 0); [lia|exact T]].
  assert (r = 0). { destruct (Z.eq_dec r 0); [assumption|]. exfalso. apply (Hl 0); [lia|exact T]. }
  subst r. reflexivity.
Qed.
Print Assumptions C66_place_starting_with_name_refuted.

(** A file starting with two slashes has an empty first name, found nowhere. *)
Theorem C66_double_slash : forall s f base path r,
  ~ In 0 s -> Load s = Some f -> normal s = slash :: slash :: r -> base_name s base ->
  CatchBranch f path = BPath (path ++ base).
Proof.
  intros s f base path r Hz HL Hs Hb.
  destruct (explode_first_gen s f [] (slash :: r) Hz HL) as (rest & E).
  - discriminate.
  - intros [].
  - rewrite Hs. reflexivity.
  - right. eexists. reflexivity.
  - unfold CatchBranch. rewrite E, (filename_is_base s f base Hz HL Hb). reflexivity.
Qed.
Print Assumptions C66_double_slash.

(** A file that is only a slash has no name to look for: undefined. *)
Theorem C66_lone_slash_refuted : forall s f path, normal s = [slash] -> Load s = Some f ->
  CatchBranch f path = BUndefined.
Proof.
  intros s f path Hs HL. destruct s as [|c [|d s]]; [discriminate| |discriminate].
  injection HL as <-. unfold CatchBranch, Explode. cbn in Hs. cbn [fullPath map].
  change cBack with backslash. change cSlash with slash. injection Hs as ->. reflexivity.
Qed.
Print Assumptions C66_lone_slash_refuted.

(** "/home\u/a.t" under "C:/x/home/u/" *)
Example C66_case :
  exists f, Load [47; 104; 111; 109; 101; 92; 117; 47; 97; 46; 116] = Some f /\
    first_name [47; 104; 111; 109; 101; 92; 117; 47; 97; 46; 116] [104; 111; 109; 101] /\
    base_name [47; 104; 111; 109; 101; 92; 117; 47; 97; 46; 116] [97; 46; 116] /\
    (forall i, 0 <= i -> occurs ([67; 58; 47; 120] ++ slash :: [104; 111; 109; 101] ++ [47; 117; 47]) (tl [104; 111; 109; 101]) i ->
       size [67; 58; 47; 120] + 2 <= i) /\
    CatchBranch f ([67; 58; 47; 120] ++ slash :: [104; 111; 109; 101] ++ [47; 117; 47])
      = BPath [67; 58; 47; 120; 47; 104; 111; 109; 101; 47; 117; 47; 97; 46; 116] /\
    CatchBranch f [67; 58; 47; 120; 47] = BPath [67; 58; 47; 120; 47; 97; 46; 116] /\
    CatchBranch f [104; 111; 109; 101; 47] = BThrows.
Proof.
  eexists. split; [reflexivity|]. split; [|split; [|split; [|vm_compute; auto]]].
  - split; [discriminate|]. split; [intros H; cbn in H; intuition discriminate|].
    exists [47; 117; 47; 97; 46; 116]. split; [reflexivity|]. right. eexists. reflexivity.
  - split; [intros H; cbn in H; intuition discriminate|]. exists [47; 104; 111; 109; 101; 47; 117; 47].
    split; [reflexivity|]. right. exists [47; 104; 111; 109; 101; 47; 117]. reflexivity.
  - intros i Hi H. apply occurs_chars in H; [|exact Hi]. destruct H as (Hb & H).
    change (size [67; 58; 47; 120] + 2) with 6. destruct (Z.lt_ge_cases i 6) as [L|L]; [|lia]. exfalso.
    pose proof (H 0 ltac:(vm_compute; split; congruence)) as H0.
    assert (C : i = 0 \/ i = 1 \/ i = 2 \/ i = 3 \/ i = 4 \/ i = 5) by lia.
    destruct C as [->|[->|[->|[->|[->| ->]]]]]; vm_compute in H0; discriminate.
Qed.

(** the same without the leading slash *)
Example C66_relative_case :
  exists f, Load [104; 111; 109; 101; 47; 97] = Some f /\
    CatchBranch f [120; 47; 104; 111; 109; 101; 47] = BPath [120; 104; 111; 109; 101; 47; 97] /\
    CatchBranch f [120; 47; 104; 111; 109; 101] = BPath [120; 47; 104; 111; 109; 101; 97].
Proof. eexists. split; [reflexivity|]. vm_compute. auto. Qed.
