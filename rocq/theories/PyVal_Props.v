(** C89: values and lifetimes of the Python bindings. *)
From Verif Require Import Base PyVal_Model PyVal_Spec PyVal_Proof.

(** A track that assigns every component: a list with one value of the track's shape for every time, in order, each
    made from the floats the track gives for that time, and no error. *)
Theorem C89_values : forall (F D : Type) (wide : F -> D) (narrow : D -> F) zero one minus1 garbage (self : track F) s get f ds,
  gives (TrackType F self) s -> overrides self s (Some get) ->
  (forall t, length (f t) = size s /\ get t = map Some (f t)) ->
  exists items, GetValues F D wide narrow zero one minus1 garbage self [AList D (map (Number D) ds)] = Result D items false /\
    Forall2 (fun d item => shaped s (map wide (f (narrow d))) item) ds items.
Proof.
  intros F D wide narrow zero one minus1 garbage self s get f ds G O C.
  assert (P := gives_proper _ _ G).
  exists (sample F D get (build_of F D wide zero s) (buffer_of F zero one garbage s) (map narrow ds)). split.
  - rewrite (GetValues_gives F D wide narrow zero one minus1 garbage self _ s _ G O), numbers. cbn [fst snd].
    destruct ds; reflexivity.
  - assert (L : length (buffer_of F zero one garbage s) = size s) by (now apply buffer_size).
    revert L. generalize (buffer_of F zero one garbage s). induction ds as [|d r IH]; intros b L; cbn [map sample]; constructor.
    + destruct (C (narrow d)) as [CL CG].
      assert (E : store F (get (narrow d)) b = f (narrow d)).
      { rewrite CG. clear - CL L. revert b L. rewrite <- CL. generalize (f (narrow d)) as v.
        induction v as [|x v IH]; intros [|y b] L; cbn in *; try discriminate; [reflexivity | f_equal; apply IH; lia]. }
      rewrite E. now apply build_shaped.
    + apply IH. now rewrite store_length.
Qed.
Print Assumptions C89_values.

(** Any track, also one that leaves components alone: the k-th value has the track's shape, and each of its components is the one
    last assigned for the times up to the k-th - not only for the k-th - or else the initial one. *)
Theorem C89_latest : forall (F D : Type) (wide : F -> D) (narrow : D -> F) zero one minus1 garbage (self : track F) s get ds,
  gives (TrackType F self) s -> overrides self s (Some get) ->
  exists items, GetValues F D wide narrow zero one minus1 garbage self [AList D (map (Number D) ds)] = Result D items false /\
    length items = length ds /\
    forall k item, nth_error items k = Some item ->
      exists l, shaped s (map wide l) item /\ length l = size s /\
        forall c, (c < size s)%nat -> exists d x, initial zero one garbage s c d /\ nth_error l c = Some x /\
          latest get (firstn (S k) (map narrow ds)) c d x.
Proof.
  intros F D wide narrow zero one minus1 garbage self s get ds G O.
  assert (P := gives_proper _ _ G).
  assert (L : length (buffer_of F zero one garbage s) = size s) by (now apply buffer_size).
  exists (sample F D get (build_of F D wide zero s) (buffer_of F zero one garbage s) (map narrow ds)). split; [|split].
  - rewrite (GetValues_gives F D wide narrow zero one minus1 garbage self _ s _ G O), numbers. cbn [fst snd].
    destruct ds; reflexivity.
  - rewrite sample_length, map_length. reflexivity.
  - intros k item E. apply sample_nth in E. subst item. eexists. split; [|split].
    + apply build_shaped; [exact P | now rewrite last_length].
    + now rewrite last_length.
    + intros c Lt. destruct (initial_total F D wide narrow zero one minus1 garbage s c P Lt) as [d I]. exists d.
      destruct (last_component F get (firstn (S k) (map narrow ds)) _ c d (initial_nth F D wide narrow zero one minus1 garbage s c d I)) as (x & E & La).
      exists x. auto.
Qed.
Print Assumptions C89_latest.

(** Refuted: that a value depends on its own time only.  A track that assigns W for the first time only. *)
Theorem C89_own_time_refuted : exists (self : track Z) (get : Z -> assigned Z),
  TrackType Z self = 0 /\ value_vector Z self = Some get /\ nth_error (get 7) 3 = Some None /\
  GetValues Z Z (fun x => x) (fun x => x) 0 1 (-1) 0 self [AList Z [Number Z 5; Number Z 7]]
    = Result Z [PTuple [PFloat 5; PFloat 5; PFloat 5; PFloat 9]; PTuple [PFloat 7; PFloat 7; PFloat 7; PFloat 9]] false /\
  GetValues Z Z (fun x => x) (fun x => x) 0 1 (-1) 0 self [AList Z [Number Z 7]]
    = Result Z [PTuple [PFloat 7; PFloat 7; PFloat 7; PFloat 0]] false.
Proof.
  set (get := fun t : Z => [Some t; Some t; Some t; if t =? 5 then Some 9 else None]).
  exists (Track Z 0 0 None None (Some get) None), get. repeat split; reflexivity.
Qed.
Print Assumptions C89_own_time_refuted.

(** Elements that are not numbers count as -1.0 and leave an error behind a list that is returned all the same. *)
Theorem C89_not_numbers : forall (F D : Type) (wide : F -> D) (narrow : D -> F) zero one minus1 garbage (self : track F) (l : list (elem D)) s get,
  gives (TrackType F self) s -> overrides self s (Some get) ->
  exists items, GetValues F D wide narrow zero one minus1 garbage self
                  [AList D (map (fun e => match e with Number _ d => Number D d | NotNumber _ => Number D minus1 end) l)] = Result D items false /\
    exists pending, GetValues F D wide narrow zero one minus1 garbage self [AList D l] = Result D items pending /\
      (pending = true <-> In (NotNumber D) l).
Proof.
  intros F D wide narrow zero one minus1 garbage self l s get G O.
  set (fill := fun e => match e with Number _ d => Number D d | NotNumber _ => Number D minus1 end).
  set (value := fun e => match e with Number _ d => d | NotNumber _ => minus1 end).
  assert (Fi : map fill l = map (Number D) (map value l)) by (rewrite map_map; apply map_ext; intros []; reflexivity).
  assert (T : fst (times F D narrow minus1 l) = map narrow (map value l))
    by (cbn; rewrite map_map; apply map_ext; intros []; reflexivity).
  exists (sample F D get (build_of F D wide zero s) (buffer_of F zero one garbage s) (map narrow (map value l))). split.
  - rewrite Fi, (GetValues_gives F D wide narrow zero one minus1 garbage self _ s _ G O), numbers. cbn [fst snd].
    destruct (map value l); reflexivity.
  - exists (snd (times F D narrow minus1 l)). split.
    + rewrite (GetValues_gives F D wide narrow zero one minus1 garbage self _ s _ G O), T. destruct (map value l); reflexivity.
    + cbn. rewrite existsb_exists. split.
      * intros (e & I & B). destruct e; [discriminate | exact I].
      * intros I. exists (NotNumber D). auto.
Qed.
Print Assumptions C89_not_numbers.

(** What else get_values can do: anything but one list is a TypeError; a track without the override for its type ends the
    interpreter, unless there are no times; a track of no known type gives a None that was never counted. *)
Theorem C89_outcomes : forall (F D : Type) (wide : F -> D) (narrow : D -> F) zero one minus1 garbage (self : track F) args,
  let answer := GetValues F D wide narrow zero one minus1 garbage self args in
  ((forall l, args <> [AList D l]) -> answer = TypeError D) /\
  (forall l, args = [AList D l] ->
    (forall s, gives (TrackType F self) s -> overrides self s None ->
       (l = [] -> answer = Result D [] false) /\ (l <> [] -> answer = Terminates D)) /\
    ((forall s, ~ gives (TrackType F self) s) -> exists pending, answer = Borrowed D pending /\ (pending = true <-> In (NotNumber D) l))).
Proof.
  intros F D wide narrow zero one minus1 garbage self args answer. subst answer. split.
  - intros N. destruct args as [|[l|] [|? ?]]; try reflexivity. exfalso. now apply (N l).
  - intros l ->. split.
    + intros s G O. rewrite (GetValues_gives F D wide narrow zero one minus1 garbage self _ s _ G O).
      split; [intros ->; reflexivity | intros Ne; destruct l; [congruence | reflexivity]].
    + intros N. exists (snd (times F D narrow minus1 l)). split.
      * unfold GetValues, times. cbn [snd].
        destruct (TrackType F self) as [|p|p] eqn:E; [exfalso; apply (N Vector); constructor | | reflexivity].
        assert (Z.pos p <> 1 /\ Z.pos p <> 2 /\ Z.pos p <> 3 /\ Z.pos p <> 4 /\ Z.pos p <> 5) as (? & ? & ? & ? & ?)
          by (repeat split; intros H; rewrite H in N; eapply N; constructor).
        destruct p as [[[p|p|]|[p|p|]|]|[[p|p|]|[p|p|]|]|]; try reflexivity; congruence.
      * cbn. rewrite existsb_exists. split.
        -- intros (e & I & B). destruct e; [discriminate | exact I].
        -- intros I. exists (NotNumber D). auto.
Qed.
Print Assumptions C89_outcomes.

(** A bone's transformation: 16 floats in four rows or 12 in three, as assigned by the bone or else the identity. *)
Theorem C89_transform : forall (F D : Type) (wide : F -> D) zero one (self : bone F) n w,
  (TMType F self = 1 /\ n = 4%nat /\ tm_matrix F self = Some w) \/ (TMType F self = 0 /\ n = 3%nat /\ tm_rts F self = Some w) ->
  exists v l, GetTM F D wide zero one self = Transform D v /\ shaped (Rows n) (map wide l) v /\ length l = (4 * n)%nat /\
    forall c d, initial zero one zero (Rows n) c d ->
      nth_error l c = Some (match nth_error w c with Some (Some x) => x | _ => d end).
Proof.
  intros F D wide zero one self n w H. unfold GetTM.
  destruct H as [(-> & -> & ->) | (-> & -> & ->)]; eexists; eexists; (split; [reflexivity | split; [|split]]).
  - apply (build_shaped F D wide zero (Rows 4)); [unfold proper; auto | now rewrite store_length].
  - now rewrite store_length.
  - intros c d I. apply (initial_nth F D wide (fun _ => zero) zero one (wide zero) zero) in I. cbn [buffer_of] in I. now rewrite store_nth, I.
  - apply (build_shaped F D wide zero (Rows 3)); [unfold proper; auto | now rewrite store_length].
  - now rewrite store_length.
  - intros c d I. apply (initial_nth F D wide (fun _ => zero) zero one (wide zero) zero) in I. cbn [buffer_of] in I. now rewrite store_nth, I.
Qed.
Print Assumptions C89_transform.

(** A bone without the override for its type ends the interpreter; one of no known type gives a None that was never counted. *)
Theorem C89_transform_outcomes : forall (F D : Type) (wide : F -> D) zero one (self : bone F),
  ((TMType F self = 1 /\ tm_matrix F self = None \/ TMType F self = 0 /\ tm_rts F self = None) -> GetTM F D wide zero one self = TmTerminates D) /\
  (TMType F self <> 0 -> TMType F self <> 1 -> GetTM F D wide zero one self = TmBorrowed D).
Proof.
  intros. unfold GetTM. split.
  - intros [[-> ->] | [-> ->]]; reflexivity.
  - intros A B. destruct (TMType F self) as [|[p|p|]|p]; congruence.
Qed.
Print Assumptions C89_transform_outcomes.

(** framerate: an integer below 2^32 is stored and read back.  Any other integer of a long is taken modulo 2^32 without a word; what is no
    integer, does not fit a long, or del motion.framerate sets 4294967295 - the call reports success, the error stays behind.
    A motion that does not store the rate ends the interpreter whatever is assigned. *)
Theorem C89_framerate :
  (forall n, 0 <= n < 2 ^ 32 -> SetFrameRate true (Integer n) = Set_ n false /\ GetFrameRate n = n) /\
  (forall n, - 2 ^ 63 <= n < 2 ^ 63 -> SetFrameRate true (Integer n) = Set_ (n mod 2 ^ 32) false) /\
  (forall v, v = NoInteger \/ v = Deleted \/ (exists n, v = Integer n /\ ~ - 2 ^ 63 <= n < 2 ^ 63) ->
     SetFrameRate true v = Set_ 4294967295 true) /\
  (forall v, SetFrameRate false v = SetTerminates).
Proof.
  assert (A : forall n, - 2 ^ 63 <= n < 2 ^ 63 -> SetFrameRate true (Integer n) = Set_ (n mod 2 ^ 32) false).
  { intros n [H1 H2]. unfold SetFrameRate, AsLong.
    destruct (Z.leb_spec (- 2 ^ 63) n); [|lia]. destruct (Z.ltb_spec n (2 ^ 63)); [|lia]. reflexivity. }
  split; [|split; [exact A | split]].
  - intros n H. split; [|reflexivity]. rewrite A by lia. rewrite Z.mod_small by lia. reflexivity.
  - intros v [-> | [-> | (n & -> & N)]]; try reflexivity.
    unfold SetFrameRate, AsLong. destruct (Z.leb_spec (- 2 ^ 63) n), (Z.ltb_spec n (2 ^ 63)); cbn [andb]; try reflexivity. lia.
  - intros v. unfold SetFrameRate. destruct (AsLong v). reflexivity.
Qed.
Print Assumptions C89_framerate.

(** Every object points into what exactly one object deletes. *)
Theorem C89_owner : forall ps i, legal ps -> (i < created ps)%nat -> exists j, origin ps i j /\ forall j', origin ps i j' -> j' = j.
Proof.
  intros ps i L Lt. destruct (origin_exists ps L i Lt) as [j O]. exists j. split; [exact O|].
  intros j' O'. destruct (origin_home ps i j L O) as (o & E & <-), (origin_home ps i j' L O') as (o' & E' & <-). congruence.
Qed.
Print Assumptions C89_owner.

(** Using a held object, after any history: well defined exactly while Python still holds the owner; holding the object itself
    keeps nothing alive. *)
Theorem C89_lifetime : forall ps i j p, legal (ps ++ [p]) -> (p = Use i \/ exists own, p = Child i own) -> origin ps i j ->
  exists before r, fst (play (ps ++ [p]) start) = before ++ [r] /\ length before = length ps /\
    (r = Ok <-> 0 < references ps j) /\ (r = Dangling <-> references ps j = 0).
Proof.
  intros ps i j p L U O. assert (Lp := legal_app _ _ L).
  destruct (legal_last ps p i L) as [Lt Pos]; [intuition auto|].
  exists (fst (play ps start)), (status i (after ps start)). split; [|split].
  - rewrite play_last. f_equal. f_equal. destruct U as [-> | [own ->]]; reflexivity.
  - clear. generalize start. induction ps as [|x r IH]; intros w; [reflexivity|]. cbn.
    destruct (step x w) as [o w1]. specialize (IH w1). destruct (play r w1). cbn in *. lia.
  - now apply status_after.
Qed.
Print Assumptions C89_lifetime.

(** A script that keeps every owner while anything of it is used never touches deleted memory. *)
Theorem C89_safe : forall ps, legal ps ->
  (forall before p after i j, ps = before ++ p :: after -> (p = Use i \/ exists own, p = Child i own) -> origin before i j ->
     0 < references before j) ->
  Forall (fun r => r = Ok) (fst (play ps start)).
Proof.
  intros ps. induction ps as [|p ps IH] using rev_ind; intros L K; [constructor|].
  rewrite play_last. apply Forall_app. assert (Lp := legal_app _ _ L). split.
  - apply IH; [exact Lp|]. intros b q a i j -> U O. apply (K b q (a ++ [p]) i j); [rewrite <- app_assoc; reflexivity | exact U | exact O].
  - constructor; [|constructor].
    assert (St : forall i, (p = Use i \/ exists own, p = Child i own) -> status i (after ps start) = Ok).
    { intros i U. destruct (legal_last ps p i L) as [Lt Pos]; [intuition auto|].
      destruct (origin_exists ps Lp i Lt) as [j O]. apply (status_after ps i j Lp Lt Pos O).
      apply (K ps p [] i j); auto. }
    destruct p as [|k own|k|k|k]; cbn [step fst]; [reflexivity | eauto | | | eauto].
    + destruct (legal_last ps _ k L) as [Lt Pos]; [auto|]. destruct (good_after ps Lp) as [GL _ GC _ _ _].
      destruct (nth_error (objects (after ps start)) k) as [o|] eqn:E; [| apply nth_error_None in E; lia].
      destruct (GC k o E). unfold held. cbn [fst]. destruct (Z.ltb_spec 0 (count o)); [reflexivity | lia].
    + destruct (legal_last ps _ k L) as [Lt Pos]; [auto|]. destruct (good_after ps Lp) as [GL _ GC _ _ _].
      destruct (nth_error (objects (after ps start)) k) as [o|] eqn:E; [| apply nth_error_None in E; lia].
      destruct (GC k o E). unfold held. destruct (Z.ltb_spec 0 (count o)); [reflexivity | lia].
Qed.
Print Assumptions C89_safe.

(** skeleton; bones = skeleton.bones; bone = bones[0]; del bones; del skeleton; bone.name *)
Definition dangling_script : list op := [Root; Child 0 false; Child 1 false; Drop 1; Use 2; Drop 0; Use 2].
Lemma dangling_legal : legal dangling_script.
Proof.
  intros b p a i E H. unfold dangling_script in E.
  do 7 (destruct b as [|? b]; cbn in E; [injection E as <- <-; destruct H as [H | [H | [H | [o H]]]]; inversion H; subst; vm_compute; split; auto; lia
                                       | injection E as <- E]).
  destruct b; discriminate.
Qed.
(** Refuted: that a bone one holds can be used. *)
Theorem C89_lifetime_refuted : exists ps i, legal (ps ++ [Use i]) /\ 0 < references ps i /\
  fst (play (ps ++ [Use i]) start) = [Ok; Ok; Ok; Ok; Ok; Ok; Dangling].
Proof.
  exists [Root; Child 0 false; Child 1 false; Drop 1; Use 2; Drop 0], 2%nat.
  split; [exact dangling_legal | split; [vm_compute; reflexivity | vm_compute; reflexivity]].
Qed.
Print Assumptions C89_lifetime_refuted.

(** The memory of the Python objects themselves is never given back: after any history there are as many blocks as objects
    were ever made, whatever was dropped. *)
Theorem C89_blocks : forall ps, legal ps -> blocks (snd (play ps start)) = created ps.
Proof. intros ps L. exact (g_blocks _ _ (good_after ps L)). Qed.
Print Assumptions C89_blocks.

(** * The hypotheses are met *)
Example h_values : gives (TrackType Z (Track Z 4 0 (Some (fun t => map Some (repeat t 12))) None None None)) (Rows 3) /\
  GetValues Z Z (fun x => x) (fun x => x) 0 1 (-1) 0 (Track Z 4 0 (Some (fun t => map Some (repeat t 12))) None None None)
    [AList Z (map (Number Z) [2; 3])] =
  Result Z (map (fun t => PTuple (repeat (PTuple (repeat (PFloat t) 4)) 3)) [2; 3]) false.
Proof. split; [constructor | reflexivity]. Qed.
Example h_transform : GetTM Z Z (fun x => x) 0 1 (Bone Z 0 (Some [Some 5; None; Some 6]) None) =
  Transform Z (PTuple [PTuple [PFloat 5; PFloat 0; PFloat 6; PFloat 0]; PTuple [PFloat 0; PFloat 0; PFloat 0; PFloat 1];
                       PTuple [PFloat 1; PFloat 1; PFloat 1; PFloat 0]]).
Proof. reflexivity. Qed.
Example h_rate : SetFrameRate true (Integer 4294967326) = Set_ 30 false /\ SetFrameRate true Deleted = Set_ 4294967295 true.
Proof. split; reflexivity. Qed.
Example h_origin : origin dangling_script 2 0.
Proof.
  apply (origin_part _ [Root; Child 0 false] 1 [Drop 1; Use 2; Drop 0; Use 2] 0); [reflexivity|].
  apply (origin_part _ [Root] 0 [Child 1 false; Drop 1; Use 2; Drop 0; Use 2] 0); [reflexivity|].
  apply (origin_root _ [] [Child 0 false; Child 1 false; Drop 1; Use 2; Drop 0; Use 2]). reflexivity.
Qed.
(** an implementation whose tracks list is its own object: the skeleton may go, the list may not *)
Example h_own : fst (play [Root; Child 0 true; Drop 0; Child 1 false; Use 2; Drop 1; Use 2] start) = [Ok; Ok; Ok; Ok; Ok; Ok; Dangling].
Proof. reflexivity. Qed.
