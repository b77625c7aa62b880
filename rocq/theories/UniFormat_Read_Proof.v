(** Which bytes a codec needs; sampling; the registry. *)
From Verif Require Import Base Float_Model HalfFloat_Model HalfFloat_Spec Vector_Model UniFormat_Model UniFormat_Spec UniFormat_Proof.

Lemma rdv_some s c mem : (exists v, rdv s c mem = Some v) <-> (s * c <= length mem)%nat.
Proof. unfold rdv. destruct (Nat.leb_spec (s * c) (length mem)); split; intros H'; try lia; [eauto|destruct H'; discriminate]. Qed.
Lemma is_some_iff {A} (o : option A) : (exists v, o = Some v) <-> o <> None.
Proof. split; [intros [v ->]; discriminate|destruct o; [eauto|congruence]]. Qed.

Lemma uint_reads d mem : d <> CUSTOM -> (exists v, uint_value d mem = Some v) <-> (reach UINT d <= length mem)%nat.
Proof.
  intros Hd. destruct d; try congruence; cbn [uint_value reach]; unfold rd, rdv;
    match goal with |- context [(?n <=? length mem)%nat] => destruct (Nat.leb_spec n (length mem)) as [H|H] end;
    cbn [map seq]; (split; [intros [v Hv]|intros G]); first [exact H|discriminate|eexists; reflexivity|cbn in *; lia].
Qed.
Lemma raw_reads d mem : d <> CUSTOM -> (exists v, unorm_raw d mem = Some v) <-> (reach UNORM d <= length mem)%nat.
Proof.
  intros Hd. destruct d; try congruence; unfold unorm_raw; try (apply uint_reads; exact Hd); cbn [reach]; unfold omap, rd;
    match goal with |- context [(?n <=? length mem)%nat] => destruct (Nat.leb_spec n (length mem)) as [H|H] end;
    (split; [intros [v Hv]|intros G]); first [exact H|discriminate|eexists; reflexivity|cbn in *; lia].
Qed.
Lemma omap_some {A B} (f : A -> B) o : (exists v, omap f o = Some v) <-> exists v, o = Some v.
Proof. destruct o; cbn; split; intros [v Hv]; eauto; discriminate. Qed.
Lemma codec_reads f d mem : supported f d -> (exists v, codec_value f d mem = Some v) <-> (reach f d <= length mem)%nat.
Proof.
  intros S. destruct f; cbn [supported] in S; try contradiction; cbn [codec_value].
  - rewrite <- (uint_reads d mem S : _ <-> (reach INT d <= length mem)%nat). unfold int_value. destruct d; try congruence; try reflexivity;
      match goal with |- context [match uint_value ?d mem with _ => _ end] => destruct (uint_value d mem) end; split; intros [v Hv]; eauto; discriminate.
  - apply uint_reads, S.
  - rewrite <- (raw_reads d mem S : _ <-> (reach NORM d <= length mem)%nat). unfold norm_value. destruct d; try congruence; try apply omap_some.
    + rewrite omap_some. unfold unorm_raw. rewrite omap_some. reflexivity.
    + rewrite omap_some. unfold unorm_raw. rewrite omap_some. reflexivity.
  - rewrite <- (raw_reads d mem S). unfold unorm_value. destruct d; try congruence; apply omap_some.
  - cbn [In] in S. destruct S as [<-|[<-|[<-|[<-|[<-|[<-|[<-|[<-|[<-|[]]]]]]]]]]; cbn [float_value reach].
    5: rewrite omap_some; exact (raw_reads R16G16B16A16 mem ltac:(discriminate)).
    5: rewrite omap_some; exact (raw_reads R16G16B16 mem ltac:(discriminate)).
    5: rewrite omap_some; exact (raw_reads R16G16 mem ltac:(discriminate)).
    6: rewrite omap_some; exact (raw_reads R11G11B10 mem ltac:(discriminate)).
    all: unfold omap, rd, rdv; match goal with |- context [(?n <=? length ?m)%nat] => destruct (Nat.leb_spec n (length m)) as [H|H] end;
      cbn [map seq]; (split; [intros [v Hv]|intros G]); first [exact H|discriminate|eexists; reflexivity|cbn in *; lia].
  - subst d. cbn [ufloat_value]. rewrite omap_some. exact (raw_reads R11G11B10 mem ltac:(discriminate)).
Qed.

Lemma loop_ok get n : forall mem s, (forall i, (i < n)%nat -> exists v, get (skipn (i * s) mem) = Some v) ->
  exists vs, sample_loop get n mem s = Some vs /\ length vs = n /\ forall i, (i < n)%nat -> get (skipn (i * s) mem) = Some (nth i vs []).
Proof.
  induction n as [|n IH]; intros mem s H; cbn [sample_loop].
  - exists []. split; [reflexivity|]. split; [reflexivity|]. lia.
  - destruct (H 0%nat ltac:(lia)) as [v Hv]. cbn [Nat.mul skipn] in Hv. rewrite Hv.
    destruct (IH (skipn s mem) s) as (vs & E & L & G).
    { intros i Hi. rewrite skipn_skipn. replace (i * s + s)%nat with (S i * s)%nat by lia. apply H. lia. }
    rewrite E. exists (v :: vs). split; [reflexivity|]. split; [cbn; lia|]. intros [|i] Hi; [exact Hv|].
    cbn [nth]. rewrite <- G by lia. rewrite skipn_skipn. f_equal. f_equal. lia.
Qed.
Lemma loop_fault get n : forall mem s i, (i < n)%nat -> get (skipn (i * s) mem) = None -> sample_loop get n mem s = None.
Proof.
  induction n as [|n IH]; intros mem s i Hi H; [lia|]. cbn [sample_loop]. destruct (get mem) as [v|] eqn:E; [|reflexivity].
  destruct i as [|i]; [cbn in H; congruence|]. rewrite (IH (skipn s mem) s i); [reflexivity|lia|]. rewrite skipn_skipn. replace (i * s + s)%nat with (S i * s)%nat by lia. exact H.
Qed.
Lemma stride_size d : Z.to_nat (nth (Z.to_nat (dnum d)) fmtStrides 0 / 8) = element_size d.
Proof. destruct d; reflexivity. Qed.
Lemma size_reach f d : supported f d -> (element_size d <= reach f d)%nat.
Proof. intros S. destruct f, d; cbn in S |- *; try contradiction; try lia; intuition congruence. Qed.

Lemma descr_inj a b : is_word 16 (fst a) -> is_word 16 (snd a) -> is_word 16 (fst b) -> is_word 16 (snd b) -> descr_word a = descr_word b -> a = b.
Proof. destruct a as [a1 a2], b as [b1 b2]. unfold descr_word, is_word. cbn [fst snd]. change (2 ^ 16) with 65536. intros. f_equal; lia. Qed.
Lemma entries e : In e registry -> exists f d, e = MakePair f d /\ supported f d.
Proof.
  intros H. assert (A : Forall (fun e => exists f d, e = MakePair f d /\ supported f d) registry).
  { unfold registry. cbn [flat_map make_base app].
    repeat (apply Forall_cons; [do 2 eexists; split; [reflexivity|cbn; solve [congruence|discriminate|tauto]]|]). apply Forall_nil. }
  rewrite Forall_forall in A. exact (A e H).
Qed.
Lemma get_found f d : supported f d -> Get (fnum f, dnum d) = Returns (f, d).
Proof. intros S. destruct f, d; cbn in S; try contradiction; try congruence; try (exfalso; intuition congruence); vm_compute; reflexivity. Qed.

(** only the first [reach] bytes matter *)
Lemma rd_firstn n m mem : (n <= m)%nat -> (m <= length mem)%nat -> rd n (firstn m mem) = rd n mem.
Proof. intros H L. unfold rd. rewrite firstn_length, Nat.min_l by lia. rewrite firstn_firstn, Nat.min_l by lia. now destruct (Nat.leb_spec n m), (Nat.leb_spec n (length mem)); try lia. Qed.
Lemma rdv_firstn s c m mem : (s * c <= m)%nat -> (m <= length mem)%nat -> rdv s c (firstn m mem) = rdv s c mem.
Proof.
  intros H L. unfold rdv. rewrite firstn_length, Nat.min_l by lia. destruct (Nat.leb_spec (s * c) m), (Nat.leb_spec (s * c) (length mem)); try lia.
  f_equal. apply map_ext_in. intros i Hi. apply in_seq in Hi. rewrite skipn_firstn_comm, firstn_firstn, Nat.min_l; [reflexivity|].
  assert (s * (i + 1) <= s * c)%nat by (apply Nat.mul_le_mono_l; lia). lia.
Qed.
Lemma uint_local d mem : d <> CUSTOM -> (reach UINT d <= length mem)%nat -> uint_value d (firstn (reach UINT d) mem) = uint_value d mem.
Proof. intros Hd L. destruct d; try congruence; cbn [uint_value]; first [rewrite rdv_firstn|rewrite rd_firstn]; try exact L; try (cbn; lia); reflexivity. Qed.
Lemma raw_local d mem : d <> CUSTOM -> (reach UNORM d <= length mem)%nat -> unorm_raw d (firstn (reach UNORM d) mem) = unorm_raw d mem.
Proof.
  intros Hd L. destruct d; try congruence; unfold unorm_raw; try (apply uint_local; [discriminate|exact L]); rewrite rd_firstn; try exact L; try (cbn; lia); reflexivity.
Qed.
Lemma codec_local_reach f d mem : supported f d -> (reach f d <= length mem)%nat -> codec_value f d (firstn (reach f d) mem) = codec_value f d mem.
Proof.
  intros S L. destruct f; cbn [supported] in S; try contradiction; cbn [codec_value].
  - change (reach INT d) with (reach UINT d) in *. unfold int_value. now rewrite uint_local.
  - now apply uint_local.
  - change (reach NORM d) with (reach UNORM d) in *. unfold norm_value.
    destruct d; try congruence; try (rewrite raw_local by (discriminate || exact L); reflexivity); rewrite rd_firstn; try exact L; try (cbn; lia); reflexivity.
  - unfold unorm_value. now rewrite raw_local.
  - cbn [In] in S. destruct S as [<-|[<-|[<-|[<-|[<-|[<-|[<-|[<-|[<-|[]]]]]]]]]]; cbn [float_value];
      first [rewrite rdv_firstn|rewrite rd_firstn|match goal with |- context [unorm_raw ?d (firstn _ mem)] => change (reach FLOAT d) with (reach UNORM d); rewrite (raw_local d mem) end];
      try exact L; try discriminate; try (cbn; lia); reflexivity.
  - subst d. cbn [ufloat_value]. change (reach UFLOAT R11G11B10) with (reach UNORM R11G11B10). rewrite (raw_local R11G11B10 mem) by (discriminate || exact L). reflexivity.
Qed.
Lemma codec_local f d mem : supported f d -> reach f d = element_size d -> (element_size d <= length mem)%nat ->
  codec_value f d mem = codec_value f d (firstn (element_size d) mem).
Proof. intros S <- L. symmetry. now apply codec_local_reach. Qed.
