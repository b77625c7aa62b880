(** Reading the loaded buffer back. *)
From Coq Require Import String Ascii Sorting.Sorted.
From Verif Require Import Base Dds_Model RefDb_Model RefDb_Proof RefDb_Slots_Proof RefDb_Layout_Proof RefDb_Facts_Proof RefDb_Arrays_Proof
  RefDb_Load_Proof RefDb_Spec RefDb_Size_Proof RefDb_Loop_Proof.
Local Open Scope Z_scope.

Section View.
Variables (base s : Z) (m : mem).
Hypothesis Hb : 0 < base.
Hypothesis Hs : 0 <= s /\ base + s < 2 ^ 64.

Lemma bytes_holds a bs k : holds m a bs -> length bs = k -> 0 <= a -> a + zlen bs <= s -> bytes s m k a = Some bs.
Proof.
  intros H <- Ha Hl. unfold bytes, zlen in *. destruct (Z.leb_spec 0 a); [|lia]. destruct (Z.leb_spec (a + Z.of_nat (length bs)) s); [|lia].
  cbn [andb]. apply holds_peek in H. unfold peek in H. now rewrite H.
Qed.
Lemma number_word a v : word m a v -> 0 <= v < 2 ^ 32 -> 0 <= a -> a + 4 <= s -> number s m 4 a = Some v.
Proof. intros W V Ha Hl. unfold number. rewrite (bytes_holds a (le_bytes 4 v) 4 W) by (rewrite ?le_length, ?le_len; lia). now rewrite le_back. Qed.
Lemma number_quad a v : quad m a v -> 0 <= v < 2 ^ 64 -> 0 <= a -> a + 8 <= s -> number s m 8 a = Some v.
Proof. intros W V Ha Hl. unfold number. rewrite (bytes_holds a (le_bytes 8 v) 8 W) by (rewrite ?le_length, ?le_len; lia). now rewrite le_back. Qed.
Lemma number_byte a b : holds m a [b] -> 0 <= a -> a + 1 <= s -> number s m 1 a = Some b.
Proof. intros W Ha Hl. unfold number. rewrite (bytes_holds a [b] 1 W) by (cbn; lia). cbn. f_equal. lia. Qed.
Lemma rd_byte a b : holds m a [b] -> 0 <= a -> a + 1 <= s -> rd 1 s m a = Some b.
Proof. intros W Ha Hl. unfold rd. rewrite inside_ok by (cbn; lia). apply holds_peek in W. cbn [length] in W. rewrite W. cbn. f_equal. lia. Qed.
Lemma string_spec t : string_ok t -> forall fuel a, holds m a (t ++ [0]) -> 0 <= a -> a + zlen t + 1 <= s -> (length t < fuel)%nat ->
  string_at s m fuel a = Some t /\ cstr fuel s m a = Some t.
Proof.
  induction 1 as [|b t Hb0 Ht IH]; intros fuel a H Ha Hl Hf; (destruct fuel as [|fuel]; [lia|]); cbn [string_at cstr app length] in *.
  - rewrite (number_byte a 0), (rd_byte a 0) by (assumption || (cbn in Hl; lia)). split; reflexivity.
  - change (b :: t ++ [0]) with ([b] ++ (t ++ [0])) in H. apply holds_app in H as [H1 H2]. change (zlen [b]) with 1 in H2. unfold zlen in *. cbn [length] in *.
    rewrite (number_byte a b), (rd_byte a b) by (assumption || lia). destruct (Z.eqb_spec b 0); [lia|].
    destruct (IH fuel (a + 1) H2) as [E1 E2]; try lia. unfold text in *. rewrite E1, E2. split; reflexivity.
Qed.
Lemma some_string_spec t a : string_ok t -> holds m a (t ++ [0]) -> 0 <= a -> a + zlen t + 1 <= s -> some_string s m a = Some t.
Proof. intros H W Ha Hl. unfold some_string. apply string_spec; try assumption. unfold zlen in *. lia. Qed.
Lemma ptr_eq v : 0 <= v <= s -> ptr base v = base + v.
Proof. intros Hv. unfold ptr, u64. apply wrap_small. lia. Qed.
Lemma at_ptr_spec t a : string_ok t -> holds m a (t ++ [0]) -> 0 <= a -> a + zlen t + 1 <= s -> at_ptr base s m (ptr base a) = Some t.
Proof.
  intros H W Ha Hl. unfold at_ptr. pose proof (zlen_nonneg t). rewrite ptr_eq by lia. replace (base + a - base) with a by lia.
  unfold u64. rewrite wrap_small by lia. apply string_spec; try assumption. unfold zlen in *. lia.
Qed.
Lemma target_spec {A} a v (f : Z -> option A) x : quad m a (ptr base v) -> 0 <= v <= s -> f v = Some x -> 0 <= a -> a + 8 <= s ->
  target base s m a f = Some (Some x).
Proof.
  intros Q Hv Hf Ha Hl. unfold target. rewrite ptr_eq in Q by lia. rewrite (number_quad _ _ Q) by lia.
  destruct (Z.eqb_spec (base + v) 0); [lia|]. replace (base + v - base) with v by lia. now rewrite Hf.
Qed.
Lemma target_null {A} a (f : Z -> option A) : quad m a 0 -> 0 <= a -> a + 8 <= s -> target base s m a f = Some None.
Proof. intros Q Ha Hl. unfold target. rewrite (number_quad _ _ Q) by lia. reflexivity. Qed.
Lemma target_opt {A B} a (o : option B) v (f : Z -> option A) x : quad m a (ptr0 base (ifs o v)) -> 0 <= a -> a + 8 <= s ->
  (o <> None -> 0 < v <= s /\ f v = Some x) -> target base s m a f = Some (match o with None => None | Some _ => Some x end).
Proof.
  intros Q Ha Hl H. destruct o as [b|]; cbn [ifs some] in *; unfold ifs, ptr0 in Q; cbn [some] in Q.
  - destruct (H ltac:(discriminate)) as [Hv Hf]. destruct (Z.eqb_spec v 0); [lia|]. eapply target_spec; eauto; lia.
  - cbn in Q. now apply target_null.
Qed.
Lemma each_spec {A} (l : list A) : forall k w a f, k = length l -> (forall r x, nth_error l r = Some x -> f (a + w * Z.of_nat r) = Some x) -> each k w a f = Some l.
Proof.
  induction l as [|x l IH]; intros k w a f -> H; [reflexivity|]. cbn [length each].
  pose proof (H O x eq_refl) as H0. replace (a + w * Z.of_nat 0) with a in H0 by lia. rewrite H0.
  rewrite (IH _ w (a + w) f eq_refl); [reflexivity|]. intros r y E. rewrite <- (H (S r) y E). f_equal. lia.
Qed.
End View.

Lemma parts_nth l : forall r x y, nth_error l r = Some (x, y) -> nth_error (parts l) (2 * r) = Some x /\ nth_error (parts l) (2 * r + 1) = Some y.
Proof.
  unfold parts. induction l as [|[a b] l IH]; intros [|r] x y E; cbn in *; try discriminate.
  - injection E as -> ->. split; reflexivity.
  - apply IH in E. replace (r + S (r + 0))%nat with (S (2 * r)) by lia. replace (r + S (r + 0) + 1)%nat with (S (2 * r + 1)) by lia. exact E.
Qed.
Lemma concat_nth (l : list (list Z)) : Forall (fun t => length t = 16%nat) l -> forall m a, holds m a (concat l) -> forall r t, nth_error l r = Some t -> holds m (a + 16 * Z.of_nat r) t.
Proof.
  induction 1 as [|x l Hx _ IH]; intros m a H [|r] t E; try discriminate; cbn [concat] in H; apply holds_app in H as [H1 H2]; cbn in E.
  - injection E as ->. now replace (a + 16 * Z.of_nat 0) with a by lia.
  - unfold zlen in H2. rewrite Hx in H2. specialize (IH _ _ H2 r t E). now replace (a + 16 * Z.of_nat (S r)) with (a + Z.of_nat 16 + 16 * Z.of_nat r) by lia.
Qed.

Section Class.
Variables (d : db) (base : Z) (M : mem).
Hypothesis ok : db_ok d.
Notation s := (pos (all_ops d)).
Notation F := (fin (all_ops d)).
Hypothesis Hb : 0 < base.
Hypothesis Hbs : base + s < 2 ^ 64.
Hypothesis MT : forall x, pos (preT d) <= x < pos (preN d) \/ pos (preS d) <= x < pos (preE d) -> M x = F x.

Lemma class_view i cl : nth_error (classes d) i = Some cl -> done d base M i cl ->
  (forall x, 56 * Z.of_nat i <= x < 56 * Z.of_nat i + 8 -> M x = F x) -> class_at base s M (56 * Z.of_nat i) = Some (no_hashes cl).
Proof.
  intros Hi Dn MH. destruct (arrays d ok i cl Hi) as (AN & AA & AD).
  assert (Hlt : (i < length (classes d))%nat) by (apply nth_error_Some; congruence).
  pose proof (b_ends d) as (B1 & B2 & B3 & B4 & B5 & B6 & B7). pose proof (b_order d) as O.
  pose proof (b_mono d 0 i ltac:(lia)) as M0. pose proof (b_mono d (S i) (length (classes d)) ltac:(lia)) as M1. pose proof (b_mono d i (S i) ltac:(lia)) as M2.
  pose proof (small d ok) as Sm. unfold zlen in B1. pose proof (pos_nonneg (all_ops d)) as Sp.
  assert (P31 : 2 ^ 32 = 2 * 2 ^ 31) by reflexivity. assert (P27 : 2 ^ 31 = 16 * 2 ^ 27) by reflexivity. assert (P0 : 0 < 2 ^ 27) by reflexivity.
  assert (P64 : 2 ^ 64 = 2 ^ 32 * 2 ^ 32) by reflexivity.
  assert (Hc : class_ok cl) by (destruct ok as (H0 & _); rewrite Forall_forall in H0; apply H0; eapply nth_error_In; eauto).
  destruct Hc as (Hh & Ht & Hn & Hcn & Ha & _ & Hd).
  assert (Ht' : Forall (fun t => length t = 16%nat) (types cl)) by (eapply Forall_impl; [|exact Ht]; now intros t []).
  destruct (types_fact d i cl Hi Ht') as (T1 & T2 & T3).
  destruct (record_facts d i cl Hi _ eq_refl) as (W0 & W1 & _).
  assert (Kn : 0 <= nTypes cl < 2 ^ 27) by (unfold nTypes in *; lia).
  unfold done in Dn. set (q := 56 * Z.of_nat i) in *. destruct Dn as (Q1 & Q2 & Q3 & Q4 & Q5 & Q6 & Q7 & Q8 & Q9).
  assert (Hq : 0 <= q /\ q + 56 <= 56 * Z.of_nat (length (classes d))) by (unfold q; lia).
  assert (Hs : 0 <= s /\ base + s < 2 ^ 64) by lia.
  assert (U1 : u32 (nTypes cl) = nTypes cl) by (unfold u32; apply wrap_small; lia). rewrite U1 in W1.
  assert (U0 : u32 (chash cl) = chash cl) by (unfold u32; apply wrap_small; lia). rewrite U0 in W0.
  assert (V0 : number s M 4 q = Some (chash cl)).
  { apply number_word; try lia. eapply word_ext; [|exact W0]. intros x Hx. apply MH. lia. }
  assert (V1 : number s M 4 (q + 4) = Some (nTypes cl)).
  { apply number_word; try lia. eapply word_ext; [|exact W1]. intros x Hx. apply MH. lia. }
  assert (N1 : Z.to_nat (nTypes cl) = length (types cl)) by (unfold nTypes; lia).
  assert (TA : forall a t, text_at d (pos (preS d)) (pos (preE d)) a t -> string_ok t -> 0 < a < s /\ some_string s M a = Some t).
  { intros a t (X & Y & Z) St. pose proof (zlen_nonneg t). split; [lia|]. apply some_string_spec; try assumption; try lia.
    eapply holds_ext; [|exact Z]. intros x Hx. apply MT. right. unfold zlen in *. rewrite app_length in Hx. cbn in Hx. lia. }
  assert (TS : forall a t v, text_at d (pos (preS d)) (pos (preE d)) v t -> string_ok t -> quad M a (ptr base v) -> 0 <= a -> a + 8 <= s ->
     target base s M a (some_string s M) = Some (Some t)).
  { intros a t v T St Q La Lb. destruct (TA v t T St) as [X Y]. eapply target_spec; eauto; lia. }
  assert (TD : forall a t v, text_at d (pos (preS d)) (pos (preE d)) v t -> word F a v -> fw d a = v /\ 0 < v).
  { intros a t v (X & Y & _) W. pose proof (zlen_nonneg t). split; [apply fw_word; [exact W|lia]|lia]. }
  unfold class_at. rewrite V0, V1, N1.
  assert (E1 : must (target base s M (q + 8) (fun a => each (length (types cl)) 16 a (bytes s M 16))) = Some (types cl)).
  { rewrite (target_spec base s M Hb Hs _ _ _ (types cl) Q1); [reflexivity|lia| |lia|lia].
      apply each_spec; [reflexivity|]. intros r t E. rewrite Forall_forall in Ht'. assert (L16 : length t = 16%nat) by (apply Ht'; eapply nth_error_In; eauto).
      assert (r < length (types cl))%nat by (apply nth_error_Some; congruence).
      apply bytes_holds; try assumption.
      + eapply holds_ext; [|eapply concat_nth; [apply Forall_forall; exact Ht'|exact T3|exact E]].
        intros x Hx. apply MT. left. unfold zlen, nTypes in *. lia.
      + unfold nTypes in *. lia.
      + unfold zlen, nTypes in *. lia. }
  rewrite E1.
  assert (E2 : target base s M (q + 16) (fun a => each (length (types cl)) 8 a (fun a => must (target base s M a (some_string s M)))) = Some (names cl)).
  { destruct (names cl) as [l|] eqn:E.
    - destruct Hn as [Hl HS]. destruct (AN ltac:(discriminate)) as (X & Y & _). destruct (names_fact d i cl Hi l E Hl) as (_ & _ & A3).
      rewrite (target_opt base s M Hb Hs (q + 16) (Some l) (npos d i) _ l Q2); try lia; [reflexivity|]. intros _. split; [lia|].
      apply each_spec; [congruence|]. intros r t Er. assert (r < length l)%nat by (apply nth_error_Some; congruence).
      destruct (A3 r t Er) as (a & W & TX). destruct (TD _ _ _ TX W) as [Ef _].
      assert (St : string_ok t) by (rewrite Forall_forall in HS; apply HS; eapply nth_error_In; eauto).
      erewrite TS; [reflexivity|exact TX|exact St| | |]; [|unfold nTypes in *; lia|unfold nTypes in *; lia].
      rewrite <- Ef. apply Q7; [discriminate|unfold nTypes; lia].
    - apply (target_opt base s M Hb Hs (q + 16) (@None (list text)) 0 _ [] Q2); try lia. contradiction. }
  rewrite E2.
  assert (E3 : target base s M (q + 24) (some_string s M) = Some (cname cl)).
  { destruct (cname cl) as [t|] eqn:E.
    - destruct (TA _ _ (cname_fact d i cl Hi t E) Hcn) as [X Y].
      rewrite (target_opt base s M Hb Hs (q + 24) (Some t) (cpos d i cl) _ t Q3); try lia; [reflexivity|]. intros _. split; [lia|exact Y].
    - apply (target_opt base s M Hb Hs (q + 24) (@None text) 0 _ [] Q3); try lia. contradiction. }
  rewrite E3.
  assert (E4 : target base s M (q + 32) (fun a => each (length (types cl)) 8 a (fun a => target base s M a (some_string s M))) = Some (aliases cl)).
  { destruct (aliases cl) as [l|] eqn:E.
    - destruct Ha as [Hl HS]. destruct (AA ltac:(discriminate)) as (X & Y & _). destruct (aliases_fact d i cl Hi l E Hl) as (_ & _ & A3).
      rewrite (target_opt base s M Hb Hs (q + 32) (Some l) (apos d i) _ l Q4); try lia; [reflexivity|]. intros _. split; [lia|].
      apply each_spec; [congruence|]. intros r o Er. assert (r < length l)%nat by (apply nth_error_Some; congruence).
      assert (So : match o with None => True | Some t => string_ok t end) by (rewrite Forall_forall in HS; apply (HS o); eapply nth_error_In; eauto).
      destruct (A3 r o Er) as (a & W & TX). assert (Qr : quad M (apos d i + 8 * Z.of_nat r) (ptr0 base (fw d (apos d i + 4 * nTypes cl + 4 * Z.of_nat r)))) by (apply Q8; [discriminate|unfold nTypes; lia]).
      destruct o as [t|].
      + destruct (TD _ _ _ TX W) as [Ef Pa]. rewrite Ef in Qr. unfold ptr0 in Qr. destruct (Z.eqb_spec a 0); [lia|].
        eapply TS; [exact TX|exact So|exact Qr| |]; unfold nTypes in *; lia.
      + subst a. rewrite (fw_word d _ 0 W) in Qr by lia. change (ptr0 base 0) with 0 in Qr. apply target_null; try assumption; unfold nTypes in *; lia.
    - apply (target_opt base s M Hb Hs (q + 32) (@None (list text)) 0 _ [] Q4); try lia. contradiction. }
  rewrite E4.
  rewrite (target_null base s M (q + 40) _ Q5) by lia.
  assert (E6 : target base s M (q + 48) (fun a => each (length (types cl)) 32 a (fun a => x <- view_at base s M a ;; y <- view_at base s M (a + 16) ;; Some (x, y))) = Some (descs cl)).
  { destruct (descs cl) as [l|] eqn:E.
    - destruct Hd as [Hl _]. destruct (AD ltac:(discriminate)) as (X & Y & _). destruct (descs_fact d i cl Hi l E Hl) as (_ & _ & A3).
      pose proof (parts_length l) as PL. unfold zlen in PL.
      assert (PV : forall r t, nth_error (parts l) r = Some t -> view_at base s M (dpos d i + 16 * Z.of_nat r) = Some t).
      { intros r t Er. assert (r < length (parts l))%nat by (apply nth_error_Some; congruence).
        destruct (A3 r t Er) as (a & W & W2 & TX).
        assert (Rr : 0 <= Z.of_nat r < 2 * nTypes cl) by (unfold nTypes, text in *; lia).
        destruct (Q9 ltac:(discriminate) (Z.of_nat r) Rr) as [G1 G2].
        assert (Zt : 0 <= zlen t < 2 ^ 32).
        { pose proof (zlen_nonneg t). destruct (Nat.ltb_spec 0 (length t)); [destruct TX; lia|unfold zlen in *; lia]. }
        assert (Ut : u32 (zlen t) = zlen t) by (unfold u32; apply wrap_small; lia). rewrite Ut in W2. rewrite (fw_word d _ _ W2 Zt) in G2.
        unfold view_at. rewrite (number_quad s M _ _ G2) by lia.
        destruct (Nat.ltb_spec 0 (length t)) as [Lt|Lt].
        - destruct TX as (X1 & X2 & X3). assert (Af : fw d (dpos d i + 16 * nTypes cl + 8 * Z.of_nat r) = a) by (apply fw_word; [exact W|lia]).
          rewrite Af in G1. unfold ptr0 in G1. destruct (Z.eqb_spec a 0); [lia|].
          rewrite (target_spec base s M Hb Hs _ a _ t G1); [reflexivity|unfold zlen in *; lia| |lia|lia].
          apply bytes_holds; [|unfold zlen; lia|lia|lia]. eapply holds_ext; [|exact X3]. intros x Hx. apply MT. right. lia.
        - subst a. rewrite (fw_word d _ 0 W) in G1 by lia. change (ptr0 base 0) with 0 in G1. rewrite (target_null base s M _ _ G1) by lia.
          destruct t; [|cbn in Lt; lia]. reflexivity. }
      rewrite (target_opt base s M Hb Hs (q + 48) (Some l) (dpos d i) _ l Q6); try lia; [reflexivity|]. intros _. split; [lia|].
      apply each_spec; [congruence|]. intros r [x y] Er. apply parts_nth in Er as [Ex Ey]. apply PV in Ex, Ey.
      replace (dpos d i + 32 * Z.of_nat r) with (dpos d i + 16 * Z.of_nat (2 * r)) by lia. rewrite Ex.
      replace (dpos d i + 16 * Z.of_nat (2 * r) + 16) with (dpos d i + 16 * Z.of_nat (2 * r + 1)) by lia. rewrite Ey. reflexivity.
    - apply (target_opt base s M Hb Hs (q + 48) (@None (list text)) 0 _ [] Q6); try lia. contradiction. }
  rewrite E6. reflexivity.
Qed.
End Class.
