(** C87: an object that was saved and loaded is saved as the same document again, floats included. *)
From Coq Require Import Strings.Ascii Strings.String.
From Verif Require Import Base Jenkins_Model Reflector_Model Reflector_Spec Reflector_Proof Reflector_Props XmlRefl_Model XmlRefl_Spec
  XmlRefl_Leaf_Proof XmlRefl_Bits_Proof XmlRefl_Proof XmlRefl_Props
  FloatText_Model FloatText_Spec FloatText_Print FloatText_Props FloatBack_Proof FloatBack_Props XmlAgain_Spec XmlAgain_Proof.

(** Save, load, save: the second document is the first. *)
Theorem C87_again : forall n e reg own a name attrs fs fl,
  writable n e reg own a -> bytes_ok a -> (n <= fs)%nat -> (n <= fl)%nat ->
  exists doc, Save fs e reg own a (Elem name attrs []) false = Some doc /\
    forall b, length b = length a -> bytes_ok b ->
      exists b', Load fl e reg own doc false b = Some b' /\ Save fs e reg own b' (Elem name attrs []) false = Some doc.
Proof.
  intros n e reg own a name attrs fs fl W Ha Hs Hl. destruct (xml_round_trip n e reg own a W Ha) as (kids & E & P & _).
  unfold Save. rewrite (E fs Hs). eexists. split; [reflexivity|]. intros b L B. cbn [xkids app Load].
  destruct (P fl Hl b L B) as (b' & F & B' & C). exists b'. split; [exact F|]. rewrite (copied_same n e reg own a b b' W Ha B' L C fs), (E fs Hs). reflexivity.
Qed.
Print Assumptions C87_again.

(** An object whose floats are not exactly what their texts say is loaded as one whose floats are, and that one is
    saved as the same document. *)
Theorem C87_settled : forall n e reg own a a' name attrs fs fl,
  settled n e reg own a a' -> bytes_ok a -> bytes_ok a' -> length a' = length a -> (n <= fs)%nat -> (n <= fl)%nat ->
  exists doc, Save fs e reg own a (Elem name attrs []) false = Some doc /\
    forall b, length b = length a -> bytes_ok b ->
      exists b', Load fl e reg own doc false b = Some b' /\ copied (Bits reg own) a' b b' /\
        Save fs e reg own b' (Elem name attrs []) false = Some doc.
Proof.
  intros n e reg own a a' name attrs fs fl W Ha Ha' L Hs Hl. destruct (settled_same n e reg own a a' W Ha Ha' L) as [W' S].
  destruct (xml_round_trip n e reg own a' W' Ha') as (kids & E & P & _). unfold Save. rewrite S, (E fs Hs). eexists. split; [reflexivity|]. intros b Lb B. cbn [xkids app Load].
  destruct (P fl Hl b ltac:(lia) B) as (b' & F & B' & C). exists b'. split; [exact F|]. split; [exact C|]. rewrite (copied_same n e reg own a' b b' W' Ha' B' ltac:(lia) C fs), (E fs Hs). reflexivity.
Qed.
Print Assumptions C87_settled.

(** ** With the floats of FloatText_Model *)
(** A float or double ([n] bytes) whose text does not change by being read and printed again: zero, infinity, any
    normal number. *)
Definition ordinary (n : nat) (w : Z) : Prop :=
  exists p b neg E M, (n = 4%nat /\ p = 24 /\ b = 8 \/ n = 8%nat /\ p = 53 /\ b = 11) /\
    w = pattern p b neg E M /\ fields p b E M /\ (few_digits p b E M \/ 1 <= E /\ finite b E).

Lemma ordinary_settles n w : ordinary n w -> let f := format_of n in let s := GetFloat f w in
  exists w', 0 <= w' < 256 ^ Z.of_nat n /\ (forall old, snd (SetFloat f s old) = w') /\ GetFloat f w' = s /\
    plain_element s /\ Forall (fun c => 32 <= c <= 126 /\ c <> 60 /\ c <> 38) s.
Proof.
  intros (p & b & neg & E & M & Sz & -> & F & Or) f s.
  assert (X : (f = single \/ f = double) /\ prec f = p /\ ebits f = b /\ 256 ^ Z.of_nat n = 2 ^ (p + b)) by (destruct Sz as [(-> & -> & ->)|(-> & -> & ->)]; unfold f; repeat split; auto).
  destruct X as (Hf & P & B & W). rewrite W. clear W Sz. subst p b. destruct Or as [Few|[E1 Fi]].
  - destruct (few_back f Hf neg E M F Few) as (S & P1 & P2 & _). exists (pattern (prec f) (ebits f) neg E M). split; [apply (pattern_fields f Hf neg E M F)|].
    split; [intros old; unfold s; rewrite S; reflexivity|]. split; [reflexivity|]. split; assumption.
  - destruct (stable f Hf neg E M 0 F Fi E1) as (err & E' & M' & S & F' & Fi' & E1' & Same & Err). assert (NI : err <> EInvalidFormat) by (destruct Err as [->|(-> & _)]; discriminate).
    exists (pattern (prec f) (ebits f) neg E' M'). split; [apply (pattern_fields f Hf neg E' M' F')|].
    split; [intros old; unfold s; rewrite (set_any f _ 0 old err _ S NI); reflexivity|]. split; [exact Same|].
    destruct (get_number f Hf neg E M F Fi ltac:(lia)) as (d & Gd & Pd & _). unfold s. rewrite Gd. apply text_plain. exact Pd.
Qed.

(** what a float is after its text has been read *)
Definition reread (n : nat) (w : Z) : Z := snd (SetFloat (format_of n) (GetFloat (format_of n) w) 0).
Definition settle (p : nat * nat) (a : list Z) : list Z :=
  firstn (fst p) a ++ le_bytes (snd p) (reread (snd p) (value_at (fst p) (snd p) a)) ++ skipn (fst p + snd p) a.
Lemma nth_error_firstn {A} n i (l : list A) : (i < n)%nat -> nth_error (firstn n l) i = nth_error l i.
Proof. revert i l. induction n as [|n IH]; intros i l H; [lia|]. destruct l as [|x l]; [destruct i; reflexivity|]. destruct i as [|i]; [reflexivity|]. cbn [firstn nth_error]. apply IH. lia. Qed.
Lemma settle_length p a : inside (fst p) (snd p) a -> length (settle p a) = length a.
Proof. unfold inside. intros H. unfold settle. rewrite !app_length, le_bytes_length, firstn_length, skipn_length. lia. Qed.
Lemma settle_ok p a : bytes_ok a -> bytes_ok (settle p a).
Proof.
  intros H. unfold settle. unfold bytes_ok in *. apply Forall_app. split; [|apply Forall_app; split; [apply le_bytes_ok|]]; apply Forall_forall; intros x Hx; rewrite Forall_forall in H; apply H.
  - apply firstn_In in Hx. exact Hx.
  - apply skipn_In in Hx. exact Hx.
Qed.
Lemma settle_there p a : inside (fst p) (snd p) a -> bytes_at (fst p) (snd p) (settle p a) = le_bytes (snd p) (reread (snd p) (value_at (fst p) (snd p) a)).
Proof.
  unfold inside. intros H. unfold settle, bytes_at at 1. rewrite skipn_app, firstn_length, Nat.min_l by lia. rewrite skipn_all2 by (rewrite firstn_length; lia).
  rewrite Nat.sub_diag. cbn [app skipn]. rewrite firstn_app, le_bytes_length, Nat.sub_diag, firstn_O, app_nil_r. apply firstn_all2. rewrite le_bytes_length. lia.
Qed.
Lemma settle_nth p a i : inside (fst p) (snd p) a -> ~ (fst p <= i < fst p + snd p)%nat -> nth_error (settle p a) i = nth_error a i.
Proof.
  unfold inside. intros H N. unfold settle. destruct (Nat.lt_ge_cases i (fst p)).
  - rewrite nth_error_app1 by (rewrite firstn_length; lia). apply nth_error_firstn. assumption.
  - rewrite nth_error_app2 by (rewrite firstn_length; lia). rewrite firstn_length, Nat.min_l by lia. rewrite nth_error_app2 by (rewrite le_bytes_length; lia). rewrite le_bytes_length.
    rewrite nth_error_skipn. f_equal. lia.
Qed.
Lemma nth_bytes addr n a a' : (forall i, (addr <= i < addr + n)%nat -> nth_error a' i = nth_error a i) -> bytes_at addr n a' = bytes_at addr n a.
Proof.
  intros H. unfold bytes_at. apply nth_error_ext'. intros i. destruct (Nat.lt_ge_cases i n).
  - rewrite !nth_error_firstn by assumption. rewrite !nth_error_skipn. apply H. lia.
  - assert (O : forall l : list Z, nth_error (firstn n l) i = None) by (intros l; apply nth_error_None; rewrite firstn_length; lia). rewrite !O. reflexivity.
Qed.
(** all floats at once *)
Lemma settle_all places : forall a, bytes_ok a -> Forall (fun p => inside (fst p) (snd p) a) places -> ForallOrdPairs apart places ->
  exists a', bytes_ok a' /\ differ_at places a a' /\
    forall p, In p places -> bytes_at (fst p) (snd p) a' = le_bytes (snd p) (reread (snd p) (value_at (fst p) (snd p) a)).
Proof.
  induction places as [|p places IH]; intros a Ba Hin Hap.
  - exists a. split; [exact Ba|]. split; [split; [reflexivity|reflexivity]|]. intros p [].
  - inversion Hin as [|? ? Hp Hr]; subst. inversion Hap as [|? ? Ap Ar]; subst. rewrite Forall_forall in Ap.
    assert (Same : forall q, In q places -> bytes_at (fst q) (snd q) (settle p a) = bytes_at (fst q) (snd q) a).
    { intros q Hq. apply nth_bytes. intros i Hi. apply settle_nth; [exact Hp|]. destruct (Ap q Hq); lia. }
    destruct (IH (settle p a)) as (a' & Ba' & [La D] & T).
    + apply settle_ok. exact Ba.
    + eapply Forall_impl; [|exact Hr]. cbv beta. unfold inside. intros q. rewrite settle_length by exact Hp. auto.
    + exact Ar.
    + exists a'. split; [exact Ba'|]. split; [split; [rewrite La; apply settle_length; exact Hp|]|].
      * intros i Hi. rewrite D by (intros q Hq; apply Hi; right; exact Hq). apply settle_nth; [exact Hp|]. apply Hi. left. reflexivity.
      * intros q [<-|Hq].
        -- rewrite <- (settle_there p a Hp). apply nth_bytes. intros i Hi. apply D. intros q Hq. destruct (Ap q Hq); lia.
        -- rewrite (T q Hq). unfold value_at. rewrite (Same q Hq). reflexivity.
Qed.

(** the new floats settle the old ones, and everything else is the same *)
Definition refloated (places : list (nat * nat)) (a a' : list Z) : Prop :=
  differ_at places a a' /\ Forall (fun p => inside (fst p) (snd p) a /\ ordinary (snd p) (value_at (fst p) (snd p) a)) places /\
  forall p, In p places -> bytes_at (fst p) (snd p) a' = le_bytes (snd p) (reread (snd p) (value_at (fst p) (snd p) a)).
Lemma float_settled e places a a' base u addr : refloated places a a' -> float_or_exact (float_env e) places a base u addr ->
  settled_value (float_env e) u addr (skipn base a) (skipn base a').
Proof.
  intros ([La D] & Hp & T) [(Tu & Su & Iu)|(Su & Au)].
  - unfold settled_value. rewrite Tu. cbv zeta. set (m := Z.to_nat (subSize u)) in *. rewrite Forall_forall in Hp. destruct (Hp _ Iu) as [Hin Or]. cbn [fst snd] in Hin, Or.
    split; [exact Su|]. split; [unfold inside in *; rewrite skipn_length; lia|]. cbn [float_env print_float parse_float]. rewrite !skipn_bytes. pose proof (T _ Iu) as Tb. cbn [fst snd] in Tb. rewrite Tb.
    destruct (ordinary_settles _ _ Or) as (w' & Rw & Sw & Gw & P1 & P2). cbv zeta in *. unfold value_at in *. unfold reread. rewrite (Sw 0).
    split; [exact P1|]. split; [exact P2|]. split.
    * intros old _. specialize (Sw (le_value old)). destruct (SetFloat (format_of m) (GetFloat (format_of m) (le_value (bytes_at (base + addr) m a))) (le_value old)) as [err w]. cbn [snd] in *. rewrite Sw. reflexivity.
    * rewrite le_value_bytes, Z.mod_small by exact Rw. exact Gw.
  - assert (E : bytes_at addr (Z.to_nat (subSize u)) (skipn base a') = bytes_at addr (Z.to_nat (subSize u)) (skipn base a)).
    { rewrite !skipn_bytes. apply nth_bytes. intros i Hi. apply D. intros q Hq. rewrite Forall_forall in Au. destruct (Au q Hq) as [X|X]; cbn [fst snd] in X; lia. }
    unfold settled_value. destruct (type u) eqn:Tu; try (split; [exact Su|exact E]). destruct Su as (Hin & Su). rewrite Tu in Su. cbv zeta in *. destruct Su as (S1 & S2 & S3 & S4). rewrite E. repeat split; try assumption; apply S2.
Qed.
Lemma field_settled places a a' base t : differ_at places a a' -> field_apart places base t ->
  type t = RBitMember -> forall k, member_bits t k -> bit (skipn base a') k = bit (skipn base a) k.
Proof.
  intros [La D] Hf Tb k Hk. rewrite !skipn_bit. unfold bit. f_equal. specialize (Hf Tb k). assert (N : forall q, In q places -> ~ (fst q <= (8 * base + k) / 8 < fst q + snd q)%nat).
  { intros q Hq X. apply (Hf q Hk Hq). pose proof (Nat.div_mod (8 * base + k) 8 ltac:(lia)) as Dm. pose proof (Nat.mod_upper_bound (8 * base + k) 8 ltac:(lia)). lia. }
  pose proof (D _ N) as Dn. destruct (nth_error a ((8 * base + k) / 8)) as [y|] eqn:Eb.
  + rewrite (nth_error_nth _ _ 0 Eb), (nth_error_nth _ _ 0 Dn). reflexivity.
  + apply nth_error_None in Eb. apply nth_error_None in Dn. rewrite !nth_overflow by lia. reflexivity.
Qed.

(** Whatever normal numbers, zeros and infinities its floats and doubles hold, wherever they are, the object is saved
    as a document that loading and saving reproduces.  All that loading can change are the floats. *)
Theorem C87_floats : forall n e reg own a places name attrs fs fl,
  object_of (float_or_exact (float_env e) places a) (fun base t => short_text (float_env e) a base t /\ field_apart places base t) n reg own (length a) ->
  Forall (fun p => inside (fst p) (snd p) a /\ ordinary (snd p) (value_at (fst p) (snd p) a)) places -> ForallOrdPairs apart places ->
  bytes_ok a -> (n <= fs)%nat -> (n <= fl)%nat ->
  exists doc a', Save fs (float_env e) reg own a (Elem name attrs []) false = Some doc /\ differ_at places a a' /\
    forall b, length b = length a -> bytes_ok b ->
      exists b', Load fl (float_env e) reg own doc false b = Some b' /\ copied (Bits reg own) a' b b' /\
        Save fs (float_env e) reg own b' (Elem name attrs []) false = Some doc.
Proof.
  intros n e reg own a places name attrs fs fl W Hp Ap Ba Hs Hl.
  destruct (settle_all places a Ba) as (a' & Ba' & [La D] & T); [eapply Forall_impl; [|exact Hp]; intros q [X _]; exact X|exact Ap|].
  destruct (C87_settled n (float_env e) reg own a a' name attrs fs fl) as (doc & S & R); try assumption; [|exists doc, a'; split; [exact S|]; split; [split; assumption|exact R]].
  assert (Rf : refloated places a a') by (split; [split; assumption|split; assumption]).
  unfold settled. eapply object_mono; [|exact W]. cbv beta. intros base t Hb Hv [Hsh Hf]. split; [|split; [exact Hsh|]].
  - eapply values_mono; [|exact Hv]. cbv beta. intros u addr. apply float_settled. exact Rf.
  - apply (field_settled places); [apply Rf|exact Hf].
Qed.
Print Assumptions C87_floats.

(** ** Example: an integer, a float, a vector of two floats and an object with a float in it *)
Definition g_cls : xcls := Eval vm_compute in mkX [71] (jenkins 64 [71])
  [mkRefl RInteger RNone 4 0 0 0 (jenkins 64 [97]) 0; mkRefl RFloat RNone 4 1 0 4 (jenkins 64 [98]) 0;
   mkRefl RVector RFloat 4 2 2 8 (jenkins 64 [99]) 0; mkRefl RClass RNone 4 3 0 16 (jenkins 64 [100]) 9]
  (Some [[97]; [98]; [99]; [100]]) None.
Definition g_reg : registry := fun h => if h =? 9 then Some f_cls else None.
(* -7, 1.0000001, (0.1, -infinity), 16777217 / 2^24 *)
Definition g_mem : list Z := Eval vm_compute in le_bytes 4 (2 ^ 32 - 7) ++ le_bytes 4 (pattern 24 8 false 127 1) ++ le_bytes 4 (pattern 24 8 false 123 5033165) ++
  le_bytes 4 (pattern 24 8 true 255 0) ++ le_bytes 4 (pattern 24 8 false 126 8388607).
Definition g_places : list (nat * nat) := [(4, 4); (8, 4); (12, 4); (16, 4)]%nat.
Lemma short_by e a base t s : GetReflectedValue e [t] 0 (skipn base a) = Some s -> Z.of_nat (length s) < 2 ^ 64 -> short_text e a base t.
Proof. intros E L x Ex. rewrite E in Ex. injection Ex as <-. exact L. Qed.
Example g_meets : object_of (float_or_exact (float_env x_env) g_places g_mem) (fun base t => short_text (float_env x_env) g_mem base t /\ field_apart g_places base t) 2 g_reg (g_cls, 0%nat) (length g_mem).
Proof.
  cbn [object_of]. split; [|split; [cbn; lia|]].
  - split; [|split; [|split; [reflexivity|]]].
    + cbn [map nameHash xTypes g_cls fst]. repeat (apply NoDup_cons; [cbn [In]; lia|]). apply NoDup_nil.
    + intros i t H. repeat (destruct i as [|i]; [injection H as <-; split; [reflexivity|vm_compute; split; congruence]|]). destruct i; discriminate H.
    + split; [reflexivity|]. split; [|vm_compute; reflexivity]. repeat (constructor; [apply word_b_ok; reflexivity|]). constructor.
  - intros t [<-|[<-|[<-|[<-|[]]]]].
    + split; [intros [[K|K]|[[K|K] _]]; discriminate K|]. intros _ _. split; [|split; [eapply short_by; [vm_compute; reflexivity|reflexivity]|intros K; discriminate K]].
      split; [cbn; lia|]. left. right. split; [split; [unfold inside; cbn; lia|cbn; lia]|]. repeat (constructor; [unfold apart; cbn; lia|]). constructor.
    + split; [intros [[K|K]|[[K|K] _]]; discriminate K|]. intros _ _. split; [|split; [eapply short_by; [vm_compute; reflexivity|reflexivity]|intros K; discriminate K]].
      split; [cbn; lia|]. left. left. split; [reflexivity|]. split; [left; reflexivity|]. cbn. auto.
    + split; [intros [[K|K]|[[K|K] K2]]; try discriminate K; destruct K2; discriminate|]. intros _ _. split; [|split; [eapply short_by; [vm_compute; reflexivity|reflexivity]|intros K; discriminate K]].
      split; [cbn; lia|]. right. left. split; [right; left; reflexivity|]. split; [cbn; lia|]. split; [cbn; lia|]. split; [cbn; lia|]. left. split; [discriminate|].
      intros i Hi. change (Z.to_nat (numItems (mkRefl RVector RFloat 4 2 2 8 0 0))) with 2%nat in Hi. left. split; [reflexivity|]. split; [left; reflexivity|].
      destruct i as [|[|i]]; [cbn; auto|cbn; auto|cbn in Hi; lia].
    + split.
      * intros _. split; [cbn; lia|]. split; [cbn; lia|]. split; [cbn; lia|]. split; [discriminate|]. intros o [Er Ho]. cbn [typeHash g_reg Z.eqb] in Er.
        assert (Eo : o = (f_cls, 16%nat)). { destruct o as [oc ob]. cbn in Er. injection Er as <-. f_equal. destruct Ho as [[_ Ho]|[[[K|K] _] _]]; try discriminate K. cbn [snd offset] in Ho. lia. }
        subst o. split; [apply ex_float_writable|]. split; [cbn; lia|]. intros t [<-|[]]. split; [intros [[K|K]|[[K|K] _]]; discriminate K|]. intros _ _. split; [|split; [eapply short_by; [vm_compute; reflexivity|reflexivity]|intros K; discriminate K]].
        split; [cbn; lia|]. left. left. split; [reflexivity|]. split; [left; reflexivity|]. cbn. auto.
      * intros N. exfalso. apply N. left. reflexivity.
Qed.
Example g_ordinary : Forall (fun p => inside (fst p) (snd p) g_mem /\ ordinary (snd p) (value_at (fst p) (snd p) g_mem)) g_places /\ ForallOrdPairs apart g_places /\ bytes_ok g_mem.
Proof.
  split; [|split].
  - assert (X : forall ad neg E M, (ad + 4 <= 20)%nat -> value_at ad 4 g_mem = pattern 24 8 neg E M -> fields 24 8 E M -> few_digits 24 8 E M \/ 1 <= E /\ finite 8 E ->
      inside ad 4 g_mem /\ ordinary 4 (value_at ad 4 g_mem)).
    { intros ad neg E M H V F O. split; [unfold inside; exact H|]. exists 24, 8, neg, E, M. repeat split; try (left; repeat split; reflexivity); try assumption; apply F. }
    constructor; [|constructor; [|constructor; [|constructor; [|constructor]]]]; cbn [fst snd].
    + apply (X 4%nat false 127 1); [lia|vm_compute; reflexivity|unfold fields; lia|right; unfold finite; lia].
    + apply (X 8%nat false 123 5033165); [lia|vm_compute; reflexivity|unfold fields; lia|right; unfold finite; lia].
    + apply (X 12%nat true 255 0); [lia|vm_compute; reflexivity|unfold fields; lia|left; right; left; split; reflexivity].
    + apply (X 16%nat false 126 8388607); [lia|vm_compute; reflexivity|unfold fields; lia|right; unfold finite; lia].
  - repeat (constructor; [repeat (constructor; [unfold apart; cbn; lia|]); constructor|]). constructor.
  - repeat (constructor; [unfold is_byte; lia|]). constructor.
Qed.
Example g_document : exists doc, Save 2 (float_env x_env) g_reg (g_cls, 0%nat) g_mem (Elem [114] [] []) false = Some doc /\
  map xtext (xkids doc) = [txt "-7"; txt "1"; txt "[0.1, -inf]"; []] /\ map (fun k => map xtext (xkids k)) (skipn 3 (xkids doc)) = [[txt "1"]].
Proof. eexists. split; [vm_compute; reflexivity|]. split; [vm_compute; reflexivity|]. vm_compute. reflexivity. Qed.

(** A subnormal float is not among them: the second document differs. *)
Theorem C87_subnormal_refuted : exists doc b' doc',
  Save 1 (float_env x_env) g_reg (f_cls, 0%nat) (le_bytes 4 (pattern 24 8 false 0 1)) (Elem [114] [] []) false = Some doc /\
  Load 1 (float_env x_env) g_reg (f_cls, 0%nat) doc false [0; 0; 0; 0] = Some b' /\
  Save 1 (float_env x_env) g_reg (f_cls, 0%nat) b' (Elem [114] [] []) false = Some doc' /\
  map xtext (xkids doc) = [txt "1.4013e-45"] /\ map xtext (xkids doc') = [txt "1.17549e-38"].
Proof. do 3 eexists. split; [vm_compute; reflexivity|]. split; [vm_compute; reflexivity|]. split; [vm_compute; reflexivity|]. vm_compute. auto. Qed.
Print Assumptions C87_subnormal_refuted.
