(** C88: an object that was written as attributes and elements and loaded is written as the same document again. *)
From Coq Require Import Strings.Ascii Strings.String.
From Verif Require Import Base Jenkins_Model Reflector_Model Reflector_Spec Reflector_Proof Reflector_Props XmlRefl_Model XmlRefl_Spec
  XmlRefl_Leaf_Proof XmlRefl_Bits_Proof XmlRefl_Proof XmlRefl_Props XmlRefl2_Model XmlRefl2_Spec XmlRefl2_Proof XmlRefl2_Props
  FloatText_Model FloatText_Spec FloatText_Print FloatText_Props FloatBack_Proof FloatBack_Props XmlAgain_Spec XmlAgain_Proof XmlAgain_Props
  XmlAgain2_Spec XmlAgain2_Proof.

(** Save, load, save: the second document is the first. *)
Theorem C88_again : forall n e reg own a name fs fl,
  writable2 n e reg own a -> bytes_ok a -> (n <= fs)%nat -> (n <= fl)%nat ->
  exists doc, SaveV2 fs e reg own a (Elem name [] []) false = Some doc /\
    forall b, length b = length a -> bytes_ok b ->
      exists b', LoadV2 fl e reg own doc false b = Some b' /\ SaveV2 fs e reg own b' (Elem name [] []) false = Some doc.
Proof.
  intros n e reg own a name fs fl W Ha Hs Hl. destruct (xml2_round_trip n e reg own a W Ha) as (x & E & P).
  unfold SaveV2. rewrite (E fs Hs). eexists. split; [reflexivity|]. intros b L B. cbn [xkids xattrs app LoadV2].
  destruct n as [|n]; [destruct W|]. destruct (covers2_load _ _ _ _ _ _ _ P fl Hl b L B) as (b' & F & B' & C). exists b'. split; [exact F|].
  rewrite (copied2_same (S n) e reg own a b b' W Ha B' L C fs), (E fs Hs). reflexivity.
Qed.
Print Assumptions C88_again.

(** An object whose floats are not exactly what their texts say is loaded as one whose floats are, and that one is
    saved as the same document. *)
Theorem C88_settled : forall n e reg own a a' name fs fl,
  settled2 n e reg own a a' -> bytes_ok a -> bytes_ok a' -> length a' = length a -> (n <= fs)%nat -> (n <= fl)%nat ->
  exists doc, SaveV2 fs e reg own a (Elem name [] []) false = Some doc /\
    forall b, length b = length a -> bytes_ok b ->
      exists b', LoadV2 fl e reg own doc false b = Some b' /\ copied (Bits reg own) a' b b' /\
        SaveV2 fs e reg own b' (Elem name [] []) false = Some doc.
Proof.
  intros n e reg own a a' name fs fl W Ha Ha' L Hs Hl. destruct (settled2_same n e reg own a a' W Ha Ha' L) as [W' S].
  destruct (xml2_round_trip n e reg own a' W' Ha') as (x & E & P). unfold SaveV2. rewrite S, (E fs Hs). eexists. split; [reflexivity|]. intros b Lb B. cbn [xkids xattrs app LoadV2].
  destruct n as [|n]; [destruct W|]. destruct (covers2_load _ _ _ _ _ _ _ P fl Hl b ltac:(lia) B) as (b' & F & B' & C). exists b'. split; [exact F|]. split; [exact C|].
  rewrite (copied2_same _ e reg own a' b b' W' Ha' B' ltac:(lia) C fs), (E fs Hs). reflexivity.
Qed.
Print Assumptions C88_settled.

(** Whatever normal numbers, zeros and infinities its floats and doubles hold, wherever they are, the object is saved
    as a document that loading and saving reproduces.  All that loading can change are the floats. *)
Theorem C88_floats : forall n e reg own a places name fs fl,
  object2_of (float_or_exact (float_env e) places a) (field_apart places) n (float_env e) reg own (length a) ->
  Forall (fun p => inside (fst p) (snd p) a /\ ordinary (snd p) (value_at (fst p) (snd p) a)) places -> ForallOrdPairs apart places ->
  bytes_ok a -> (n <= fs)%nat -> (n <= fl)%nat ->
  exists doc a', SaveV2 fs (float_env e) reg own a (Elem name [] []) false = Some doc /\ differ_at places a a' /\
    forall b, length b = length a -> bytes_ok b ->
      exists b', LoadV2 fl (float_env e) reg own doc false b = Some b' /\ copied (Bits reg own) a' b b' /\
        SaveV2 fs (float_env e) reg own b' (Elem name [] []) false = Some doc.
Proof.
  intros n e reg own a places name fs fl W Hp Ap Ba Hs Hl.
  destruct (settle_all places a Ba) as (a' & Ba' & [La D] & T); [eapply Forall_impl; [|exact Hp]; intros q [X _]; exact X|exact Ap|].
  destruct (C88_settled n (float_env e) reg own a a' name fs fl) as (doc & S & R); try assumption; [|exists doc, a'; split; [exact S|]; split; [split; assumption|exact R]].
  assert (Rf : refloated places a a') by (split; [split; assumption|split; assumption]).
  unfold settled2. eapply object2_mono; [|exact W]. cbv beta. intros base t Hb Hv Hf. split.
  - eapply values2_mono; [|exact Hv]. cbv beta. intros u addr. apply float_settled. exact Rf.
  - apply (field_settled places); [apply Rf|exact Hf].
Qed.
Print Assumptions C88_floats.

(** The object of C68 meets what C88_again asks. *)
Example h_again : exists doc, SaveV2 2 x_env x_reg (y_outer, 0%nat) y_mem (Elem [114] [] []) false = Some doc /\
  forall b, length b = length y_mem -> bytes_ok b ->
    exists b', LoadV2 2 x_env x_reg (y_outer, 0%nat) doc false b = Some b' /\ SaveV2 2 x_env x_reg (y_outer, 0%nat) b' (Elem [114] [] []) false = Some doc.
Proof. apply (C88_again 2); [apply y_writable|repeat (constructor; [unfold is_byte; lia|]); constructor|lia|lia]. Qed.

(** Example: an integer, a float, a vector of two floats and an object with a float in it *)
Definition h_cls : xcls := Eval vm_compute in mkX [72] (jenkins 64 [72])
  [mkRefl RInteger RNone 4 0 0 0 (jenkins 64 [97]) 0; mkRefl RFloat RNone 4 1 0 4 (jenkins 64 [98]) 0;
   mkRefl RVector RFloat 4 2 2 8 (jenkins 64 [99]) (CompileVectorHash RFloat 4 2); mkRefl RClass RNone 4 3 0 16 (jenkins 64 [100]) 9]
  (Some [[97]; [98]; [99]; [100]]) None.
Example h_meets : object2_of (float_or_exact (float_env x_env) g_places g_mem) (field_apart g_places) 2 (float_env x_env) g_reg (h_cls, 0%nat) (length g_mem).
Proof.
  cbn [object2_of]. split; [|split; [discriminate|split; [intros ns E; injection E as <-; repeat constructor|split; [cbn; lia|]]]].
  - split; [|split; [|split; [reflexivity|]]].
    + cbn [map nameHash xTypes h_cls fst]. repeat (apply NoDup_cons; [cbn [In]; lia|]). apply NoDup_nil.
    + intros i t H. repeat (destruct i as [|i]; [injection H as <-; split; [reflexivity|vm_compute; split; congruence]|]). destruct i; discriminate H.
    + split; [reflexivity|]. split; [|vm_compute; reflexivity]. repeat (constructor; [apply word_b_ok; reflexivity|]). constructor.
  - intros t [<-|[<-|[<-|[<-|[]]]]].
    + split; [intros [[K|K]|[[K|K] _]]; discriminate K|]. intros _ _. split; [|intros K; discriminate K].
      split; [cbn; lia|]. left. split; [discriminate|]. right. split; [split; [unfold inside; cbn; lia|cbn; lia]|]. repeat (constructor; [unfold apart; cbn; lia|]). constructor.
    + split; [intros [[K|K]|[[K|K] _]]; discriminate K|]. intros _ _. split; [|intros K; discriminate K].
      split; [cbn; lia|]. left. split; [discriminate|]. left. split; [reflexivity|]. split; [left; reflexivity|]. cbn. auto.
    + split; [intros [[K|K]|[[K|K] K2]]; try discriminate K; destruct K2; discriminate|]. intros _ _. split; [|intros K; discriminate K].
      split; [cbn; lia|]. right. right. right. left. split; [reflexivity|]. split; [vm_compute; reflexivity|]. split; [cbn; lia|]. split; [cbn; lia|].
      intros i Hi. cbn [numItems] in Hi. change (Z.to_nat 2) with 2%nat in Hi. left. split; [reflexivity|]. split; [left; reflexivity|].
      destruct i as [|[|i]]; [cbn; auto|cbn; auto|lia].
    + split.
      * intros _. split; [cbn; lia|]. split; [cbn; lia|]. split; [cbn; lia|]. split; [discriminate|]. intros o [Er Ho]. cbn [typeHash g_reg Z.eqb] in Er.
        assert (Eo : o = (f_cls, 16%nat)). { destruct o as [oc ob]. cbn in Er. injection Er as <-. f_equal. destruct Ho as [[_ Ho]|[[[K|K] _] _]]; try discriminate K. cbn [snd offset] in Ho. lia. }
        subst o. split; [apply ex_float_writable|]. split; [intros _ t [<-|[]] [K|K]; discriminate K|]. split; [intros ns E; injection E as <-; repeat constructor|]. split; [cbn; lia|].
        intros t [<-|[]]. split; [intros [[K|K]|[[K|K] _]]; discriminate K|]. intros _ _. split; [|intros K; discriminate K].
        split; [cbn; lia|]. left. split; [discriminate|]. left. split; [reflexivity|]. split; [left; reflexivity|]. cbn. auto.
      * intros N. exfalso. apply N. left. reflexivity.
Qed.
(* -7, 1.0000001, (0.1, -infinity), 16777217 / 2^24 *)
Example h_document : exists doc, SaveV2 2 (float_env x_env) g_reg (h_cls, 0%nat) g_mem (Elem [114] [] []) false = Some doc /\
  xattrs doc = [([97], txt "-7"); ([98], txt "1")] /\
  match xkids doc with [Elem n1 at1 []; Elem n2 at2 []] => n1 = [99] /\ at1 = [([120], txt "0.1"); ([121], txt "-inf")] /\ n2 = [100] /\ map snd at2 = [txt "1"] | _ => False end.
Proof. eexists. split; [vm_compute; reflexivity|]. split; [vm_compute; reflexivity|]. vm_compute. repeat split. Qed.

(** A subnormal float is not among them: the second document differs. *)
Theorem C88_subnormal_refuted : exists doc b' doc',
  SaveV2 1 (float_env x_env) g_reg (f_cls, 0%nat) (le_bytes 4 (pattern 24 8 false 0 1)) (Elem [114] [] []) false = Some doc /\
  LoadV2 1 (float_env x_env) g_reg (f_cls, 0%nat) doc false [0; 0; 0; 0] = Some b' /\
  SaveV2 1 (float_env x_env) g_reg (f_cls, 0%nat) b' (Elem [114] [] []) false = Some doc' /\
  map snd (xattrs doc) = [txt "1.4013e-45"] /\ map snd (xattrs doc') = [txt "1.17549e-38"].
Proof.
  eexists. eexists. eexists. split; [vm_compute; reflexivity|]. split; [vm_compute; reflexivity|]. split; [vm_compute; reflexivity|].
  split; vm_compute; reflexivity.
Qed.
Print Assumptions C88_subnormal_refuted.
