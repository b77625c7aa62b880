(** C80: the helpers around pugixml. *)
From Coq Require Import Strings.Ascii Strings.String.
From Verif Require Import Base Bitfield_Model Flags_Model Reflector_Model Reflector_Fmt_Proof XmlRefl_Model Errors_Model StringView_Model Pugiex_Model Pugiex_Spec.
Local Open Scope string_scope.
Local Open Scope Z_scope.
Local Open Scope list_scope.

Lemma unpack_map : forall ps init, Flags_unpack 32 init ps = option_map (Z.lor init) (Flags_unpack 32 0 ps).
Proof.
  induction ps as [|p ps IH]; intros init; cbn [Flags_unpack]; [cbn [option_map]; rewrite Z.lor_0_r; reflexivity|].
  destruct (MakeMask_ 32 p) as [m|]; [|reflexivity]. rewrite (IH (Z.lor init m)), (IH (Z.lor 0 m)), Z.lor_0_l.
  destruct (Flags_unpack 32 0 ps) as [s|]; [|reflexivity]. cbn [option_map]. rewrite Z.lor_assoc. reflexivity.
Qed.
Lemma unpack_any : forall ps init s, Flags_unpack 32 0 ps = Some s -> Flags_unpack 32 init ps = Some (Z.lor init s).
Proof. intros ps init s H. rewrite unpack_map, H. reflexivity. Qed.
Definition table_ok (l : list string) (t : list (string * Z)) : bool :=
  forallb (fun n => match position n l with Some p => match MakeMask_ 32 p with Some m => m =? value n t | None => false end | None => false end) l.
Lemma flags_together l t : table_ok l t = true -> forall ns, incl ns l -> flags_of l ns = Some (together t ns).
Proof.
  intros T. unfold table_ok in T. rewrite forallb_forall in T. unfold flags_of. induction ns as [|n ns IH]; intros I; [reflexivity|].
  cbn [positions]. specialize (T n (I n (or_introl eq_refl))). destruct (position n l) as [p|]; [|discriminate].
  specialize (IH (fun x H => I x (or_intror H))). destruct (positions ns l) as [ps|]; [|discriminate]. cbn [Flags_unpack].
  destruct (MakeMask_ 32 p) as [m|]; [|discriminate]. apply Z.eqb_eq in T. subst m. rewrite Z.lor_0_l. rewrite (unpack_any _ _ _ IH). reflexivity.
Qed.
(** Every set of parse or format flags, in any order, reaches pugixml as exactly the options of those
    names, the defaults as its defaults, and every encoding as the encoding of that name *)
Theorem C80_flags :
  (forall ns, incl ns XMLParseFlag -> flags_of XMLParseFlag ns = Some (together pugi_parse ns)) /\
  (forall ns, incl ns XMLFormatFlag -> flags_of XMLFormatFlag ns = Some (together pugi_format ns)) /\
  XMLDefaultParseFlags = Some pugi_parse_default /\ XMLDefaultFormatFlags = Some pugi_format_default /\
  (forall n v, In (n, v) pugi_encoding -> position n XMLEncoding = Some v) /\ length XMLEncoding = length pugi_encoding.
Proof.
  split; [apply flags_together; vm_compute; reflexivity|]. split; [apply flags_together; vm_compute; reflexivity|].
  split; [vm_compute; reflexivity|]. split; [vm_compute; reflexivity|]. split; [|reflexivity].
  intros n v H. assert (A : forallb (fun c => match position (fst c) XMLEncoding with Some p => p =? snd c | None => false end) pugi_encoding = true) by (vm_compute; reflexivity).
  rewrite forallb_forall in A. specialize (A _ H). cbn [fst snd] in A. destruct (position n XMLEncoding); [|discriminate]. apply Z.eqb_eq in A. congruence.
Qed.
Print Assumptions C80_flags.

(** Collecting the children of a node gives all of them without a name, and with a name exactly those that
    bear it, in document order *)
Theorem C80_children : forall node name x,
  XMLCollectChildren node [] = xkids node /\
  (name <> [] -> (In x (XMLCollectChildren node name) <-> In x (xkids node) /\ xname x = name) /\
     exists keep, XMLCollectChildren node name = filter keep (xkids node)).
Proof.
  intros node name x. unfold XMLCollectChildren. split.
  - induction (xkids node) as [|a r IH]; [reflexivity|]. cbn [filter]. rewrite IH. reflexivity.
  - intros N. split; [|eexists; reflexivity]. rewrite filter_In. destruct name as [|c r]; [contradiction|]. 
    assert (Q : forall a b, sv_eq a b = true <-> a = b).
    { intros a b. apply compare_eq0. }
    rewrite Q. tauto.
Qed.
Print Assumptions C80_children.

(** Loading a file returns the document when pugixml reports no error; a missing file is FileNotFoundError
    naming it, a text without an element InvalidHeaderError, and every other failure a runtime error that
    names the file, the failure and the offset *)
Theorem C80_load : forall file offset doc,
  XMLFromFile file (0, offset, doc) = Returns doc /\
  XMLFromFile file (1, offset, doc) = NotFound (ascii "Couldn't open file: " ++ file) /\
  XMLFromFile file (16, offset, doc) = BadHeader (ascii "Invalid format.") /\
  (forall status name, In (status, name) pugi_status ->
     XMLFromFile file (status, offset, doc) =
       Runtime (ascii "Couldn't load XML file <" ++ file ++ ascii ">[" ++ ascii name ++ ascii "] at offset " ++ to_string offset)) /\
  XMLToFile file true = Returns tt /\ XMLToFile file false = Access (ascii "Couldn't access file: " ++ file).
Proof.
  intros file offset doc. repeat (split; [reflexivity|]). split; [|split; reflexivity]. intros status name H.
  cbn [pugi_status In] in H. repeat (destruct H as [H|H]; [injection H as <- <-; unfold XMLFromFile; cbn [Z.eqb Pos.eqb];
    match goal with |- context [nth_error ?t ?i] => let v := eval vm_compute in (nth_error t i) in replace (nth_error t i) with v by (vm_compute; reflexivity) end; reflexivity|]).
  contradiction.
Qed.
Print Assumptions C80_load.

(** The messages about a node give its name, an offset and the reason, and two offsets reported for one
    document differ as the places do *)
Theorem C80_messages : forall name at_ first what,
  0 <= first -> first <= at_ < 2 ^ 63 ->
  let head := ascii "XML node " ++ name ++ ascii " at offset " ++ to_string (at_ + (25 - first)) ++ ascii ": " in
  XMLMissingNodeException what name at_ first = head ++ ascii "Missing child " ++ what /\
  XMLMissingNodeAttributeException what name at_ first = head ++ ascii "Missing attribute " ++ what /\
  XMLEmptyData name at_ first = head ++ ascii "Missing data".
Proof.
  intros name at_ first what F A head. assert (E : u64 (at_ - first + 25) = at_ + (25 - first)).
  { unfold u64. rewrite wrap_small; [lia|]. assert (2 ^ 63 + 25 < 2 ^ 64) by (vm_compute; reflexivity). lia. }
  unfold XMLMissingNodeException, XMLMissingNodeAttributeException, XMLEmptyData, XMLBaseException, Generate_. rewrite E. auto.
Qed.
Print Assumptions C80_messages.
(** so the offset is the place exactly when the first element's name is at 25: in a document that starts
    with its root element, whose name is at 1, every offset is 24 too high *)
Theorem C80_offset_refuted : forall name at_ first, 0 <= first -> first <= at_ < 2 ^ 63 ->
  exists n, XMLEmptyData name at_ first = ascii "XML node " ++ name ++ ascii " at offset " ++ to_string n ++ ascii ": Missing data" /\
    (n = at_ <-> first = 25) /\ (first = 1 -> n = at_ + 24).
Proof.
  intros name at_ first F A. exists (at_ + (25 - first)). destruct (C80_messages name at_ first [] F A) as (_ & _ & M). split; [|lia].
  rewrite M. rewrite <- !app_assoc. reflexivity.
Qed.
Print Assumptions C80_offset_refuted.

Example ex_flags : flags_of XMLParseFlag ["Comments"; "PI"; "Fragment"] = Some 0x1003. Proof. reflexivity. Qed.
Example ex_children : XMLCollectChildren (Elem [1] [] [Elem [2] [] []; Txt [3]; Elem [4] [] []; Elem [2] [] [Txt [5]]]) [2] = [Elem [2] [] []; Elem [2] [] [Txt [5]]].
Proof. reflexivity. Qed.
