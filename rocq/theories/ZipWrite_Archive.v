(** C69: what an archive writing program describes, in terms of the format of Zip_Spec. *)
From Verif Require Import Base Supercore_Model Stream_Model Stream_Spec Stream_Proof ZipWrite_Model ZipWrite_Spec ZipWrite_Proof Zip_Spec.

Inductive describes : item -> record -> Prop :=
| d_stored m v fl t d pad crc us n e c :
    holds ZIPLocalFile m [0x04034b50; v; fl; 0; t; d; pad; crc; len c; us; len n; len e] ->
    describes (Item LocalFile m (n ++ e ++ c)) (Stored v fl (le_bytes 2 t ++ le_bytes 2 d ++ le_bytes 4 crc) us n e c)
| d_empty m v fl me t d pad crc n e :
    holds ZIPLocalFile m [0x04034b50; v; fl; me; t; d; pad; crc; 0; 0; len n; len e] ->
    describes (Item LocalFile m (n ++ e)) (Empty v fl me (le_bytes 2 t ++ le_bytes 2 d ++ le_bytes 4 crc) n e)
| d_central m mb v fl me t d crc cs us n e c dn ia ea lo :
    holds ZIPFile m [0x02014b50; mb; v; fl; me; t; d; crc; cs; us; len n; len e; len c; dn; ia; ea; lo] ->
    describes (Item ZipWrite_Spec.CentralFile m (n ++ e ++ c))
      (Zip_Spec.CentralFile (layout [w2 mb; w2 v; w2 fl; w2 me; w2 t; w2 d; w4 crc; w4 cs; w4 us]) (layout [w2 dn; w2 ia; w4 ea; w4 lo]) n e c)
| d_end m dn sd nd ne ds do c :
    holds ZIPCentralDir m [0x06054b50; dn; sd; nd; ne; ds; do; len c] ->
    describes (Item ZipWrite_Spec.CentralEnd m c) (Zip_Spec.CentralEnd (layout [w2 dn; w2 sd; w2 nd; w2 ne; w4 ds; w4 do]) c)
| d_end64 m dr mb v dn sd nd ne ds do :
    holds ZIP64CentralDir m [0x06064b50; dr; mb; v; dn; sd; nd; ne; ds; do] ->
    describes (Item ZipWrite_Spec.CentralEnd64 m [])
      (Zip_Spec.CentralEnd64 (layout [w8 dr; w2 mb; w2 v; w4 dn; w4 sd; w8 nd; w8 ne; w8 ds; w8 do]))
| d_locator m dn co nd :
    holds ZIP64CentralDirLocator m [0x07064b50; dn; co; nd] ->
    describes (Item Locator m []) (Locator64 (layout [w4 dn; w8 co; w4 nd]))
| d_signature m c :
    holds ZIPSignature m [0x05054b50; len c] ->
    describes (Item ZipWrite_Spec.Signature m c) (Zip_Spec.Signature c).

Definition item_bytes (sw : bool) (i : item) : list Z := match i with Item h m t => wire sw (pieces h) m ++ t end.

Lemma described_shape i r : describes i r -> match i with Item h m _ => length m = sizeof (members h) /\ bytes_ok m end.
Proof. destruct 1 as [? ? ? ? ? ? ? ? ? ? ? H | ? ? ? ? ? ? ? ? ? ? H | ? ? ? ? ? ? ? ? ? ? ? ? ? ? ? ? ? H | ? ? ? ? ? ? ? ? H | ? ? ? ? ? ? ? ? ? ? H | ? ? ? ? H | ? ? H]; destruct H as (L & B & _); split; assumption. Qed.
Lemma described_bytes i r : describes i r -> item_bytes false i = encode r.
Proof.
  destruct 1 as [? ? ? ? ? ? ? ? ? ? ? H | ? ? ? ? ? ? ? ? ? ? H | ? ? ? ? ? ? ? ? ? ? ? ? ? ? ? ? ? H | ? ? ? ? ? ? ? ? H | ? ? ? ? ? ? ? ? ? ? H | ? ? ? ? H | ? ? H];
  cbn [item_bytes pieces encode].
  - rewrite (wire_local _ _ _ _ _ _ _ _ _ _ _ _ _ _ H). unfold layout, u16b, u32b. cbn [flat_map fst snd w2 w4 w8].
    rewrite <- ?app_assoc. reflexivity.
  - rewrite (wire_local _ _ _ _ _ _ _ _ _ _ _ _ _ _ H). unfold layout, u16b, u32b. cbn [flat_map fst snd w2 w4 w8].
    rewrite <- ?app_assoc. reflexivity.
  - rewrite (wire_file _ _ _ _ _ _ _ _ _ _ _ _ _ _ _ _ _ _ _ H). unfold layout, u16b, u32b. cbn [flat_map fst snd w2 w4 w8].
    rewrite <- ?app_assoc. reflexivity.
  - rewrite (wire_end _ _ _ _ _ _ _ _ _ _ H). unfold layout, u16b, u32b. cbn [flat_map fst snd w2 w4 w8].
    rewrite <- ?app_assoc. reflexivity.
  - rewrite (wire_end64 _ _ _ _ _ _ _ _ _ _ _ H false). unfold layout, u16b, u32b. cbn [flat_map fst snd w2 w4 w8].
    rewrite ?app_nil_r. rewrite <- ?app_assoc. reflexivity.
  - rewrite (wire_locator _ _ _ _ _ _ H). unfold layout, u16b, u32b. cbn [flat_map fst snd w2 w4 w8].
    rewrite ?app_nil_r. rewrite <- ?app_assoc. reflexivity.
  - rewrite (wire_signature _ _ _ _ H). unfold layout, u16b, u32b. cbn [flat_map fst snd w2 w4 w8].
    rewrite <- ?app_assoc. reflexivity.
Qed.

Lemma write_items_eq l : (forall h m t, In (Item h m t) l -> length m = sizeof (members h) /\ bytes_ok m) -> forall w, usable w ->
  exists w', write_items l w = Some w' /\ usable w' /\ (l <> [] -> w' = WriteBuffer (flat_map (item_bytes (swapEndian w)) l) w) /\ (l = [] -> w' = w).
Proof.
  induction l as [|[h m t] l IH]; intros H w U.
  - exists w. split; [reflexivity|]. split; [exact U|]. split; [congruence|reflexivity].
  - destruct (H h m t (or_introl eq_refl)) as [L B]. destruct (write_header h m w L B U) as (w1 & E1 & ->).
    cbn [write_items]. rewrite E1. clear E1. rewrite WriteBuffer_app by exact U.
    change (wire (swapEndian w) (pieces h) m ++ t) with (item_bytes (swapEndian w) (Item h m t)).
    destruct (IH (fun h m t Hi => H h m t (or_intror Hi)) _ (WriteBuffer_usable (item_bytes (swapEndian w) (Item h m t)) w U)) as (w' & E & U' & N & Z).
    exists w'. split; [exact E|]. split; [exact U'|]. split; [|congruence]. intros _. cbn [flat_map].
    destruct l as [|i l]; [rewrite (Z eq_refl); cbn [flat_map]; rewrite app_nil_r; reflexivity|].
    rewrite (N ltac:(discriminate)), WriteBuffer_app by exact U. reflexivity.
Qed.
