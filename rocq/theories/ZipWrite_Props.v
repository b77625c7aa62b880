(** C69: writing and reading the ZIP headers.  A header is a structure in memory ([holds]: the
    values of its members, padding arbitrary); the file has the fields with no padding. *)
From Verif Require Import Base Supercore_Model Stream_Model Stream_Spec Stream_Proof ZipWrite_Model ZipWrite_Spec ZipWrite_Proof
  Zip_Model Zip_Spec Zip_Proof Zip_Props ZipWrite_Archive.
Import ZipWrite_Spec.

Lemma written h m w l : length m = sizeof (members h) -> bytes_ok m -> usable w -> wire (swapEndian w) (pieces h) m = l ->
  exists w', write_pieces (pieces h) m w = Some w' /\ puts l (st w) (st w').
Proof.
  intros L B U E. destruct (write_header h m w L B U) as (w' & Ew & ->). exists (WriteBuffer (wire (swapEndian w) (pieces h) m) w).
  split; [exact Ew|]. rewrite E. apply raw_write_puts. apply good_true. exact U.
Qed.

(** A local file header is written as the 30 bytes of the format, whatever byte order the
    stream has: the _pad member is left out. *)
Theorem C69_writes_local_file : forall w m id version flags compression time date pad crc csize usize nsize esize, usable w ->
  holds ZIPLocalFile m [id; version; flags; compression; time; date; pad; crc; csize; usize; nsize; esize] ->
  exists w', write_pieces pieces_LocalFile m w = Some w' /\
    puts (layout [w4 id; w2 version; w2 flags; w2 compression; w2 time; w2 date; w4 crc; w4 csize; w4 usize; w2 nsize; w2 esize])
      (st w) (st w').
Proof. intros w m a b c d e f g h i j k l U H. apply (written LocalFile); [apply H|apply H|exact U|]. exact (wire_local _ _ _ _ _ _ _ _ _ _ _ _ _ _ H). Qed.
Print Assumptions C69_writes_local_file.

Theorem C69_writes_central_file : forall w m id madeBy version flags compression time date crc csize usize nsize esize commsize disk
    iattrs eattrs offset, usable w ->
  holds ZIPFile m [id; madeBy; version; flags; compression; time; date; crc; csize; usize; nsize; esize; commsize; disk; iattrs; eattrs; offset] ->
  exists w', write_pieces pieces_File m w = Some w' /\
    puts (layout [w4 id; w2 madeBy; w2 version; w2 flags; w2 compression; w2 time; w2 date; w4 crc; w4 csize; w4 usize; w2 nsize;
                  w2 esize; w2 commsize; w2 disk; w2 iattrs; w4 eattrs; w4 offset]) (st w) (st w').
Proof. intros w m a b c d e f g h i j k l n o p q r U H. apply (written CentralFile); [apply H|apply H|exact U|]. exact (wire_file _ _ _ _ _ _ _ _ _ _ _ _ _ _ _ _ _ _ _ H). Qed.
Print Assumptions C69_writes_central_file.

Theorem C69_writes_end : forall w m id disk startDisk diskEntries dirEntries dirSize dirOffset commentSize, usable w ->
  holds ZIPCentralDir m [id; disk; startDisk; diskEntries; dirEntries; dirSize; dirOffset; commentSize] ->
  exists w', write_pieces pieces_CentralDir m w = Some w' /\
    puts (layout [w4 id; w2 disk; w2 startDisk; w2 diskEntries; w2 dirEntries; w4 dirSize; w4 dirOffset; w2 commentSize]) (st w) (st w').
Proof. intros w m a b c d e f g h U H. apply (written CentralEnd); [apply H|apply H|exact U|]. exact (wire_end _ _ _ _ _ _ _ _ _ _ H). Qed.
Print Assumptions C69_writes_end.

Theorem C69_writes_signature : forall w m id size, usable w -> holds ZIPSignature m [id; size] ->
  exists w', write_pieces pieces_Signature m w = Some w' /\ puts (layout [w4 id; w2 size]) (st w) (st w').
Proof. intros w m a b U H. apply (written Signature); [apply H|apply H|exact U|]. exact (wire_signature _ _ _ _ H). Qed.
Print Assumptions C69_writes_signature.

Theorem C69_writes_locator : forall w m id disk offset disks, usable w -> holds ZIP64CentralDirLocator m [id; disk; offset; disks] ->
  exists w', write_pieces pieces_Locator m w = Some w' /\ puts (layout [w4 id; w4 disk; w8 offset; w4 disks]) (st w) (st w').
Proof. intros w m a b c d U H. apply (written Locator); [apply H|apply H|exact U|]. exact (wire_locator _ _ _ _ _ _ H). Qed.
Print Assumptions C69_writes_locator.

(** The 64-bit end record is written with Write for two of its members: it has the format's
    bytes on a stream in the machine's byte order ... *)
Theorem C69_writes_end64 : forall w m id rec madeBy version disk startDisk diskEntries dirEntries dirSize dirOffset, usable w ->
  swapEndian w = false ->
  holds ZIP64CentralDir m [id; rec; madeBy; version; disk; startDisk; diskEntries; dirEntries; dirSize; dirOffset] ->
  exists w', write_pieces pieces_CentralDir64 m w = Some w' /\
    puts (layout [w4 id; w8 rec; w2 madeBy; w2 version; w4 disk; w4 startDisk; w8 diskEntries; w8 dirEntries; w8 dirSize; w8 dirOffset])
      (st w) (st w').
Proof.
  intros w m a b c d e f g h i j U S H. apply (written CentralEnd64); [apply H|apply H|exact U|].
  rewrite S. cbn [pieces]. rewrite (wire_end64 _ _ _ _ _ _ _ _ _ _ _ H false). unfold layout. cbn [flat_map fst snd w2 w4 w8].
  rewrite ?app_nil_r. rewrite <- ?app_assoc. reflexivity.
Qed.
Print Assumptions C69_writes_end64.

(** ... and on a stream that swaps, those two members are reversed and the others are not. *)
Theorem C69_end64_mixes_byte_orders : forall w m id rec madeBy version disk startDisk diskEntries dirEntries dirSize dirOffset, usable w ->
  swapEndian w = true ->
  holds ZIP64CentralDir m [id; rec; madeBy; version; disk; startDisk; diskEntries; dirEntries; dirSize; dirOffset] ->
  exists w', write_pieces pieces_CentralDir64 m w = Some w' /\
    puts (rev (le_bytes 4 id) ++ layout [w8 rec; w2 madeBy; w2 version; w4 disk] ++ rev (le_bytes 4 startDisk) ++
          layout [w8 diskEntries; w8 dirEntries; w8 dirSize; w8 dirOffset]) (st w) (st w').
Proof.
  intros w m a b c d e f g h i j U S H. apply (written CentralEnd64); [apply H|apply H|exact U|].
  rewrite S. exact (wire_end64 _ _ _ _ _ _ _ _ _ _ _ H true).
Qed.
Print Assumptions C69_end64_mixes_byte_orders.

(** Reading any header from any bytes, into a structure with any content: every stored member
    gets the field at its place in the file, the other bytes of the structure keep their
    value, and the reader is after the header. *)
Lemma unwired h (b : list Z) : length b = file_size h -> bytes_ok b ->
  exists m, length m = sizeof (members h) /\ bytes_ok m /\ wire false (pieces h) m = b /\
    forall k, (k < length (members h))%nat -> ~ not_stored h k ->
      member_of h k m = le_value (firstn (nth k (members h) 0%nat) (skipn (file_offset h k) b)).
Proof.
  intros L B.
  assert (Z0 : forall n, bytes_ok (repeat 0 n)) by (intros n; apply Forall_forall; intros x Hx; apply repeat_spec in Hx; subst; unfold is_byte; lia).
  assert (Cut : forall i n, bytes_ok (part i n b)) by (intros; apply part_ok; exact B).
  set (m := match h with
     | LocalFile => part 0 14 b ++ repeat 0 2 ++ part 14 16 b
     | CentralFile => part 0 38 b ++ repeat 0 2 ++ part 38 8 b
     | Signature => part 0 6 b ++ repeat 0 2
     | CentralEnd => part 0 22 b ++ repeat 0 2
     | CentralEnd64 => part 0 4 b ++ repeat 0 4 ++ part 4 20 b ++ repeat 0 4 ++ part 24 32 b
     | Locator => part 0 20 b ++ repeat 0 4 end).
  exists m. assert (Bm : bytes_ok m) by (unfold m, bytes_ok; destruct h; rewrite ?Forall_app; repeat split; first [apply Cut|apply Z0]).
  split; [|split; [exact Bm|]]; clear Bm Cut Z0 B.
  - unfold m. destruct h; rewrite ?app_length, ?repeat_length, ?part_length by (rewrite L; vm_compute; lia); reflexivity.
  - unfold m; clear m.
    destruct h; cbn [file_size] in L; do 6 try (do 10 (destruct b as [|? b]; [discriminate L|])); repeat (destruct b as [|? b]; [try discriminate L|try discriminate L]);
    (split; [reflexivity|]); intros k Hk S; cbn [members length ZIPLocalFile ZIPFile ZIPSignature ZIPCentralDir ZIP64CentralDir ZIP64CentralDirLocator] in Hk;
    try (destruct (Nat.eq_dec k 6) as [->|N6]; [try (exfalso; apply S; split; reflexivity); try reflexivity|]);
    do 20 (destruct k as [|k]; [try reflexivity; try lia|]); lia.
Qed.

Theorem C69_reads_fields : forall h b rest m r, length b = file_size h -> bytes_ok b ->
  length m = sizeof (members h) -> bytes_ok m -> at_bytes r (b ++ rest) -> swapEndian r = false ->
  exists m' r', read_pieces (pieces h) m r = Some (m', r') /\ length m' = sizeof (members h) /\
    (forall k, (k < length (members h))%nat -> ~ not_stored h k ->
      member_of h k m' = le_value (firstn (nth k (members h) 0%nat) (skipn (file_offset h k) b))) /\
    (forall i, outside h i -> nth_error m' i = nth_error m i) /\
    at_bytes r' rest /\ pos (st r') = (pos (st r) + file_size h)%nat.
Proof.
  intros h b rest m r L B Lm Bm A S. destruct (unwired h b L B) as (x & Lx & Bx & Ex & Fx).
  assert (A2 : at_bytes r (wire (swapEndian r) (pieces h) x ++ rest)) by (rewrite S, Ex; exact A).
  destruct (read_header_ok h x m r rest Lx Bx Lm Bm A2) as (m' & r' & E & A' & P & L' & M & O).
  exists m', r'. split; [exact E|]. split; [exact L'|]. split; [|split; [exact O|split; [exact A'|]]].
  - intros k Hk Sk. rewrite (M k Hk Sk). apply Fx; assumption.
  - rewrite P, wire_length by exact Lx. reflexivity.
Qed.
Print Assumptions C69_reads_fields.

(** What is written is read back, in either byte order as long as reader and writer agree. *)
Theorem C69_round_trip : forall h m m2 w, usable w -> length m = sizeof (members h) -> bytes_ok m ->
  length m2 = sizeof (members h) -> bytes_ok m2 ->
  exists w', write_pieces (pieces h) m w = Some w' /\ pos (st w') = (pos (st w) + file_size h)%nat /\
    forall r, reads_back w w' r -> swapEndian r = swapEndian w ->
    exists m' r', read_pieces (pieces h) m2 r = Some (m', r') /\ length m' = sizeof (members h) /\
      (forall k, (k < length (members h))%nat -> ~ not_stored h k -> member_of h k m' = member_of h k m) /\
      (forall i, outside h i -> nth_error m' i = nth_error m2 i) /\
      pos (st r') = pos (st w').
Proof.
  intros h m m2 w U L B L2 B2. destruct (write_header h m w L B U) as (w' & Ew & E). exists w'. split; [exact Ew|].
  assert (P : pos (st w') = (pos (st w) + file_size h)%nat).
  { rewrite E. destruct (raw_write_puts (wire (swapEndian w) (pieces h) m) (st w)) as (_ & _ & _ & P & _); [apply good_true; exact U|].
    rewrite wire_length in P by exact L. exact P. }
  split; [exact P|]. intros r R S. subst w'.
  destruct (reads_back_at w _ r U R) as (rest & A).
  { left. intros E0. pose proof (wire_length h m (swapEndian w) L) as W. rewrite E0 in W. destruct h; discriminate W. }
  rewrite <- S in A. destruct (read_header_ok h m m2 r rest L B L2 B2 A) as (m' & r' & E & _ & P' & L' & M & O).
  exists m', r'. split; [exact E|]. split; [exact L'|]. split; [exact M|]. split; [exact O|].
  rewrite P', P, wire_length by exact L. destruct R as (_ & _ & ->). reflexivity.
Qed.
Print Assumptions C69_round_trip.

(** End to end: a program that writes header structures, each followed by its name, extra
    field and content, into an empty stream makes the archive its structures describe, and
    the virtual file system (C33) opened on it returns for every name the content written
    first under it. *)
Theorem C69_archive_round_trip : forall items rs w is_file fuel, usable w -> data (st w) = [] -> pos (st w) = 0%nat ->
  swapEndian w = false -> Forall2 describes items rs -> Forall wf rs -> len (archive rs) < 2 ^ 63 -> (length rs < fuel)%nat ->
  exists w', write_items items w = Some w' /\ data (st w') = archive rs /\
    exists vfs, ZIPVFS fuel (opened (data (st w')) is_file) = Ok vfs /\
      forall names, session names vfs = map (fun n => match stored_as n rs with Some c => Ok c | None => Throws 5 end) names.
Proof.
  intros items rs w fl fuel U D P S F W L Hf.
  assert (Sh : forall h m t, In (Item h m t) items -> length m = sizeof (members h) /\ bytes_ok m).
  { clear -F. intros h m t Hi. induction F as [|i r items rs Hd F IH]; [contradiction|]. destruct Hi as [->|Hi]; [|exact (IH Hi)].
    exact (described_shape _ _ Hd). }
  destruct (write_items_eq items Sh w U) as (w' & Ew & U' & N & Z). exists w'. split; [exact Ew|].
  assert (E : data (st w') = archive rs).
  { destruct items as [|i items]; [inversion F; subst rs; rewrite (Z eq_refl), D; reflexivity|].
    rewrite (N ltac:(discriminate)), S. unfold WriteBuffer, with_st. cbn [st]. rewrite raw_write_good by (apply good_true; exact U).
    cbn [data]. rewrite D, P.
    assert (G : flat_map (item_bytes false) (i :: items) = archive rs).
    { clear -F. induction F as [|i' r items' rs Hd F IH]; [reflexivity|]. cbn [flat_map archive]. rewrite (described_bytes _ _ Hd), IH. reflexivity. }
    rewrite G. unfold overwrite. rewrite firstn_nil, skipn_nil, app_nil_r. destruct (archive rs) as [|b l]; reflexivity. }
  split; [exact E|]. rewrite E. exact (C33_contents rs fl fuel W L Hf).
Qed.
Print Assumptions C69_archive_round_trip.

(** A concrete archive: one stored file of three bytes, its central entry, the end record.
    The padding in the structures is not zero. *)
Definition ex_local : list Z := layout [w4 0x04034b50; w2 10; w2 0; w2 0; w2 0x6000; w2 0x5221; w2 0xbeef; w4 0x12345678; w4 3; w4 3; w2 1; w2 2].
Definition ex_central : list Z :=
  layout [w4 0x02014b50; w2 20; w2 10; w2 0; w2 0; w2 0x6000; w2 0x5221; w4 0x12345678; w4 3; w4 3; w2 1; w2 0; w2 0; w2 0; w2 0; w2 0xdead; w4 32; w4 0].
Definition ex_end : list Z := layout [w4 0x06054b50; w2 0; w2 0; w2 1; w2 1; w4 47; w4 36; w2 0; w2 0x7777].
Definition ex_items : list item :=
  [Item LocalFile ex_local ([97] ++ [9; 9] ++ [1; 2; 3]); Item CentralFile ex_central ([97] ++ [] ++ []); Item CentralEnd ex_end []].
Definition ex_records : list record :=
  [Stored 10 0 (le_bytes 2 0x6000 ++ le_bytes 2 0x5221 ++ le_bytes 4 0x12345678) 3 [97] [9; 9] [1; 2; 3];
   Zip_Spec.CentralFile (layout [w2 20; w2 10; w2 0; w2 0; w2 0x6000; w2 0x5221; w4 0x12345678; w4 3; w4 3]) (layout [w2 0; w2 0; w4 32; w4 0]) [97] [] [];
   Zip_Spec.CentralEnd (layout [w2 0; w2 0; w2 1; w2 1; w4 47; w4 36]) []].
Ltac held := split; [reflexivity|split; [|reflexivity]]; apply Forall_forall; intros x Hx; vm_compute in Hx;
  repeat (destruct Hx as [<-|Hx]; [unfold is_byte; lia|]); contradiction.
Example C69_example_holds :
  holds ZIPLocalFile ex_local [0x04034b50; 10; 0; 0; 0x6000; 0x5221; 0xbeef; 0x12345678; 3; 3; 1; 2] /\
  holds ZIP64CentralDir (layout [w4 0x06064b50; w4 0xaaaa; w8 44; w2 45; w2 45; w4 1; w4 2; w4 0xbbbb; w8 3; w8 4; w8 5; w8 6])
    [0x06064b50; 44; 45; 45; 1; 2; 3; 4; 5; 6] /\
  holds ZIPSignature (layout [w4 0x05054b50; w2 7; w2 9]) [0x05054b50; 7] /\
  holds ZIP64CentralDirLocator (layout [w4 0x07064b50; w4 1; w8 2; w4 3; w4 9]) [0x07064b50; 1; 2; 3].
Proof. split; [held|split; [held|split; held]]. Qed.
Example C69_example_describes : Forall2 describes ex_items ex_records /\ Forall wf ex_records.
Proof.
  split.
  - constructor; [|constructor; [|constructor; [|constructor]]].
    + apply (d_stored ex_local 10 0 0x6000 0x5221 0xbeef 0x12345678 3 [97] [9; 9] [1; 2; 3]). held.
    + apply (d_central ex_central 20 10 0 0 0x6000 0x5221 0x12345678 3 3 [97] [] [] 0 0 32 0). held.
    + apply (d_end ex_end 0 0 1 1 47 36 []). held.
  - repeat (constructor; [vm_compute; intuition (reflexivity || discriminate || lia)|]). constructor.
Qed.
Example C69_example_run : match write_items ex_items (mkNav (mkStream [] 0 false false false) 0 0 false) with
  | Some w' => data (st w') = archive ex_records /\ length (data (st w')) = 105%nat
  | None => False end.
Proof. vm_compute. auto. Qed.
Example C69_example_read : exists m' r',
  read_pieces (pieces LocalFile) (repeat 7 32) (mkNav (mkStream (archive ex_records) 0 false false true) 0 0 false) = Some (m', r') /\
  map (fun k => member_of LocalFile k m') (seq 0 12) = [0x04034b50; 10; 0; 0; 0x6000; 0x5221; 0x0707; 0x12345678; 3; 3; 1; 2] /\
  pos (st r') = 30%nat.
Proof. eexists _, _. split; [vm_compute; reflexivity|]. vm_compute. auto. Qed.
