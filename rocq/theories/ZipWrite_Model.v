(** Model of formats/ZIP_ostream.inl and formats/ZIP_istream.inl: headers in memory, as the structures of
    formats/ZIP.hpp, written to a stream and read from it, on top of the stream model. *)
From Verif Require Import Base Supercore_Model Stream_Model.

(** A structure in memory: the sizes of its members, each aligned to its own size (x86-64 and
    every other usual ABI for integers of 2, 4 and 8 bytes). *)
Fixpoint offsets (at_ : nat) (sizes : list nat) : list nat :=
  match sizes with
  | [] => []
  | s :: r => let o := ((at_ + s - 1) / s * s)%nat in o :: offsets (o + s)%nat r
  end.
Definition offsetof (sizes : list nat) (k : nat) : nat := nth k (offsets 0 sizes) 0%nat.
Definition member_size (sizes : list nat) (k : nat) : nat := nth k sizes 0%nat.
Definition sizeof (sizes : list nat) : nat :=
  let al := fold_right Nat.max 1%nat sizes in
  let e := match sizes with [] => 0%nat | _ => (offsetof sizes (length sizes - 1) + member_size sizes (length sizes - 1))%nat end in
  ((e + al - 1) / al * al)%nat.
(** getBlockSize, datas/internal/bincore.hpp:23-25 *)
Definition getBlockSize (sizes : list nat) (first last : nat) : nat :=
  (offsetof sizes last - offsetof sizes first + member_size sizes last)%nat.

(** The structures, ZIP.hpp:88-187: members in order *)
(* id extractVersion flags compression lastModFileTime lastModFileDate _pad crc compressedSize
   uncompressedSize fileNameSize extraFieldSize *)
Definition ZIPLocalFile : list nat := [4; 2; 2; 2; 2; 2; 2; 4; 4; 4; 2; 2]%nat.
(* id madeBy extractVersion flags compression lastModFileTime lastModFileDate crc compressedSize uncompressedSize
   fileNameSize extraFieldSize fileCommentSize diskNumberStart internalFileAttrs externalFileAttrs localHeaderOffset *)
Definition ZIPFile : list nat := [4; 2; 2; 2; 2; 2; 2; 4; 4; 4; 2; 2; 2; 2; 2; 4; 4]%nat.
(* id dataSize *)
Definition ZIPSignature : list nat := [4; 2]%nat.
(* id diskNumber startDiskNumber numDiskEntries numDirEntries dirSize dirOffset commentSize *)
Definition ZIPCentralDir : list nat := [4; 2; 2; 2; 2; 4; 4; 2]%nat.
(* id dirRecord madeBy extractVersion diskNumber startDiskNumber numDiskEntries numDirEntries dirSize dirOffset *)
Definition ZIP64CentralDir : list nat := [4; 8; 2; 2; 4; 4; 8; 8; 8; 8]%nat.
(* id diskNumber centralDirOffset numDisks *)
Definition ZIP64CentralDirLocator : list nat := [4; 4; 8; 4]%nat.

(** One call: WriteBuffer/ReadBuffer of [n] bytes of the structure from [off], or Write/Read of a member *)
Inductive piece := Buffer (off n : nat) | Member (off n : nat).
Definition part (off n : nat) (m : list Z) : list Z := firstn n (skipn off m).
Definition put (off : nat) (bs m : list Z) : list Z := firstn off m ++ bs ++ skipn (off + length bs) m.

Definition block (sizes : list nat) (first last : nat) : piece := Buffer (offsetof sizes first) (getBlockSize sizes first last).
Definition member (sizes : list nat) (k : nat) : piece := Member (offsetof sizes k) (member_size sizes k).

(** ZIP_ostream.inl:21-53, and with the same pieces ZIP_istream.inl:21-53 *)
Definition pieces_LocalFile : list piece := [block ZIPLocalFile 0 5; block ZIPLocalFile 7 11].
Definition pieces_File : list piece := [block ZIPFile 0 14; Buffer (offsetof ZIPFile 15) 8].
Definition pieces_Signature : list piece := [Buffer 0 6].
Definition pieces_CentralDir : list piece := [Buffer 0 22].
Definition pieces_CentralDir64 : list piece :=
  [member ZIP64CentralDir 0; block ZIP64CentralDir 1 4; member ZIP64CentralDir 5; block ZIP64CentralDir 6 9].
Definition pieces_Locator : list piece := [Buffer 0 20].

Fixpoint write_pieces (ps : list piece) (m : list Z) (w : nav) : option nav :=
  match ps with
  | [] => Some w
  | Buffer o n :: r => write_pieces r m (WriteBuffer (part o n m) w)
  | Member o n :: r => match Write n (le_value (part o n m)) w with
                       | None => None
                       | Some w' => write_pieces r m w'
                       end
  end.
Fixpoint read_pieces (ps : list piece) (m : list Z) (rd : nav) : option (list Z * nav) :=
  match ps with
  | [] => Some (m, rd)
  | Buffer o n :: r => let (b, rd') := ReadBuffer n (part o n m) rd in read_pieces r (put o b m) rd'
  | Member o n :: r => match Read n (le_value (part o n m)) rd with
                       | None => None
                       | Some (v, rd') => read_pieces r (put o (le_bytes n v) m) rd'
                       end
  end.
