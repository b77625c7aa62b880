(** What C69 means by a structure in memory and by a header in a ZIP file (PKWARE APPNOTE 4.3). *)
From Verif Require Import Base Stream_Model ZipWrite_Model.

(** The structure at [m] has these member values.  What lies between members may be anything. *)
Definition holds (sizes : list nat) (m : list Z) (vs : list Z) : Prop :=
  length m = sizeof sizes /\ bytes_ok m /\
  map (fun k => le_value (firstn (nth k sizes 0%nat) (skipn (nth k (offsets 0 sizes) 0%nat) m))) (seq 0 (length sizes)) = vs.

(** Little-endian fields one after another: (size, value) *)
Definition layout (l : list (nat * Z)) : list Z := flat_map (fun p => le_bytes (fst p) (snd p)) l.
Definition w2 (v : Z) : nat * Z := (2%nat, v).
Definition w4 (v : Z) : nat * Z := (4%nat, v).
Definition w8 (v : Z) : nat * Z := (8%nat, v).

(** The six headers by name: members in memory, pieces read and written, size in the file, and
    the member that is in no file. *)
Inductive header := LocalFile | CentralFile | Signature | CentralEnd | CentralEnd64 | Locator.
Definition members (h : header) : list nat :=
  match h with
  | LocalFile => ZIPLocalFile | CentralFile => ZIPFile | Signature => ZIPSignature
  | CentralEnd => ZIPCentralDir | CentralEnd64 => ZIP64CentralDir | Locator => ZIP64CentralDirLocator
  end.
Definition pieces (h : header) : list piece :=
  match h with
  | LocalFile => pieces_LocalFile | CentralFile => pieces_File | Signature => pieces_Signature
  | CentralEnd => pieces_CentralDir | CentralEnd64 => pieces_CentralDir64 | Locator => pieces_Locator
  end.
Definition file_size (h : header) : nat :=
  match h with LocalFile => 30 | CentralFile => 46 | Signature => 6 | CentralEnd => 22 | CentralEnd64 => 56 | Locator => 20 end.
Definition not_stored (h : header) (k : nat) : Prop := h = LocalFile /\ k = 6%nat.
Definition member_of (h : header) (k : nat) (m : list Z) : Z :=
  le_value (firstn (nth k (members h) 0%nat) (skipn (nth k (offsets 0 (members h)) 0%nat) m)).
(** Where a member is in the file: after the stored members before it, with no gaps. *)
Definition file_offset (h : header) (k : nat) : nat :=
  fold_right Nat.add 0%nat (map (fun j => match h, j with LocalFile, 6%nat => 0%nat | _, _ => nth j (members h) 0%nat end) (seq 0 k)).
(** A byte of the structure that belongs to no stored member *)
Definition outside (h : header) (i : nat) : Prop :=
  forall k, (k < length (members h))%nat -> ~ not_stored h k ->
    (i < nth k (offsets 0 (members h)) 0 \/ nth k (offsets 0 (members h)) 0 + nth k (members h) 0 <= i)%nat.

(** A program that writes an archive: a header structure, then the bytes that follow it
    (name, extra field, content or comment). *)
Inductive item := Item (h : header) (m : list Z) (tail : list Z).
Fixpoint write_items (l : list item) (w : nav) : option nav :=
  match l with
  | [] => Some w
  | Item h m tail :: r => match write_pieces (pieces h) m w with
                          | None => None
                          | Some w' => write_items r (WriteBuffer tail w')
                          end
  end.
