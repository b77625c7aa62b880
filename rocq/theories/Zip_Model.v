(** Model of datas/zip_vfs.hpp with formats/ZIP.hpp and formats/ZIP_istream.inl, on top of the
    stream model.  Headers are the bytes read; reading a header or a block id that is cut off
    leaves variables uninitialised and is reported as [Undefined]. *)
From Verif Require Import Base Supercore_Model Stream_Model.

Definition field (off n : nat) (b : list Z) : Z := le_value (firstn n (skipn off b)).

(** The signatures CompileFourCC("PK\xx\yy"), ZIP.hpp:88-187. *)
Definition ID_Local := 0x04034b50.
Definition ID_File := 0x02014b50.
Definition ID_CentralDir := 0x06054b50.
Definition ID_CentralDir64 := 0x06064b50.
Definition ID_Locator64 := 0x07064b50.
Definition ID_Signature := 0x05054b50.
Definition ID_ExtraData := 0x08064b50.

(** The map: std::map::emplace keeps the first value of a key. *)
Definition vmap := list (list Z * (Z * Z)).
Fixpoint find_key (k : list Z) (m : vmap) : option (Z * Z) :=
  match m with
  | [] => None
  | (k', v) :: r => if list_eq_dec Z.eq_dec k k' then Some v else find_key k r
  end.
Definition emplace (k : list Z) (v : Z * Z) (m : vmap) : vmap :=
  match find_key k m with Some _ => m | None => m ++ [(k, v)] end.

Inductive outcome (A : Type) := Ok (a : A) | Throws (message : nat) | Undefined | OutOfFuel.
Arguments Ok {A}. Arguments Throws {A}. Arguments Undefined {A}. Arguments OutOfFuel {A}.

(** rd.Read(hdr) for a header of [n] bytes (ZIP_istream.inl:21-53; a header read in several
    consecutive pieces is read in one). *)
Definition read_header (n : nat) (r : nav) : outcome (list Z * nav) :=
  let (b, r1) := ReadBuffer n (repeat 0 n) r in
  if fail (st r1) then Undefined else Ok (b, r1).

(** rd.Skip(x) with an unsigned or int argument converted to int. *)
Definition skip_int (x : Z) (r : nav) : nav := ReaderSkip (sgn 32 x) r.

(** ReadEntry, zip_vfs.hpp:66-143.  Throw codes: 1 encrypted, 2 compressed, 3 no path,
    4 invalid block. *)
Definition ReadEntry (m : vmap) (r : nav) : outcome (vmap * nav) :=
  let (_, r1) := Push r in
  match read_header 4 r1 with
  | Ok (idb, r2) =>
    let r3 := Pop r2 in
    let id := le_value idb in
    if id =? ID_Local then
      match read_header 30 r3 with
      | Ok (h, r4) =>
        let flags := field 6 2 h in
        let compression := field 8 2 h in
        let compressedSize := field 18 4 h in
        let uncompressedSize := field 22 4 h in
        let fileNameSize := field 26 2 h in
        let extraFieldSize := field 28 2 h in
        if compressedSize =? 0 then
          Ok (m, skip_int (u32 (fileNameSize + extraFieldSize + uncompressedSize)) r4)
        else if Z.odd flags then Throws 1
        else if negb (compression =? 0) then Throws 2
        else if fileNameSize =? 0 then Throws 3
        else
          let (path, r5) := ReadBuffer (Z.to_nat fileNameSize) (repeat 0 (Z.to_nat fileNameSize)) r4 in
          let r6 := skip_int extraFieldSize r5 in
          let (p, r7) := Tell r6 in
          Ok (emplace path (p, compressedSize) m, skip_int compressedSize r7)
      | Throws t => Throws t | Undefined => Undefined | OutOfFuel => OutOfFuel
      end
    else
      (* the other blocks: a header and a number of bytes to skip *)
      let block n extra :=
        match read_header n r3 with
        | Ok (h, r4) => Ok (m, skip_int (extra h) r4)
        | Throws t => Throws t | Undefined => Undefined | OutOfFuel => OutOfFuel
        end in
      if id =? ID_File then block 46%nat (fun h => field 28 2 h + field 30 2 h + field 32 2 h)
      else if id =? ID_CentralDir then block 22%nat (fun h => field 20 2 h)
      else if id =? ID_CentralDir64 then
        match read_header 56 r3 with
        | Ok (_, r4) => Ok (m, r4)
        | Throws t => Throws t | Undefined => Undefined | OutOfFuel => OutOfFuel
        end
      else if id =? ID_Locator64 then
        match read_header 20 r3 with
        | Ok (_, r4) => Ok (m, r4)
        | Throws t => Throws t | Undefined => Undefined | OutOfFuel => OutOfFuel
        end
      else if id =? ID_Signature then block 6%nat (fun h => field 4 2 h)
      else if id =? ID_ExtraData then block 8%nat (fun h => field 4 4 h)
      else Throws 4
  | Throws t => Throws t | Undefined => Undefined | OutOfFuel => OutOfFuel
  end.

(** Read, zip_vfs.hpp:145-150; fuel bounds the number of blocks. *)
Fixpoint read_loop (fuel : nat) (fileSize : Z) (m : vmap) (r : nav) : outcome (vmap * nav) :=
  match fuel with
  | O => OutOfFuel
  | S f =>
    let (p, r1) := Tell r in
    if p <? fileSize then
      match ReadEntry m r1 with
      | Ok (m', r') => read_loop f fileSize m' r'
      | Throws t => Throws t | Undefined => Undefined | OutOfFuel => OutOfFuel
      end
    else Ok (m, r1)
  end.

(** The constructor, zip_vfs.hpp:38. *)
Definition ZIPVFS (fuel : nat) (r : nav) : outcome (vmap * nav) :=
  let (fileSize, r1) := GetSize r in read_loop fuel fileSize [] r1.

(** Get(fileName), zip_vfs.hpp:46-59: std::map::at throws (5) for an unknown name; otherwise
    seek and read a string of the stored size. *)
Definition Get (name : list Z) (vfs : vmap * nav) : outcome (list Z * nav) :=
  let (m, r) := vfs in
  match find_key name m with
  | None => Throws 5
  | Some (p, n) =>
    let n := Z.to_nat n in
    let r1 := Seek p Beg r in
    match n with
    | O => Ok ([], r1)
    | S _ => let (b, r2) := ReadBuffer n (repeat 0 n) r1 in Ok (b, r2)
    end
  end.
