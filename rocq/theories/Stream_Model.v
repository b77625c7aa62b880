(** Model of the binary reader/writer: datas/internal/bincore_navi.hpp,
    datas/internal/bincore_endian.hpp, datas/binreader_ref.hpp,
    datas/binwritter_ref.hpp, datas/binreader_stream.hpp, datas/binwritter_stream.hpp.

    The C++ standard library stream is modelled as its contents, one position and the
    state bits.  [file_like = true] is a file (seeking past the end is allowed, a write
    there fills the gap with zeros), [false] a string stream (seeking past the end fails).
    A reader and a writer are separate objects; the writer never runs out of space. *)
From Verif Require Import Base Endian_Model.

Record stream := mkStream {
  data : list Z;          (* contents, bytes *)
  pos : nat;              (* read or write position *)
  eof : bool;             (* std::ios_base::eofbit *)
  fail : bool;            (* std::ios_base::failbit *)
  file_like : bool
}.

Definition good (s : stream) : bool := negb (eof s) && negb (fail s).

(** std::istream::tellg / std::ostream::tellp as used at datas/binreader_stream.hpp:36 and
    datas/binwritter_stream.hpp:36: -1 on a failed stream, as size_t; the sentry of tellg turns
    a lone eofbit into failbit (a writer never has eofbit). *)
Definition raw_tell (s : stream) : Z * stream :=
  if fail s then (2 ^ 64 - 1, s)
  else if eof s then (2 ^ 64 - 1, mkStream (data s) (pos s) (eof s) true (file_like s))
  else (Z.of_nat (pos s), s).

Inductive seekdir := Beg | Cur | End_.

(** std::istream::seekg / std::ostream::seekp(off, dir) as used at
    datas/binreader_stream.hpp:38-41, datas/binwritter_stream.hpp:38-41: seekg clears eofbit first,
    nothing else happens on a failed stream, and an impossible target sets failbit.  The
    size_t argument becomes a signed 64-bit offset. *)
Definition raw_seek (position : Z) (dir : seekdir) (s : stream) : stream :=
  if fail s then mkStream (data s) (pos s) false true (file_like s)
  else
    let base := match dir with
                | Beg => 0
                | Cur => Z.of_nat (pos s)
                | End_ => Z.of_nat (length (data s))
                end in
    let target := base + sgn 64 position in
    if (target <? 0) || (2 ^ 63 <=? target) ||
       (negb (file_like s) && (Z.of_nat (length (data s)) <? target))
    then mkStream (data s) (pos s) false true (file_like s)
    else mkStream (data s) (Z.to_nat target) false false (file_like s).

(** std::istream::read (datas/binreader_stream.hpp:50): [n] bytes into a buffer that holds [old].
    On a stream that is not good only failbit is set; a short read keeps what it got. *)
Definition raw_read (n : nat) (old : list Z) (s : stream) : list Z * stream :=
  if good s then
    let got := firstn n (skipn (pos s) (data s)) in
    let short := (length got <? n)%nat in
    (got ++ skipn (length got) old,
     mkStream (data s) (pos s + length got)%nat short short (file_like s))
  else (old, mkStream (data s) (pos s) (eof s) true (file_like s)).

(** Effect of writing [bs] at position [p]. *)
Definition overwrite (l : list Z) (p : nat) (bs : list Z) : list Z :=
  match bs with
  | [] => l
  | _ => firstn p l ++ repeat 0 (p - length l) ++ bs ++ skipn (p + length bs) l
  end.

(** std::ostream::write (datas/binwritter_stream.hpp:57-59): nothing on a stream that is not good. *)
Definition raw_write (bs : list Z) (s : stream) : stream :=
  if good s then
    mkStream (overwrite (data s) (pos s) bs) (pos s + length bs)%nat false false (file_like s)
  else mkStream (data s) (pos s) (eof s) true (file_like s).

(** BinStreamNavi + BinSteamEndian state (bincore_navi.hpp:22-23, bincore_endian.hpp:22). *)
Record nav := mkNav { st : stream; savePos : Z; localPos : Z; swapEndian : bool }.

(** Constructors, bincore_navi.hpp:26-28, bincore_endian.hpp:24. *)
Definition open_ (s : stream) : nav := mkNav s 0 0 false.

Definition with_st (r : nav) (s : stream) : nav :=
  mkNav s (savePos r) (localPos r) (swapEndian r).

(** SwapEndian, bincore_endian.hpp:27. *)
Definition SwapEndian (b : bool) (r : nav) : nav :=
  mkNav (st r) (savePos r) (localPos r) b.

(** Push / Pop, bincore_navi.hpp:32-33: the absolute position, one slot. *)
Definition Push (r : nav) : Z * nav :=
  let (p, s) := raw_tell (st r) in (p, mkNav s p (localPos r) (swapEndian r)).
Definition Pop (r : nav) : nav := with_st r (raw_seek (savePos r) Beg (st r)).

(** Tell, bincore_navi.hpp:35. *)
Definition Tell (r : nav) : Z * nav :=
  let (p, s) := raw_tell (st r) in (u64 (p - localPos r), with_st r s).

(** Seek, bincore_navi.hpp:37-40. *)
Definition Seek (position : Z) (dir : seekdir) (r : nav) : nav :=
  let p := match dir with Beg => u64 (position + localPos r) | _ => position end in
  with_st r (raw_seek p dir (st r)).

(** SetRelativeOrigin, bincore_navi.hpp:44-49; ResetRelativeOrigin (:51-53) is origin 0. *)
Definition SetRelativeOrigin (newOrigin : Z) (useSeek : bool) (r : nav) : nav :=
  let r' := mkNav (st r) (savePos r) newOrigin (swapEndian r) in
  if useSeek then Seek 0 Beg r' else r'.

(** GetSize, bincore_navi.hpp:66-72. *)
Definition GetSize (r : nav) : Z * nav :=
  let (savepos, r1) := Tell r in
  let r2 := Seek 0 End_ r1 in
  let (curSize, r3) := Tell r2 in
  (curSize, Seek savepos Beg r3).

(** Reader Skip, datas/binreader_stream.hpp:43-48 (absolute positions); [length] is an int. *)
Definition ReaderSkip (len : Z) (r : nav) : nav :=
  if len <? 0 then
    let (p, s) := raw_tell (st r) in with_st r (raw_seek (u64 (p + len)) Beg s)
  else with_st r (raw_seek len Cur (st r)).

(** Writer Skip, datas/binwritter_stream.hpp:43-55: zeros in chunks of 32. *)
Definition WriterSkip (len : Z) (r : nav) : nav :=
  if 0 <? len then
    let numLoops := Z.to_nat (len / 32) in
    let s := Nat.iter numLoops (raw_write (repeat 0 32)) (st r) in
    with_st r (raw_write (repeat 0 (Z.to_nat (len mod 32))) s)
  else
    let (p, s) := raw_tell (st r) in with_st r (raw_seek (u64 (p + len)) Beg s).

(** ApplyPadding, bincore_navi.hpp:55-64: [iterPos & mask] with the int mask converted to
    size_t, narrowed to int. *)
Definition ApplyPadding (skip : Z -> nav -> nav) (allignBytes : Z) (r : nav) : nav :=
  let mask := allignBytes - 1 in
  let (iterPos, r1) := Tell r in
  let result := sgn 32 (Z.land iterPos (u64 mask)) in
  if result =? 0 then r1 else skip (allignBytes - result) r1.

(** ReadBuffer / WriteBuffer, datas/binreader_ref.hpp:33-35, datas/binwritter_ref.hpp:32-34. *)
Definition ReadBuffer (n : nat) (old : list Z) (r : nav) : list Z * nav :=
  let (b, s) := raw_read n old (st r) in (b, with_st r s).
Definition WriteBuffer (bs : list Z) (w : nav) : nav := with_st w (raw_write bs (st w)).

(** FByteswapper when the stream swaps and the element is longer than a byte. *)
Definition maybe_swap (r : nav) (sz : nat) (v : Z) : option Z :=
  if swapEndian r && (1 <? sz)%nat then FByteswapper (Z.of_nat sz) v else Some v.

(** Read of one [sz]-byte integer held as its bit pattern, datas/binreader_ref.hpp:125-132; [old]
    is what the variable held.  The value is swapped whether or not the read succeeded.
    [None]: FByteswapper throws. *)
Definition Read (sz : nat) (old : Z) (r : nav) : option (Z * nav) :=
  let (b, r1) := ReadBuffer sz (le_bytes sz old) r in
  match maybe_swap r sz (le_value b) with
  | None => None
  | Some v => Some (v, r1)
  end.

(** Write of one integer, datas/binwritter_ref.hpp:107-116. *)
Definition Write (sz : nat) (v : Z) (w : nav) : option nav :=
  match maybe_swap w sz v with
  | None => None
  | Some v' => Some (WriteBuffer (le_bytes sz v') w)
  end.

(** The elements of an array of [sz]-byte integers from its bytes and back. *)
Fixpoint elements (sz : nat) (n : nat) (bs : list Z) : list Z :=
  match n with
  | O => []
  | S n' => le_value (firstn sz bs) :: elements sz n' (skipn sz bs)
  end.
Definition array_bytes (sz : nat) (l : list Z) : list Z := flat_map (le_bytes sz) l.

Fixpoint swap_all (r : nav) (sz : nat) (l : list Z) : option (list Z) :=
  match l with
  | [] => Some []
  | v :: t => match maybe_swap r sz v, swap_all r sz t with
              | Some v', Some t' => Some (v' :: t')
              | _, _ => None
              end
  end.

(** ReadContainer(input, numitems), datas/binreader_ref.hpp:39-48 with _ReadElements (:141-151);
    resize keeps a prefix and value-initialises the rest. *)
Definition ReadContainerN (sz : nat) (n : nat) (old : list Z) (r : nav) : option (list Z * nav) :=
  let resized := firstn n old ++ repeat 0 (n - length old) in
  match n with
  | O => Some ([], r)
  | S _ =>
    let (b, r1) := ReadBuffer (sz * n) (array_bytes sz resized) r in
    match swap_all r sz (elements sz n b) with
    | None => None
    | Some l => Some (l, r1)
    end
  end.

(** ReadContainer(input) with a count of [csz] bytes, datas/binreader_ref.hpp:55-60; [garbage] is the
    uninitialised count variable.  An unsigned count type. *)
Definition ReadContainer (csz sz : nat) (garbage : Z) (old : list Z) (r : nav) : option (list Z * nav) :=
  match Read csz garbage r with
  | None => None
  | Some (n, r1) => ReadContainerN sz (Z.to_nat n) old r1
  end.

(** WriteContainer, datas/binwritter_ref.hpp:38-42 with _WriteElements (:127-137). *)
Fixpoint write_each (sz : nat) (l : list Z) (w : nav) : option nav :=
  match l with
  | [] => Some w
  | v :: t => match Write sz v w with None => None | Some w' => write_each sz t w' end
  end.
Definition WriteContainer (sz : nat) (l : list Z) (w : nav) : option nav :=
  if swapEndian w && (1 <? sz)%nat then write_each sz l w
  else Some (WriteBuffer (array_bytes sz l) w).

(** WriteContainerWCount, datas/binwritter_ref.hpp:49-54: the count is cast to [csz] bytes. *)
Definition WriteContainerWCount (csz sz : nat) (l : list Z) (w : nav) : option nav :=
  match Write csz (wrap (8 * Z.of_nat csz) (Z.of_nat (length l))) w with
  | None => None
  | Some w1 => WriteContainer sz l w1
  end.

(** WriteContainerLambda, datas/binwritter_ref.hpp:63-71; [func] is the caller's. *)
Fixpoint lambda_write {A} (func : A -> nav -> option nav) (l : list A) (w : nav) : option nav :=
  match l with
  | [] => Some w
  | v :: t => match func v w with None => None | Some w' => lambda_write func t w' end
  end.
Definition WriteContainerLambda {A} (csz : nat) (func : A -> nav -> option nav) (l : list A) (w : nav)
  : option nav :=
  match Write csz (wrap (8 * Z.of_nat csz) (Z.of_nat (length l))) w with
  | None => None
  | Some w1 => lambda_write func l w1
  end.

(** ReadContainerLambda, datas/binreader_ref.hpp:66-77 and 86-91; elements are read into
    default-constructed values unless the container already held them ([old], [dflt]). *)
Fixpoint lambda_read {A} (func : A -> nav -> option (A * nav)) (l : list A) (r : nav)
  : option (list A * nav) :=
  match l with
  | [] => Some ([], r)
  | v :: t => match func v r with
              | None => None
              | Some (v', r') => match lambda_read func t r' with
                                 | None => None
                                 | Some (t', r'') => Some (v' :: t', r'')
                                 end
              end
  end.
Definition ReadContainerLambda {A} (csz : nat) (func : A -> nav -> option (A * nav)) (garbage : Z)
    (old : list A) (dflt : A) (r : nav) : option (list A * nav) :=
  match Read csz garbage r with
  | None => None
  | Some (n, r1) =>
    let n := Z.to_nat n in
    lambda_read func (firstn n old ++ repeat dflt (n - length old)) r1
  end.

(** ReadString, datas/binreader_ref.hpp:94-100: [tmp] starts uninitialised; characters of [sz]
    bytes are appended to [input].  Fuel bounds the loop; [OutOfFuel] means it has not
    stopped yet. *)
Inductive string_result := Done (text : list Z) (r : nav) | Throws | OutOfFuel.
Fixpoint ReadString (fuel : nat) (sz : nat) (tmp : Z) (input : list Z) (r : nav) : string_result :=
  match fuel with
  | O => OutOfFuel
  | S f =>
    match Read sz tmp r with
    | None => Throws
    | Some (tmp', r1) =>
      if negb (tmp' =? 0) && negb (eof (st r1))
      then ReadString f sz tmp' (input ++ [tmp']) r1
      else Done input r1
    end
  end.

(** WriteT(string_view), datas/binwritter_ref.hpp:74-78. *)
Definition WriteT (s : list Z) (w : nav) : option nav := Write 1 0 (WriteBuffer s w).

(** WriteT(wstring_view), datas/binwritter_ref.hpp:81-91, [sz] = sizeof(wchar_t). *)
Definition WriteTW (sz : nat) (s : list Z) (w : nav) : option nav :=
  match (if swapEndian w then WriteContainer sz s w
         else Some (WriteBuffer (array_bytes sz s) w)) with
  | None => None
  | Some w1 => Write sz 0 w1
  end.
