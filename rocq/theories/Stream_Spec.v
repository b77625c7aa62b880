(** Specification vocabulary for C26-C30. *)
From Verif Require Import Base Stream_Model.

(** Sizes of the scalar types the library reads and writes. *)
Definition scalar_size (sz : nat) : Prop := sz = 1%nat \/ sz = 2%nat \/ sz = 4%nat \/ sz = 8%nat.
Definition fits (sz : nat) (v : Z) : Prop := 0 <= v < 256 ^ Z.of_nat sz.

(** The bytes of a value in a given byte order ([true] = big endian on this host). *)
Definition encoding (swap : bool) (sz : nat) (v : Z) : list Z :=
  if swap then rev (le_bytes sz v) else le_bytes sz v.

(** A stream that has not failed. *)
Definition usable (r : nav) : Prop := eof (st r) = false /\ fail (st r) = false.

(** [s'] is [s] after putting [bs] at the position, and nothing else. *)
Definition puts (bs : list Z) (s s' : stream) : Prop :=
  eof s' = false /\ fail s' = false /\ file_like s' = file_like s /\
  pos s' = (pos s + length bs)%nat /\
  (bs <> [] -> length (data s') = Nat.max (length (data s)) (pos s + length bs)) /\
  (bs = [] -> data s' = data s) /\
  (forall i, (i < length bs)%nat -> nth_error (data s') (pos s + i) = nth_error bs i) /\
  (forall i, (i < length (data s))%nat -> (i < pos s \/ pos s + length bs <= i)%nat ->
             nth_error (data s') i = nth_error (data s) i) /\
  (bs <> [] -> forall i, (length (data s) <= i < pos s)%nat -> nth_error (data s') i = Some 0).

(** [r'] is [r] with the position moved to [p] and nothing else changed. *)
Definition moved (r : nav) (p : nat) : nav :=
  mkNav (mkStream (data (st r)) p false false (file_like (st r)))
        (savePos r) (localPos r) (swapEndian r).

(** The bytes a reader still has ahead of it. *)
Definition at_bytes (r : nav) (bs : list Z) : Prop := usable r /\ skipn (pos (st r)) (data (st r)) = bs.

(** [r] reads what [w] wrote, from the place [w0] started writing. *)
Definition reads_back (w0 w : nav) (r : nav) : Prop :=
  usable r /\ data (st r) = data (st w) /\ pos (st r) = pos (st w0).

(** A position a stream of this kind can be at. *)
Definition placed (r : nav) : Prop :=
  Z.of_nat (pos (st r)) < 2 ^ 63 /\ (file_like (st r) = true \/ (pos (st r) <= length (data (st r)))%nat).

(** A record: fields with their byte order, size and value, written and read in turn. *)
Definition field := (bool * nat * Z)%type.
Definition field_ok (f : field) : Prop := let '(_, sz, v) := f in scalar_size sz /\ fits sz v.
Fixpoint write_fields (fs : list field) (w : nav) : option nav :=
  match fs with
  | [] => Some w
  | (b, sz, v) :: t => match Write sz v (SwapEndian b w) with
                       | None => None
                       | Some w' => write_fields t w'
                       end
  end.
Fixpoint read_fields (fs : list field) (garbage : Z) (r : nav) : option (list Z * nav) :=
  match fs with
  | [] => Some ([], r)
  | (b, sz, _) :: t => match Read sz garbage (SwapEndian b r) with
                       | None => None
                       | Some (v, r1) => match read_fields t garbage r1 with
                                         | None => None
                                         | Some (vs, r2) => Some (v :: vs, r2)
                                         end
                       end
  end.

(** Navigation histories of a reader and of a writer, without Push. *)
Inductive nav_op :=
| OSeek (p : Z) (d : seekdir) | OSkip (len : Z) | OOrigin (o : Z) (useSeek : bool)
| OPad (a : Z) | OSize | OPop | OSwap (b : bool) | OTell
| OBuffer (bs : list Z).       (* read length bs bytes / write bs *)

Definition step (writer : bool) (o : nav_op) (r : nav) : nav :=
  let skip := if writer then WriterSkip else ReaderSkip in
  match o with
  | OSeek p d => Seek p d r
  | OSkip n => skip n r
  | OOrigin o b => SetRelativeOrigin o b r
  | OPad a => ApplyPadding skip a r
  | OSize => snd (GetSize r)
  | OPop => Pop r
  | OSwap b => SwapEndian b r
  | OTell => snd (Tell r)
  | OBuffer bs => if writer then WriteBuffer bs r else snd (ReadBuffer (length bs) bs r)
  end.
Definition run (writer : bool) (ops : list nav_op) (r : nav) : nav :=
  fold_left (fun r o => step writer o r) ops r.
