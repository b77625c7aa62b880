(** Model of ReflectorIO::Save and ReflectorIO::Load, datas/reflector_io.cpp:21-411 (64-bit build).
    Bytes are numbers 0..255.  [None] stands for an access outside the buffer, the vector or the file,
    or for a request the model does not follow (a backward skip). *)
From Coq Require Import String Ascii.
From Verif Require Import Base Dds_Model.
Local Open Scope Z_scope.

Notation "x <- e ;; f" := (match e with Some x => f | None => None end) (at level 61, e at next level, right associativity).

(** What reflectorStatic points to, datas/internal/reflector_class_reg.hpp:45-54.  [types] are the 16
    bytes of each reflType (reflector_fwd / reflector_class.hpp); nTypes is their number; a null pointer
    is [None].  A name is the text without its terminator; desc is the pair part1, part2. *)
Definition text := list Z.
Record cls := Cls { chash : Z; types : list (list Z); names : option (list text); cname : option text;
  aliases : option (list (option text)); ahashes : option (list Z); descs : option (list (text * text)) }.
Definition nTypes (c : cls) : Z := Z.of_nat (length (types c)).
(** ReflectedEnum, datas/internal/reflector_enum_reg.hpp:57-68 *)
Record enm := Enm { ehash : Z; enames : list text; evalues : list Z; ename : text }.
Record db := Db { classes : list cls; enums : list enm }.

(* ------------------------------------------------------------------ *)
(** The six Fixups objects of Save, :217-222 *)
Inductive kind := KItems | KStrings | KClassNames | KAliases | KDescs | KHashes.
Definition kind_eqb (a b : kind) : bool :=
  match a, b with
  | KItems, KItems | KStrings, KStrings | KClassNames, KClassNames | KAliases, KAliases | KDescs, KDescs
  | KHashes, KHashes => true
  | _, _ => false
  end.
(** struct Fixups, :21-52: the vector of (ptr, destination) and fixupIter *)
Record Fixups := Fx { fixups : list (Z * Z); fixupIter : nat }.

(** The calls Save makes on the writer and on the Fixups, in order. *)
Inductive op :=
| Wr (bs : list Z)          (* wr.Write, wr.WriteT, wr.WriteContainer *)
| Sk (n : Z)                (* wr.Skip *)
| Pad8                      (* wr.ApplyPadding(8) *)
| AddP (k : kind)           (* AddPointer *)
| FixD (k : kind).          (* FixupDestination *)

(** The writer: the bytes written behind the header (the position is their number, as long as
    nothing is sought back), and the Fixups *)
Record writer := W { out : list Z; fx : kind -> Fixups }.
Definition tell (w : writer) : Z := Z.of_nat (length (out w)).
Definition set_fx (f : kind -> Fixups) (k : kind) (x : Fixups) : kind -> Fixups :=
  fun k' => if kind_eqb k k' then x else f k'.
Fixpoint set_dest (l : list (Z * Z)) (i : nat) (d : Z) : list (Z * Z) :=
  match l, i with
  | [], _ => []
  | (p, _) :: r, O => (p, d) :: r
  | x :: r, S i' => x :: set_dest r i' d
  end.
Definition zeros (n : Z) : list Z := repeat 0 (Z.to_nat n).
Definition put (bs : list Z) (w : writer) : writer := W (out w ++ bs) (fx w).
(** BinStreamOutTraits::Skip (int length), binwritter_stream.hpp:46-58; the backward case is not followed *)
Definition skip (n : Z) (w : writer) : option writer :=
  let len := sgn 32 n in if len <? 0 then None else Some (put (zeros len) w).
Definition step (o : op) (w : writer) : option writer :=
  match o with
  | Wr bs => Some (put bs w)
  | Sk n => skip n w
  | Pad8 => (* internal/bincore_navi.hpp:55-65 *)
    let result := tell w mod 8 in if result =? 0 then Some w else skip (8 - result) w
  | AddP k => (* :33 *)
    let f := fx w k in Some (W (out w) (set_fx (fx w) k (Fx (fixups f ++ [(u32 (tell w), 0)]) (fixupIter f))))
  | FixD k => (* :34-36 *)
    let f := fx w k in
    if (fixupIter f <? length (fixups f))%nat
    then Some (W (out w) (set_fx (fx w) k (Fx (set_dest (fixups f) (fixupIter f) (u32 (tell w))) (S (fixupIter f)))))
    else None
  end.
Fixpoint exec (ops : list op) (w : writer) : option writer :=
  match ops with [] => Some w | o :: r => w' <- step o w ;; exec r w' end.

Definition some {A} (o : option A) : bool := match o with Some _ => true | None => false end.
Definition when {A} (b : bool) (l : list A) : list A := if b then l else [].
Definition u32b (v : Z) : list Z := le_bytes 4 (u32 v).
(** PAD_CHECK, :54-55 *)
Definition PAD_CHECK : list Z := [2018915346; 4023233424; 4274695646; 2917056186; 3199925962; 2917068734].

(** the first loop, :224-254 *)
Definition rec_ops (c : cls) : list op :=
  [Wr (u32b (chash c)); Wr (u32b (nTypes c)); Wr (flat_map (le_bytes 4) PAD_CHECK); AddP KItems; Sk 4] ++
  when (some (names c)) [AddP KStrings] ++ [Sk 4] ++
  when (some (cname c)) [AddP KClassNames] ++ [Sk 4] ++
  when (some (aliases c)) [AddP KAliases] ++ [Sk 4] ++
  when (some (ahashes c)) [AddP KHashes] ++ [Sk 4] ++
  when (some (descs c)) [AddP KDescs] ++ [Sk 4].
(** :256-262 *)
Definition types_ops (c : cls) : list op := FixD KItems :: map Wr (types c).
(** :264-272 *)
Definition hashes_ops (c : cls) : list op :=
  match ahashes c with None => [] | Some l => FixD KHashes :: map (fun h => Wr (u32b h)) l end.
(** :274-285 *)
Definition names_ops (c : cls) : list op :=
  match names c with None => [] | Some l => [Pad8; FixD KStrings; Sk (4 * nTypes c)] ++ flat_map (fun _ => [AddP KStrings; Sk 4]) l end.
(** :287-299 *)
Definition aliases_ops (c : cls) : list op :=
  match aliases c with
  | None => []
  | Some l => [Pad8; FixD KAliases; Sk (4 * nTypes c)] ++ flat_map (fun a => when (some a) [AddP KAliases] ++ [Sk 4]) l
  end.
(** :301-320: one part of a description *)
Definition part_ops (t : text) : list op :=
  when (0 <? length t)%nat [AddP KDescs] ++ [Sk 4; Wr (u32b (Z.of_nat (length t)))].
Definition descs_ops (c : cls) : list op :=
  match descs c with
  | None => []
  | Some l => [FixD KDescs; Sk (8 * nTypes c * 2)] ++ flat_map (fun d => part_ops (fst d) ++ part_ops (snd d)) l
  end.
(** :322-360 *)
Definition part_text (t : text) : list op := when (0 <? length t)%nat [FixD KDescs; Wr t; Sk 1].
Definition strings_ops (c : cls) : list op :=
  match names c with None => [] | Some l => flat_map (fun n => [FixD KStrings; Wr (n ++ [0])]) l end ++
  match aliases c with None => [] | Some l =>
    flat_map (fun a => match a with None => [] | Some t => [FixD KAliases; Wr (t ++ [0])] end) l end ++
  match descs c with None => [] | Some l => flat_map (fun d => part_text (fst d) ++ part_text (snd d)) l end ++
  match cname c with None => [] | Some t => [FixD KClassNames; Wr (t ++ [0])] end.
Definition class_ops (d : db) : list op :=
  flat_map rec_ops (classes d) ++ flat_map types_ops (classes d) ++ flat_map hashes_ops (classes d) ++
  flat_map names_ops (classes d) ++ flat_map aliases_ops (classes d) ++ flat_map descs_ops (classes d) ++
  flat_map strings_ops (classes d) ++ [Pad8].
(** :366-396 *)
Definition total_strings (d : db) : Z := fold_right Z.add 0 (map (fun e => Z.of_nat (length (enames e)) + 1) (enums d)).
Definition enum_ops (d : db) : list op :=
  flat_map (fun e => [Wr (u32b (ehash e)); Wr (u32b (Z.of_nat (length (enames e))))] ++
                     map (fun v => Wr (le_bytes 8 (u64 v))) (evalues e)) (enums d) ++
  [Sk (4 * total_strings d)] ++
  flat_map (fun _ => [AddP KStrings; Sk 4]) (seq 0 (Z.to_nat (total_strings d))) ++
  flat_map (fun e => flat_map (fun n => [FixD KStrings; Wr n; Sk 1]) (enames e) ++
                     [FixD KStrings; Wr (ename e); Sk 1]) (enums d).

(** memory: the byte at each offset *)
Definition mem := Z -> Z.
Definition poke (m : mem) (a : Z) (bs : list Z) : mem :=
  fun x => if (a <=? x) && (x <? a + Z.of_nat (length bs)) then nth (Z.to_nat (x - a)) bs 0 else m x.
Definition peek (m : mem) (a : Z) (n : nat) : list Z := map (fun i => m (a + Z.of_nat i)) (seq 0 n).
Definition to_mem (l : list Z) : mem := fun x => if x <? 0 then 0 else nth (Z.to_nat x) l 0.
(** WriteFixups, :46-51 *)
Definition write_fixups (f : Fixups) (m : mem) : mem :=
  fold_left (fun m e => poke m (fst e) (le_bytes 4 (snd e))) (fixups f) m.
Definition empty_writer : writer := W [] (fun _ => Fx [] 0).
(** ReflectorIOHeader, :75-84; ID is CompileFourCC of RFDB *)
Definition ID : Z := fourcc "RFDB".
Definition VERSION : Z := 1000.
Definition header (numClasses numEnums numEnumStrings enumsOffset bufferSize : Z) : list Z :=
  flat_map u32b [ID; VERSION; numClasses; numEnums; numEnumStrings; enumsOffset; bufferSize; 0].
(** Save, :208-411, into an empty file: the contents of the file afterwards.  The alias-hash Fixups are
    not written out. *)
Definition Save (d : db) : option (list Z) :=
  w1 <- exec (class_ops d) empty_writer ;;
  w2 <- exec (enum_ops d) w1 ;;
  let m := to_mem (out w2) in
  let m := write_fixups (fx w2 KItems) m in
  let m := write_fixups (fx w2 KStrings) m in
  let m := write_fixups (fx w2 KClassNames) m in
  let m := write_fixups (fx w2 KAliases) m in
  let m := write_fixups (fx w2 KDescs) m in
  Some (header (Z.of_nat (length (classes d))) (Z.of_nat (length (enums d))) (total_strings d) (tell w1) (tell w2)
        ++ peek m 0 (length (out w2))).

(* ------------------------------------------------------------------ *)
(** Checked accesses to the loaded buffer of [s] bytes *)
Definition inside (s a n : Z) : bool := (0 <=? a) && (a + n <=? s).
Definition rd (n : nat) (s : Z) (m : mem) (a : Z) : option Z :=
  if inside s a (Z.of_nat n) then Some (le_value (peek m a n)) else None.
Definition wr (n : nat) (s : Z) (m : mem) (a v : Z) : option mem :=
  if inside s a (Z.of_nat n) then Some (poke m a (le_bytes n v)) else None.

Section Load.
(** bufferStart *)
Variable base : Z.
Definition ptr (v : Z) : Z := u64 (base + v).
Definition ptr0 (v : Z) : Z := if v =? 0 then 0 else ptr v.

(** Turning an array of [n] offsets behind [n] free words into [n] pointers in place: :119-125 and
    :139-148, :194-201.  [k] entries remain, starting with number [t]. *)
Fixpoint expand (f : Z -> Z) (s : Z) (q n : Z) (k : nat) (t : Z) (m : mem) : option mem :=
  match k with
  | O => Some m
  | S k' => v <- rd 4 s m (q + 4 * n + 4 * t) ;; m' <- wr 8 s m (q + 8 * t) (f v) ;; expand f s q n k' (t + 1) m'
  end.
(** :163-177 *)
Fixpoint expand_descs (s : Z) (k : nat) (p o : Z) (m : mem) : option mem :=
  match k with
  | O => Some m
  | S k' =>
    v <- rd 4 s m o ;;
    m1 <- (if negb (v =? 0) then wr 8 s m p (ptr v) else m' <- wr 8 s m p 0 ;; wr 4 s m' o 0) ;;
    z <- rd 4 s m1 (o + 4) ;;
    m2 <- wr 8 s m1 (p + 8) z ;;
    expand_descs s k' (p + 16) (o + 8) m2
  end.
(** the body of the loop :104-182 for the record at [q] *)
Definition load_class (s q : Z) (m : mem) : option mem :=
  tp <- rd 4 s m (q + 32) ;;
  m <- wr 8 s m (q + 8) (ptr tp) ;;
  np <- rd 4 s m (q + 36) ;;
  m <- (if negb (np =? 0) then
          m <- wr 8 s m (q + 16) (ptr np) ;; n <- rd 4 s m (q + 4) ;; expand ptr s np n (Z.to_nat n) 0 m
        else wr 8 s m (q + 16) 0) ;;
  cp <- rd 4 s m (q + 40) ;;
  m <- wr 8 s m (q + 24) (ptr0 cp) ;;
  ap <- rd 4 s m (q + 44) ;;
  m <- (if negb (ap =? 0) then
          m <- wr 8 s m (q + 32) (ptr ap) ;; n <- rd 4 s m (q + 4) ;; expand ptr0 s ap n (Z.to_nat n) 0 m
        else wr 8 s m (q + 32) 0) ;;
  hp <- rd 4 s m (q + 48) ;;
  m <- (if negb (hp =? 0) then wr 8 s m (q + 32) (ptr hp) else wr 8 s m (q + 40) 0) ;;
  dp <- rd 4 s m (q + 52) ;;
  if negb (dp =? 0) then
    m <- wr 8 s m (q + 48) (ptr dp) ;; n <- rd 4 s m (q + 4) ;;
    expand_descs s (Z.to_nat (u32 (n * 2))) dp (dp + 4 * u32 (n * 4)) m
  else wr 8 s m (q + 48) 0.
Fixpoint load_classes (s : Z) (k : nat) (q : Z) (m : mem) : option mem :=
  match k with O => Some m | S k' => m' <- load_class s q m ;; load_classes s k' (q + 56) m' end.

(** :184-193: for each enumeration its hash, its size and the offset of its values; and the position
    behind the last *)
Fixpoint load_enums (s : Z) (m : mem) (k : nat) (it : Z) : option (list (Z * Z * Z) * Z) :=
  match k with
  | O => Some ([], it)
  | S k' =>
    h <- rd 4 s m it ;; n <- rd 4 s m (it + 4) ;;
    r <- load_enums s m k' (it + 8 + 8 * n) ;; Some ((h, n, it + 8) :: fst r, snd r)
  end.
(** the bytes up to the next zero: how a view of a C string gets its length *)
Fixpoint cstr (fuel : nat) (s : Z) (m : mem) (a : Z) : option text :=
  match fuel with
  | O => None
  | S f => b <- rd 1 s m a ;; if b =? 0 then Some [] else r <- cstr f s m (a + 1) ;; Some (b :: r)
  end.
(** the string a pointer leads to *)
Definition at_ptr (s : Z) (m : mem) (p : Z) : option text := cstr (S (Z.to_nat s)) s m (u64 (p - base)).
Fixpoint take_names (s : Z) (m : mem) (k : nat) (it : Z) : option (list text) :=
  match k with O => Some [] | S k' => p <- rd 8 s m it ;; t <- at_ptr s m p ;; r <- take_names s m k' (it + 8) ;; Some (t :: r) end.
(** an enumeration as loaded: hash, names, offset of the values, name *)
Definition loaded_enum : Type := Z * list text * Z * text.
(** :203-210 *)
Fixpoint name_enums (s : Z) (m : mem) (es : list (Z * Z * Z)) (it : Z) : option (list loaded_enum) :=
  match es with
  | [] => Some []
  | (h, n, v) :: r =>
    ns <- take_names s m (Z.to_nat n) it ;;
    p <- rd 8 s m (it + 8 * n) ;; e <- at_ptr s m p ;;
    l <- name_enums s m r (it + 8 * n + 8) ;; Some ((h, ns, v, e) :: l)
  end.

(** Load, :86-206, into an empty object: the code returned and, with code 0, the buffer (its size and
    contents), the number of classes (records of 56 bytes at its start) and the enumerations.  A file
    shorter than announced leaves zeros in the buffer. *)
Inductive loaded := Refused (code : Z) | Loaded (s : Z) (m : mem) (n : nat) (es : list loaded_enum).
Definition field (file : list Z) (i : nat) : Z := le_value (firstn 4 (skipn (4 * i) file)).
Definition Load (file : list Z) : option loaded :=
  if (length file <? 32)%nat then None
  else if negb (field file 0 =? ID) then Some (Refused 1)
  else if VERSION <? field file 1 then Some (Refused 2)
  else
    let s := field file 6 in
    let m := to_mem (firstn (Z.to_nat s) (skipn 32 file)) in
    m <- load_classes s (Z.to_nat (field file 2)) 0 m ;;
    r <- load_enums s m (Z.to_nat (field file 3)) (field file 5) ;;
    m <- expand ptr s (snd r) (field file 4) (Z.to_nat (field file 4)) 0 m ;;
    es <- name_enums s m (fst r) (snd r) ;;
    Some (Loaded s m (Z.to_nat (field file 2)) es).
End Load.
