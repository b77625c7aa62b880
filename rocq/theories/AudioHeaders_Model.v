(** Model of the audio headers formats/VAG.hpp, formats/FWSE.hpp, formats/XVAG.hpp and formats/MSF.hpp: plain
    structures that are laid over the bytes of a file.  The layout is that of the usual ABIs on x86 and ARM: every
    member on the next multiple of its element size, the whole a multiple of the largest.  A base class comes
    first (XVAGChunk has no padding at its end that could be reused). *)
From Coq Require Import Strings.Ascii Strings.String.
From Verif Require Import Base Endian_Model Stream_Model Dds_Model.
Local Open Scope nat_scope.
Local Open Scope list_scope.

(** a member: its name, the size of an element, the number of elements (1 if not an array) *)
Record member := Member { m_name : string; m_size : nat; m_count : nat }.
Definition u32s (n : string) := Member n 4 1.

Definition align_up (o a : nat) : nat := o + (a - o mod a) mod a.
Fixpoint place (o : nat) (ms : list member) : list (member * nat) :=
  match ms with
  | [] => []
  | m :: r => let a := align_up o (m_size m) in (m, a) :: place (a + m_size m * m_count m) r
  end.
Fixpoint end_of (o : nat) (ms : list member) : nat :=
  match ms with
  | [] => o
  | m :: r => end_of (align_up o (m_size m) + m_size m * m_count m) r
  end.
Definition alignment (ms : list member) : nat := fold_right (fun m a => Nat.max (m_size m) a) 1 ms.
Definition sizeof (ms : list member) : nat := align_up (end_of 0 ms) (alignment ms).

(** VAG.hpp:21-30, FWSE.hpp:20-33, XVAG.hpp:20-34, 43-51, MSF.hpp:21-36 (an unscoped enumeration with the
    values 0 to 7 has four bytes) *)
Definition VAG : list member :=
  [u32s "id"; u32s "version"; u32s "reserved"; u32s "dataSize"; u32s "sampleRate"; Member "null" 4 11].
Definition FWSE : list member :=
  [u32s "id"; u32s "version"; u32s "fileSize"; u32s "bufferOffset"; u32s "numChannels"; u32s "numSamples"; u32s "sampleRate";
   u32s "sampleDepth"; Member "unk" 1 992].
Definition XVAGChunk : list member := [u32s "id"; u32s "size"].
Definition XVAGHeader : list member :=
  XVAGChunk ++ [Member "numBlocks" 1 1; Member "flags" 1 1; Member "unk" 1 2; Member "null" 4 5].
Definition XVAGfmat : list member :=
  XVAGChunk ++ [u32s "numChannels"; u32s "format"; u32s "numSamples"; u32s "numSamples2"; u32s "interleave"; u32s "sampleRate"; u32s "bufferSize"].
Definition MSF : list member :=
  [u32s "id"; u32s "codec"; u32s "numChannels"; u32s "dataSize"; u32s "sampleRate"; u32s "flags"; u32s "loopStart"; u32s "loopDuration"; Member "unk" 4 8].

(** VAG.hpp:20, FWSE.hpp:21, XVAG.hpp:20-21 *)
Definition VAGID : Z := fourcc "VAGp".
Definition FWSE_ID : Z := fourcc "FWSE".
Definition XVAGID : Z := fourcc "XVAG".
Definition XVAGFMAT : Z := fourcc "fmat".
(** XVAG.hpp:36-41 and MSF.hpp:22-31; an enumerator without a value is one more than the one before it *)
Fixpoint enumerators (next : Z) (l : list (string * option Z)) : list (string * Z) :=
  match l with
  | [] => []
  | (n, v) :: r => let x := match v with Some y => y | None => next end in (n, x) :: enumerators (x + 1) r
  end.
Definition XVAGFormat := enumerators 0 [("PS_ADPCM", Some 6%Z); ("PS_ADPCM_EX", None); ("MPEG", Some 8%Z); ("AT9", None)]%string.
Definition CodecType := enumerators 0 (map (fun n => (n, None))
  ["PCM16BE"; "PCM16LE"; "PCM32F"; "PSX_ADPCM"; "AT3L"; "AT3M"; "AT3H"; "LAME"]%string).

(** Reading and assigning element [k] of a member of a structure whose bytes are [bs]. *)
Fixpoint find (name : string) (l : list (member * nat)) : option (member * nat) :=
  match l with
  | [] => None
  | (m, o) :: r => if String.eqb (m_name m) name then Some (m, o) else find name r
  end.
Definition get (ms : list member) (name : string) (k : nat) (bs : list Z) : option Z :=
  match find name (place 0 ms) with
  | Some (m, o) => if k <? m_count m then Some (le_value (firstn (m_size m) (skipn (o + m_size m * k) bs))) else None
  | None => None
  end.
Definition set (ms : list member) (name : string) (k : nat) (v : Z) (bs : list Z) : option (list Z) :=
  match find name (place 0 ms) with
  | Some (m, o) => if k <? m_count m then Some (firstn (o + m_size m * k) bs ++ le_bytes (m_size m) v ++ skipn (o + m_size m * k + m_size m) bs) else None
  | None => None
  end.
(** FArraySwapper<uint32>(header), endian.hpp:81-87: the structure as an array of 32-bit words *)
Definition swap_words (bs : list Z) : option (list Z) :=
  option_map (array_bytes 4) (FArraySwapper 4 (elements 4 (length bs / 4) bs)).
