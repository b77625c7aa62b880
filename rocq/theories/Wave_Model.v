(** RIFF WAVE headers: formats/WAVE.hpp.  Addresses are 64-bit numbers, header fields their unsigned
    values; a fmt header is the record of its fields in file order. *)
From Verif Require Import Base.

(** WAVEGenericHeader: 21-31.  [Next]: 27-30 *)
Record generic := Generic { id : Z; chunkSize : Z }.
Definition Next (this : Z) (h : generic) : Z := u64 (this + chunkSize h).

(** the four-character codes (CompileFourCC, C09): 34, 54, 94, 101, 120 *)
Definition RIFF_ID : Z := 0x46464952.
Definition WAVE_ID : Z := 0x45564157.
Definition fmt_ID : Z := 0x20746d66.
Definition data_ID : Z := 0x61746164.
Definition fact_ID : Z := 0x74636166.
Definition smpl_ID : Z := 0x6c706d73.

(** RIFFHeader(fullSize): 38-39; the pair is (generic part, type) *)
Definition RIFFHeader (fullSize : Z) : generic * Z := (Generic RIFF_ID (u32 (fullSize - 8)), WAVE_ID).
(** WAVE_data(dataSize), GetData: 96-97 *)
Definition WAVE_data (dataSize : Z) : generic := Generic data_ID (u32 dataSize).
Definition GetData (this : Z) : Z := u64 (this + 8).

(** WAVE_FORMAT: 42-51 *)
Definition PCM := 1. Definition MS_ADPCM := 2. Definition ALAW := 6. Definition MULAW := 7. Definition IMA_ADPCM := 0x11.
(** WAVE_fmt: 53-61, 24 bytes *)
Record fmt := Fmt { hdr : generic; format : Z; channels : Z; sampleRate : Z; sampleCount : Z; interleave : Z; bitsPerSample : Z }.
(** the constructor: 63-80 *)
Definition WAVE_fmt (iFormat : Z) : fmt :=
  Fmt (Generic fmt_ID (u32 (24 - 8))) iFormat 1 0 0 0
    (if iFormat =? PCM then 16
     else if (iFormat =? MS_ADPCM) || (iFormat =? IMA_ADPCM) then 4
     else if (iFormat =? ALAW) || (iFormat =? MULAW) then 8 else 0).
(** CalcData: 82-85.  uint16 promotes to int, int times uint32 is uint32; the second product is an int
    (at most 65535 * 8191) cut to uint16 *)
Definition CalcData (f : fmt) : fmt :=
  Fmt (hdr f) (format f) (channels f) (sampleRate f)
    (u32 (u32 (channels f * sampleRate f) * (bitsPerSample f / 8)))
    (u16 (channels f * (bitsPerSample f / 8)))
    (bitsPerSample f).
(** WAVE_smpl::GetSampleLoops: 132; the header is 11 words *)
Definition GetSampleLoops (this : Z) : Z := u64 (this + 44).

(** IsValidWaveChunk: 135-146 *)
Definition IsValidWaveChunk (h : generic) : bool :=
  (id h =? fmt_ID) || (id h =? data_ID) || (id h =? fact_ID) || (id h =? smpl_ID).

(** how a fmt header lies in memory: the fields in order, little endian (53-61) *)
Definition fmt_bytes (f : fmt) : list Z :=
  le_bytes 4 (id (hdr f)) ++ le_bytes 4 (chunkSize (hdr f)) ++ le_bytes 2 (format f) ++ le_bytes 2 (channels f) ++
  le_bytes 4 (sampleRate f) ++ le_bytes 4 (sampleCount f) ++ le_bytes 2 (interleave f) ++ le_bytes 2 (bitsPerSample f).

(** WAVE_smpl: 107-130, and its SampleLoop: 108-119 (the enumeration is 4 bytes); fields in order *)
Record smpl := Smpl { shdr : generic; manufacturer : Z; product : Z; samplePeriod : Z; MIDIUnityNote : Z; MIDIPitchFraction : Z;
  SMPTEFormat : Z; SMPTEOffset : Z; numSampleLoops : Z; sampleLoopsSize : Z }.
Record loop := Loop { loop_id : Z; loop_type : Z; start : Z; end_ : Z; fraction : Z; playCount : Z }.
Definition smpl_bytes (s : smpl) : list Z :=
  le_bytes 4 (id (shdr s)) ++ le_bytes 4 (chunkSize (shdr s)) ++ le_bytes 4 (manufacturer s) ++ le_bytes 4 (product s) ++
  le_bytes 4 (samplePeriod s) ++ le_bytes 4 (MIDIUnityNote s) ++ le_bytes 4 (MIDIPitchFraction s) ++ le_bytes 4 (SMPTEFormat s) ++
  le_bytes 4 (SMPTEOffset s) ++ le_bytes 4 (numSampleLoops s) ++ le_bytes 4 (sampleLoopsSize s).
Definition loop_bytes (l : loop) : list Z :=
  le_bytes 4 (loop_id l) ++ le_bytes 4 (loop_type l) ++ le_bytes 4 (start l) ++ le_bytes 4 (end_ l) ++ le_bytes 4 (fraction l) ++ le_bytes 4 (playCount l).
(** sizeof(SampleLoop), the step of the pointer GetSampleLoops returns *)
Definition sizeof_loop : Z := 24.
