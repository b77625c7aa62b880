(** The headers as documented: for each member the offset in the file, the bytes of an element and the number of elements. *)
From Coq Require Import Strings.Ascii Strings.String.
From Verif Require Import Base.
Local Open Scope string_scope.
Local Open Scope nat_scope.

(** name, offset, bytes of an element, number of elements *)
Definition entry : Type := string * nat * nat * nat.
(** the headers: name, members, size of the header *)
Definition documented : list (string * list entry * nat) :=
  [("VAG", [("id", 0, 4, 1); ("version", 4, 4, 1); ("reserved", 8, 4, 1); ("dataSize", 12, 4, 1); ("sampleRate", 16, 4, 1); ("null", 20, 4, 11)], 64);
   ("FWSE", [("id", 0, 4, 1); ("version", 4, 4, 1); ("fileSize", 8, 4, 1); ("bufferOffset", 12, 4, 1); ("numChannels", 16, 4, 1); ("numSamples", 20, 4, 1);
     ("sampleRate", 24, 4, 1); ("sampleDepth", 28, 4, 1); ("unk", 32, 1, 992)], 1024);
   ("XVAGChunk", [("id", 0, 4, 1); ("size", 4, 4, 1)], 8);
   ("XVAGHeader", [("id", 0, 4, 1); ("size", 4, 4, 1); ("numBlocks", 8, 1, 1); ("flags", 9, 1, 1); ("unk", 10, 1, 2); ("null", 12, 4, 5)], 32);
   ("XVAGfmat", [("id", 0, 4, 1); ("size", 4, 4, 1); ("numChannels", 8, 4, 1); ("format", 12, 4, 1); ("numSamples", 16, 4, 1); ("numSamples2", 20, 4, 1);
     ("interleave", 24, 4, 1); ("sampleRate", 28, 4, 1); ("bufferSize", 32, 4, 1)], 36);
   ("MSF", [("id", 0, 4, 1); ("codec", 4, 4, 1); ("numChannels", 8, 4, 1); ("dataSize", 12, 4, 1); ("sampleRate", 16, 4, 1); ("flags", 20, 4, 1);
     ("loopStart", 24, 4, 1); ("loopDuration", 28, 4, 1); ("unk", 32, 4, 8)], 64)].

(** bytes [o], ..., [o + n - 1] of a file *)
Definition part (o n : nat) (bs : list Z) : list Z := firstn n (skipn o bs).
(** numbers from bytes *)
Definition little_endian (l : list Z) : Z := fold_right (fun b v => (b + 256 * v)%Z) 0%Z l.
Definition big_endian (l : list Z) : Z := fold_left (fun v b => (256 * v + b)%Z) l 0%Z.
Definition characters (s : string) : list Z := map (fun c => Z.of_nat (nat_of_ascii c)) (list_ascii_of_string s).
