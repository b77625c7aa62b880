(** C55: RIFF WAVE headers. *)
From Coq Require Import String Ascii.
From Verif Require Import Base Wave_Model.

(** The RIFF format: a chunk is an 8-byte header (tag, payload size) and its payload; the chunks follow
    each other.  [starts base sizes] are the addresses of the headers of chunks with these payload sizes. *)
Fixpoint starts (base : Z) (sizes : list Z) : list Z :=
  match sizes with [] => [] | n :: r => base :: starts (base + (8 + n)) r end.
Definition tag (s : string) : list Z := List.map (fun c => Z.of_nat (nat_of_ascii c)) (list_ascii_of_string s).
(** The WAVE fmt chunk: bytes per second and bytes per sample frame (rounded down, as for 4-bit samples). *)
Definition byte_rate (channels rate bits : Z) : Z := channels * rate * bits / 8.
Definition frame_size (channels bits : Z) : Z := channels * bits / 8.

Lemma le4_inj x y : is_word 32 x -> le_bytes 4 x = le_bytes 4 y -> is_word 32 y -> x = y.
Proof.
  intros Hx E Hy. cbn [le_bytes] in E. injection E as E0 E1 E2 E3. unfold is_word in *. change (2 ^ 32) with 4294967296 in *. lia.
Qed.

(** A chunk is accepted exactly when the four bytes at its start spell one of the four names. *)
Theorem C55_valid_chunk : forall h, is_word 32 (id h) ->
  (IsValidWaveChunk h = true <-> In (le_bytes 4 (id h)) [tag "fmt "; tag "data"; tag "fact"; tag "smpl"]).
Proof.
  intros h Hw. change [tag "fmt "; tag "data"; tag "fact"; tag "smpl"] with (List.map (le_bytes 4) [fmt_ID; data_ID; fact_ID; smpl_ID]).
  unfold IsValidWaveChunk. rewrite !orb_true_iff, !Z.eqb_eq. split.
  - intros H. apply in_map. cbn [In]. intuition congruence.
  - intros H. apply in_map_iff in H as (x & E & Hx). assert (x = id h).
    { apply le4_inj; [|exact E|exact Hw]. unfold is_word. cbn [In] in Hx. change (2 ^ 32) with 4294967296.
      repeat (destruct Hx as [<-|Hx]; [unfold fmt_ID, data_ID, fact_ID, smpl_ID; lia|]). destruct Hx. }
    subst x. cbn [In] in Hx. intuition congruence.
Qed.
Print Assumptions C55_valid_chunk.

(** A RIFF header announces the bytes after its size field, for every file of 8 bytes to 4 GB. *)
Theorem C55_riff_size : forall n, 8 <= n < 2 ^ 32 + 8 -> 
  le_bytes 4 (id (fst (RIFFHeader n))) = tag "RIFF" /\ le_bytes 4 (snd (RIFFHeader n)) = tag "WAVE" /\ chunkSize (fst (RIFFHeader n)) = n - 8.
Proof.
  intros n Hn. split; [reflexivity|]. split; [reflexivity|]. cbn [RIFFHeader fst chunkSize]. unfold u32. apply wrap_small. change (2 ^ 32) with 4294967296 in *. lia.
Qed.
Print Assumptions C55_riff_size.
(** Below 8 bytes the size wraps to almost 4 GB. *)
Theorem C55_riff_short_refuted : forall n, 0 <= n < 8 -> chunkSize (fst (RIFFHeader n)) = 2 ^ 32 - (8 - n).
Proof. intros n Hn. cbn [RIFFHeader fst chunkSize]. unfold u32, wrap. change (2 ^ 32) with 4294967296. lia. Qed.
Print Assumptions C55_riff_short_refuted.

(** The payload starts right behind the header, and the data chunk announces exactly its payload. *)
Theorem C55_data : forall this n, 0 <= this -> this + 8 < 2 ^ 64 -> is_word 32 n ->
  GetData this = this + 8 /\ chunkSize (WAVE_data n) = n /\ le_bytes 4 (id (WAVE_data n)) = tag "data".
Proof.
  intros this n H1 H2 Hn. split; [unfold GetData, u64; apply wrap_small; lia|]. split; [|reflexivity]. cbn [WAVE_data chunkSize]. unfold u32. apply wrap_small. exact Hn.
Qed.
Print Assumptions C55_data.

(** Next does not reach the following chunk: for every sequence of chunks at every place it lands eight
    bytes before the header of the following one. *)
Theorem C55_next_refuted : forall base sizes i this following h, 0 <= base -> Forall (fun n => 0 <= n) sizes -> 
  base + fold_right (fun n s => 8 + n + s) 0 sizes < 2 ^ 64 ->
  nth_error (starts base sizes) i = Some this -> nth_error (starts base sizes) (S i) = Some following -> nth_error sizes i = Some (chunkSize h) ->
  Next this h = following - 8.
Proof.
  intros base sizes. revert base. induction sizes as [|n sizes IH]; intros base i this following h Hb Hn Hs H1 H2 H3; [destruct i; discriminate|].
  inversion Hn as [|? ? Hn0 Hn']; subst. cbn beta in Hn0. cbn [fold_right] in Hs.
  assert (P : 0 <= fold_right (fun n s => 8 + n + s) 0 sizes).
  { clear - Hn'. induction Hn'; cbn [fold_right]; [lia|]. lia. }
  destruct i as [|i]; cbn [starts nth_error] in *.
  - injection H1 as <-. injection H3 as H3. destruct sizes as [|m sizes]; [discriminate|]. cbn [starts nth_error] in H2. assert (F2 : following = base + (8 + n)) by congruence. rewrite F2.
    unfold Next, u64. rewrite <- H3. set (F := fold_right _ _ _) in *. clearbody F. rewrite wrap_small; lia.
  - apply (IH (base + (8 + n)) i this following h); auto; lia.
Qed.
Print Assumptions C55_next_refuted.
(** It works exactly for chunks whose size field counts the header too. *)
Theorem C55_next_counts_header : forall this payload h, 0 <= this -> 0 <= payload -> this + 8 + payload < 2 ^ 64 -> chunkSize h = payload + 8 -> Next this h = this + (8 + payload).
Proof. intros this payload h H1 H2 H3 H4. unfold Next, u64. rewrite H4, wrap_small; lia. Qed.
Print Assumptions C55_next_counts_header.

(** A fmt header built for a format and its channels and rate: 24 bytes, tagged, its size field the 16
    bytes that follow, byte rate and frame size those of the WAVE format, for the formats of whole bytes. *)
Theorem C55_calc_data : forall fm ch rate bits, 0 <= fm < 2 ^ 16 -> In (fm, bits) [(PCM, 16); (ALAW, 8); (MULAW, 8)] -> 0 <= ch < 2 ^ 16 -> is_word 32 rate ->
  byte_rate ch rate bits < 2 ^ 32 -> frame_size ch bits < 2 ^ 16 ->
  let f := CalcData (Fmt (hdr (WAVE_fmt fm)) (format (WAVE_fmt fm)) ch rate (sampleCount (WAVE_fmt fm)) (interleave (WAVE_fmt fm)) (bitsPerSample (WAVE_fmt fm))) in
  fmt_bytes f = tag "fmt " ++ le_bytes 4 16 ++ le_bytes 2 fm ++ le_bytes 2 ch ++ le_bytes 4 rate ++ le_bytes 4 (byte_rate ch rate bits) ++ le_bytes 2 (frame_size ch bits) ++ le_bytes 2 bits.
Proof.
  intros fm ch rate bits Hf Hin Hc Hr Hb Hfs f.
  assert (Gen : forall B n, B = 8 * n -> n = 1 \/ n = 2 -> byte_rate ch rate B < 2 ^ 32 -> frame_size ch B < 2 ^ 16 ->
     u32 (u32 (ch * rate) * (B / 8)) = byte_rate ch rate B /\ u16 (ch * (B / 8)) = frame_size ch B).
  { intros B n -> Hn. unfold byte_rate, frame_size. replace (8 * n) with (n * 8) by ring. rewrite !Z.div_mul by lia. rewrite !Z.mul_assoc, !Z.div_mul by lia.
    unfold is_word in Hr. assert (0 <= ch * rate) by (apply Z.mul_nonneg_nonneg; lia). set (q := ch * rate) in *. clearbody q.
    intros H1 H2. unfold u32, u16. destruct Hn as [-> | ->]; (split; [rewrite (wrap_small 32 q) by lia; apply wrap_small; lia|apply wrap_small; lia]). }
  unfold f. destruct Hin as [E|[E|[E|[]]]]; injection E as <- <-;
    [destruct (Gen 16 2) as [G1 G2]|destruct (Gen 8 1) as [G1 G2]|destruct (Gen 8 1) as [G1 G2]]; auto; try lia;
    unfold fmt_bytes, CalcData; cbn [hdr format channels sampleRate sampleCount interleave bitsPerSample WAVE_fmt];
    unfold WAVE_fmt; cbn [bitsPerSample]; change (ALAW =? PCM) with false; change (MULAW =? PCM) with false; change (PCM =? PCM) with true; cbn [andb orb];
    cbn -[le_bytes u32 u16 byte_rate frame_size Z.mul Z.div]; 
    rewrite ?G1, ?G2; reflexivity.
Qed.
Print Assumptions C55_calc_data.
(** The 4-bit ADPCM formats get byte rate and frame size 0 whatever their channels and rate, where the
    format says channels * rate / 2. *)
Theorem C55_adpcm_refuted : forall fm ch rate, fm = MS_ADPCM \/ fm = IMA_ADPCM -> 1 <= ch -> 2 <= rate ->
  let f := CalcData (Fmt (hdr (WAVE_fmt fm)) (format (WAVE_fmt fm)) ch rate (sampleCount (WAVE_fmt fm)) (interleave (WAVE_fmt fm)) (bitsPerSample (WAVE_fmt fm))) in
  bitsPerSample f = 4 /\ sampleCount f = 0 /\ interleave f = 0 /\ 0 < byte_rate ch rate 4.
Proof.
  intros fm ch rate Hf Hc Hr f. assert (B : bitsPerSample (WAVE_fmt fm) = 4) by (destruct Hf as [-> | ->]; reflexivity).
  unfold f, CalcData; cbn [hdr format channels sampleRate sampleCount interleave bitsPerSample]. rewrite B. split; [reflexivity|]. change (4 / 8) with 0.
  split; [unfold u32, wrap; rewrite Z.mul_0_r; reflexivity|]. split; [unfold u16, wrap; rewrite Z.mul_0_r; reflexivity|].
  unfold byte_rate. assert (2 <= ch * rate) by nia. lia.
Qed.
Print Assumptions C55_adpcm_refuted.
(** Any other format code leaves the sample width 0 for the caller to fill in. *)
Theorem C55_other_formats : forall fm, ~ In fm [PCM; MS_ADPCM; ALAW; MULAW; IMA_ADPCM] -> bitsPerSample (WAVE_fmt fm) = 0.
Proof.
  intros fm H. unfold WAVE_fmt; cbn [bitsPerSample]. cbn [In] in H.
  destruct (Z.eqb_spec fm PCM), (Z.eqb_spec fm MS_ADPCM), (Z.eqb_spec fm ALAW), (Z.eqb_spec fm MULAW), (Z.eqb_spec fm IMA_ADPCM); try reflexivity; exfalso; apply H; intuition congruence.
Qed.
Print Assumptions C55_other_formats.

Example C55_nonvacuous :
  sampleCount (CalcData (Fmt (hdr (WAVE_fmt PCM)) PCM 2 44100 0 0 16)) = 176400 /\ interleave (CalcData (Fmt (hdr (WAVE_fmt PCM)) PCM 2 44100 0 0 16)) = 4 /\
  starts 0x1000c [16; 400; 7] = [0x1000c; 0x10024; 0x101bc] /\ Next 0x1000c (Generic fmt_ID 16) = 0x1001c /\
  IsValidWaveChunk (Generic 0x61746164 9) = true /\ IsValidWaveChunk (Generic 0x5453494c 9) = false.
Proof. repeat split; reflexivity. Qed.

(** Where the sample loops are: element k of the array GetSampleLoops gives is the k-th loop stored behind the header. *)
Lemma le_length n x : length (le_bytes n x) = n.
Proof. revert x. induction n as [|n IH]; intros x; [reflexivity|]. cbn. rewrite ?IH. reflexivity. Qed.
Lemma loop_length l : length (loop_bytes l) = 24%nat.
Proof. unfold loop_bytes. rewrite !app_length, !le_length. reflexivity. Qed.
Lemma smpl_length s : length (smpl_bytes s) = 44%nat.
Proof. unfold smpl_bytes. rewrite !app_length, !le_length. reflexivity. Qed.
Lemma loops_at loops : forall k l rest, nth_error loops k = Some l -> firstn 24 (skipn (24 * k) (concat (map loop_bytes loops) ++ rest)) = loop_bytes l.
Proof.
  induction loops as [|a loops IH]; intros [|k] l rest E; try discriminate E.
  - injection E as ->. cbn [map concat]. rewrite <- app_assoc. change (24 * 0)%nat with 0%nat. cbn [skipn].
    rewrite firstn_app, loop_length, Nat.sub_diag, firstn_O, app_nil_r. apply firstn_all2. rewrite loop_length. lia.
  - cbn [map concat]. rewrite <- app_assoc, skipn_app, loop_length.
    rewrite skipn_all2 by (rewrite loop_length; lia). replace (24 * S k - 24)%nat with (24 * k)%nat by lia. apply IH, E.
Qed.
Theorem C55_sample_loops : forall this s loops rest k l, 0 <= this -> this + 44 + 24 * Z.of_nat (length loops) <= 2 ^ 64 -> nth_error loops k = Some l ->
  let address := GetSampleLoops this + sizeof_loop * Z.of_nat k in
  this + 44 <= address /\ address + 24 <= this + 44 + 24 * Z.of_nat (length loops) /\
  firstn 24 (skipn (Z.to_nat (address - this)) (smpl_bytes s ++ concat (map loop_bytes loops) ++ rest)) = loop_bytes l.
Proof.
  intros this s loops rest k l H0 H1 E. assert (K : (k < length loops)%nat) by (apply nth_error_Some; congruence).
  unfold GetSampleLoops, sizeof_loop, u64. rewrite wrap_small by lia. cbv zeta. split; [lia|]. split; [lia|].
  rewrite skipn_app, smpl_length. rewrite skipn_all2 by (rewrite smpl_length; lia).
  replace (Z.to_nat (this + 44 + 24 * Z.of_nat k - this) - 44)%nat with (24 * k)%nat by lia. cbn [app]. apply loops_at, E.
Qed.
Print Assumptions C55_sample_loops.
Example C55_sample_loops_nonvacuous :
  nth_error [Loop 0 0 1 2 0 0; Loop 1 2 3 70000 0 9] 1 = Some (Loop 1 2 3 70000 0 9) /\ 0 <= 1000 /\ 1000 + 44 + 24 * 2 <= 2 ^ 64 /\
  loop_bytes (Loop 1 2 3 70000 0 9) = [1;0;0;0; 2;0;0;0; 3;0;0;0; 112;17;1;0; 0;0;0;0; 9;0;0;0].
Proof. split; [reflexivity|]. split; [lia|]. split; [lia|]. reflexivity. Qed.
