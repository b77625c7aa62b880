(** C07 padding and power-of-two test, C08 whitespace, C09 FourCC. *)
From Verif Require Import Base Supercore_Model Supercore_Spec Supercore_Proof.

(** C07: the padding is the least amount that reaches a multiple of the alignment. *)
Theorem C07_padding_least : forall v k, 0 <= k < 64 -> 0 <= v < 2 ^ 64 ->
  let p := GetPadding v (2 ^ k) in
  0 <= p < 2 ^ k /\ (v + p) mod 2 ^ k = 0 /\
  (forall q, 0 <= q -> (v + q) mod 2 ^ k = 0 -> p <= q).
Proof. exact padding_spec. Qed.
Print Assumptions C07_padding_least.

Theorem C07_is_pow2 : forall w x, 0 <= w -> 0 <= x < 2 ^ w ->
  (IsPow2 w x = true <-> (x = 0 \/ exists k, 0 <= k < w /\ x = 2 ^ k)).
Proof. exact IsPow2_spec. Qed.
Print Assumptions C07_is_pow2.

(** Outside the stated domain: a non-power-of-two alignment is not honoured. *)
Theorem C07_padding_other_alignment_refuted : exists v a, 0 < a /\ (v + GetPadding v a) mod a <> 0.
Proof. exists 2, 6. vm_compute. split; [reflexivity|discriminate]. Qed.
Print Assumptions C07_padding_other_alignment_refuted.

(** C08: with a readable neighbour, or text that is not all blank, the three
    functions strip exactly the maximal runs. *)
Theorem C08_skip_start : forall nl s after, (after = None -> ~ Forall (blank nl) s) ->
  exists r, SkipStartWhitespace nl s after = Some r /\ strips_front nl s r.
Proof. exact skip_start_full. Qed.
Print Assumptions C08_skip_start.

Theorem C08_skip_end : forall nl s before, (before = None -> ~ Forall (blank nl) s) ->
  exists r, SkipEndWhitespace nl s before = Some r /\ strips_back nl s r.
Proof. exact skip_end_full. Qed.
Print Assumptions C08_skip_end.

Theorem C08_trim : forall s before after,
  (Forall (blank false) s -> after <> None /\ (s = [] -> before <> None)) ->
  exists m r, strips_front false s m /\ strips_back false m r /\
    TrimWhitespace s before after = Some r.
Proof. exact trim_full. Qed.
Print Assumptions C08_trim.

(** The stripped text is unique, so the statements above determine the result. *)
Theorem C08_stripping_is_unique : forall nl s r1 r2,
  strips_front nl s r1 -> strips_front nl s r2 -> r1 = r2.
Proof. exact strips_front_unique. Qed.
Print Assumptions C08_stripping_is_unique.

(** All-blank (in particular empty) text makes the code look at the character
    just outside the view, which need not be readable. *)
Theorem C08_all_blank_reads_outside : forall nl s,
  (SkipStartWhitespace nl s None = None <-> Forall (blank nl) s) /\
  (SkipEndWhitespace nl s None = None <-> Forall (blank nl) s).
Proof. intros nl s. exact (conj (skip_start_ub nl s) (skip_end_ub nl s)). Qed.
Print Assumptions C08_all_blank_reads_outside.

(** C09: the compiled value's bytes are the characters (the first three must be
    ASCII, the last may be any byte); what follows them is irrelevant. *)
Theorem C09_compile_bytes : forall a b c d rest,
  0 <= a < 128 -> 0 <= b < 128 -> 0 <= c < 128 -> is_byte d ->
  exists v, CompileFourCC (a :: b :: c :: d :: rest) = Some v /\
            0 <= v < 2 ^ 32 /\ le_bytes 4 v = [a; b; c; d].
Proof. exact compile_bytes. Qed.
Print Assumptions C09_compile_bytes.

Theorem C09_compile_injective : forall s s' v, length s = 4%nat -> length s' = 4%nat ->
  Forall (fun c => 0 <= c < 128) s -> Forall (fun c => 0 <= c < 128) s' ->
  CompileFourCC s = Some v -> CompileFourCC s' = Some v -> s = s'.
Proof. exact compile_injective. Qed.
Print Assumptions C09_compile_injective.

(** The error-message rendering gives back an alphanumeric tag verbatim ... *)
Theorem C09_render_alnum : forall a b c d rest, Forall alnum [a; b; c; d] ->
  exists v, CompileFourCC (a :: b :: c :: d :: rest) = Some v /\ DecompileFourCC v 4 = Some [a; b; c; d].
Proof. exact render_alnum. Qed.
Print Assumptions C09_render_alnum.

(** ... and identifies every NUL-free ASCII tag. *)
Theorem C09_render_injective : forall s s' v v' t, length s = 4%nat -> length s' = 4%nat ->
  Forall (fun c => 1 <= c < 128) s -> Forall (fun c => 1 <= c < 128) s' ->
  CompileFourCC s = Some v -> CompileFourCC s' = Some v' ->
  DecompileFourCC v 4 = Some t -> DecompileFourCC v' 4 = Some t -> s = s'.
Proof. exact render_injective. Qed.
Print Assumptions C09_render_injective.

(** A non-ASCII first character overwrites the other three. *)
Theorem C09_non_ascii_refuted : forall a b c d,
  is_byte a -> 128 <= a -> is_byte b -> is_byte c -> is_byte d ->
  CompileFourCC [a; b; c; d] = Some (a + 0xffffff00).
Proof. exact compile_non_ascii. Qed.
Print Assumptions C09_non_ascii_refuted.

Example C07_C09_cases :
  GetPadding 7 16 = 9 /\ GetPadding (2 ^ 64 - 3) 8 = 3 /\ IsPow2 32 64 = true /\ IsPow2 32 96 = false /\
  CompileFourCC [65; 66; 67; 68; 0] = Some 0x44434241 /\
  DecompileFourCC 0x44434241 4 = Some [65; 66; 67; 68] /\
  DecompileFourCC 0x2E010241 4 = Some [48;120;52;49;32; 48;120;50;32; 48;120;49;32; 48;120;50;69;32].
Proof. vm_compute. repeat split; reflexivity. Qed.

Example C08_cases :
  TrimWhitespace [32; 9; 65; 32; 66; 32] None None = Some [65; 32; 66] /\
  TrimWhitespace [32; 9] None (Some 0) = Some [] /\ TrimWhitespace [32; 9] None None = None /\
  SkipStartWhitespace true [10; 65] None = Some [65] /\ SkipStartWhitespace false [10; 65] None = Some [10; 65].
Proof. vm_compute. repeat split; reflexivity. Qed.
