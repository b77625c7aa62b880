(** C56: string conversions between UTF-8, UTF-16 and UTF-32. *)
From Verif Require Import Base Unicode_Model Unicode_Spec Unicode_Proof.

(** UTF-32 (a 4-byte wide string) to UTF-8: every non-empty text gets exactly its UTF-8 form. *)
Theorem C56_utf32_to_utf8 : forall strict text bytes, text <> [] -> spells utf8 text bytes -> ToUTF8 strict 4 text = Text bytes.
Proof. intros strict text bytes Hn Hs. unfold ToUTF8, Cvt. destruct text as [|c t]; [contradiction|]. cbn [Z.eqb Pos.eqb]. rewrite to_utf8_32 by apply Hs. now rewrite <- (utf8_units _ _ Hs). Qed.
Print Assumptions C56_utf32_to_utf8.
(** UTF-16 (a 2-byte string) to UTF-8. *)
Theorem C56_utf16_to_utf8 : forall strict text units bytes, text <> [] -> spells utf16 text units -> spells utf8 text bytes -> ToUTF8 strict 2 units = Text bytes.
Proof.
  intros strict text units bytes Hn Hw Hb. assert (units <> []).
  { destruct text as [|c t]; [contradiction|]. apply spells_cons in Hw as (_ & p & rest & Hp & -> & _). inversion Hp; discriminate. }
  unfold ToUTF8, Cvt. destruct units as [|u r]; [contradiction|]. cbn [Z.eqb Pos.eqb]. rewrite <- (app_nil_r (u :: r)), (from_utf16 text _ [] Hw). cbn [utf16_to_utf8]. now rewrite app_nil_r, <- (utf8_units _ _ Hb).
Qed.
Print Assumptions C56_utf16_to_utf8.
(** UTF-8 to the wide string of UTF-16 units. *)
Theorem C56_utf8_to_wide : forall strict text bytes units, spells utf8 text bytes -> spells utf16 text units -> ToUTF1632 strict bytes = Text units.
Proof. intros strict text bytes units Hb Hw. rewrite (wide_ok strict text bytes Hb). now rewrite <- (utf16_units _ _ Hw). Qed.
Print Assumptions C56_utf8_to_wide.
(** Every text has one form in each encoding, so the theorems above leave nothing open. *)
Theorem C56_forms_exist : forall text, Forall scalar text -> (exists b, spells utf8 text b) /\ (exists w, spells utf16 text w) /\
  (forall b b', spells utf8 text b -> spells utf8 text b' -> b = b') /\ (forall w w', spells utf16 text w -> spells utf16 text w' -> w = w').
Proof.
  intros text Hs. split; [|split; [|split]].
  - eexists. apply (spells_exists utf8 put_utf8); [|exact Hs]. intros c [Hc _]. apply put_utf8_ok. lia.
  - eexists. apply (spells_exists utf16 put_utf16); [|exact Hs]. exact put_utf16_ok.
  - intros b b' H H'. now rewrite (utf8_units _ _ H), (utf8_units _ _ H').
  - intros w w' H H'. now rewrite (utf16_units _ _ H), (utf16_units _ _ H').
Qed.
Print Assumptions C56_forms_exist.

(** Nothing but encoded text converts, up to a sequence cut short at the very end: overlong forms, stray
    continuation bytes, surrogates and values above 0x10FFFF throw. *)
Theorem C56_malformed_throws : forall bytes units, bytes_ok bytes -> ToUTF1632 true bytes = Text units ->
  exists text whole rest, bytes = whole ++ rest /\ spells utf8 text whole /\ spells utf16 text units /\
    (rest = [] \/ rest <> [] /\ exists c more, scalar c /\ more <> [] /\ utf8 c (rest ++ more)).
Proof. intros b w Hb H. exact (wide_sound (length b) b w Hb (le_n _) H). Qed.
Print Assumptions C56_malformed_throws.
Theorem C56_utf16_malformed_throws : forall units bytes, Forall (is_word 16) units -> ToUTF8 true 2 units = Text bytes ->
  exists text whole rest, units = whole ++ rest /\ spells utf16 text whole /\ spells utf8 text bytes /\
    (rest = [] \/ exists h, rest = [h] /\ 0xD800 <= h < 0xDC00).
Proof.
  intros w b Hw H. unfold ToUTF8, Cvt in H. destruct w as [|u r]; [discriminate|]. cbn [Z.eqb Pos.eqb] in H. exact (utf16_sound (length (u :: r)) (u :: r) b (le_n _) Hw H).
Qed.
Print Assumptions C56_utf16_malformed_throws.
Theorem C56_utf32_malformed_throws : forall units bytes, Forall (is_word 32) units -> ToUTF8 true 4 units = Text bytes -> spells utf8 units bytes.
Proof. intros w b Hw H. unfold ToUTF8, Cvt in H. destruct w as [|u r]; [discriminate|]. cbn [Z.eqb Pos.eqb] in H. exact (utf32_sound _ b Hw H). Qed.
Print Assumptions C56_utf32_malformed_throws.
(** The sequence cut short is dropped without an error, whatever precedes it. *)
Theorem C56_cut_short_refuted : forall text bytes units rest c more, spells utf8 text bytes -> spells utf16 text units ->
  rest <> [] -> more <> [] -> scalar c -> utf8 c (rest ++ more) -> ToUTF1632 true (bytes ++ rest) = Text units.
Proof.
  intros text bytes units rest c more Hb Hw Hr Hm Hc Hu. assert (Bo : bytes_ok rest) by (pose proof (utf8_bytes _ _ Hc Hu) as B; apply Forall_app in B; apply B).
  rewrite (wide_more true text bytes rest Hb Bo). assert (R : read_utf8 true rest = Incomplete) by (apply incomplete_cut; auto; split; [exact Hr|exists c, more; auto]).
  unfold ToUTF1632. destruct rest as [|x rest]; [contradiction|]. cbn [length utf8_to_utf16]. rewrite R. now rewrite app_nil_r, <- (utf16_units _ _ Hw).
Qed.
Print Assumptions C56_cut_short_refuted.

(** Round trips where wchar_t has 2 bytes (Windows): every non-empty text, in both directions. *)
Theorem C56_round_trip_2 : forall strict text bytes units, text <> [] -> spells utf8 text bytes -> spells utf16 text units ->
  to_wstring strict bytes = Text units /\ to_string strict 2 units = Text bytes.
Proof. intros strict text b w Hn Hb Hw. split; [exact (C56_utf8_to_wide strict text b w Hb Hw)|exact (C56_utf16_to_utf8 strict text w b Hn Hw Hb)]. Qed.
Print Assumptions C56_round_trip_2.
(** Where wchar_t has 4 bytes (Linux): the texts without characters from 0x10000 on ... *)
Theorem C56_round_trip_4 : forall strict text bytes, text <> [] -> spells utf8 text bytes -> Forall (fun c => c < 0x10000) text ->
  to_wstring strict bytes = Text text /\ to_string strict 4 text = Text bytes.
Proof.
  intros strict text b Hn Hb Hc. split; [|exact (C56_utf32_to_utf8 strict text b Hn Hb)]. unfold to_wstring. rewrite (wide_ok strict text b Hb). now rewrite bmp_same.
Qed.
Print Assumptions C56_round_trip_4.
(** ... and only those: with one such character the wide string does not convert back, with every
    standard library, and it is not the UTF-32 form either. *)
Theorem C56_round_trip_4_refuted : forall strict text bytes units, spells utf8 text bytes -> Exists (fun c => 0x10000 <= c) text ->
  to_wstring strict bytes = Text units -> to_string strict 4 units <> Text bytes /\ units <> text /\ (strict = true -> to_string strict 4 units = Throws).
Proof.
  intros strict text b w Hb He H. unfold to_wstring in H. rewrite (wide_ok strict text b Hb) in H. injection H as <-. pose proof (proj1 Hb) as Hs.
  assert (Ne : flat_map put_utf16 text <> []).
  { destruct text as [|c t]; [inversion He|]. cbn [flat_map]. unfold put_utf16. destruct (c <=? 0xFFFF); discriminate. }
  assert (U : forall st, to_string st 4 (flat_map put_utf16 text) = utf32_to_utf8 st (flat_map put_utf16 text)).
  { intros st. unfold to_string, ToUTF8, Cvt. destruct (flat_map put_utf16 text); [contradiction|reflexivity]. }
  split; [|split].
  - rewrite U. destruct strict; [rewrite pair_strict by assumption; discriminate|]. rewrite pair_lax by exact Hs. rewrite (utf8_units _ _ Hb). intros E.
    assert (L : length (flat_map put_utf8 (flat_map put_utf16 text)) = length (flat_map put_utf8 text)) by congruence. pose proof (proj2 (pair_longer text Hs) He). lia.
  - intros E. pose proof (proj2 (pair_longer text Hs) He) as L. rewrite E in L. lia.
  - intros ->. rewrite U. apply pair_strict; assumption.
Qed.
Print Assumptions C56_round_trip_4_refuted.

(** The pointer overloads convert what precedes the terminator, whatever memory follows it. *)
Theorem C56_pointer : forall strict size s rest, Forall (fun c => c <> 0) s ->
  ToUTF8_ptr strict size (s ++ 0 :: rest) = ToUTF8 strict size s /\ ToUTF1632_ptr strict (s ++ 0 :: rest) = ToUTF1632 strict s.
Proof. intros strict size s rest H. unfold ToUTF8_ptr, Cvt_ptr, ToUTF1632_ptr. rewrite c_str_ok by exact H. split; reflexivity. Qed.
Print Assumptions C56_pointer.
(** The string overloads convert embedded zeros like any character ([scalar 0]). *)
Theorem C56_embedded_zero : forall strict, ToUTF8 strict 4 [97; 0; 98] = Text [97; 0; 98] /\ ToUTF1632 strict [97; 0; 98] = Text [97; 0; 98].
Proof. intros []; split; reflexivity. Qed.
Print Assumptions C56_embedded_zero.
(** The empty text converts to wide characters but not back: ToUTF8 forms the address of a last element
    that does not exist. *)
Theorem C56_empty_refuted : forall strict size, ToUTF1632 strict [] = Text [] /\ ToUTF8 strict size [] = Undefined /\ (forall rest, ToUTF8_ptr strict size (0 :: rest) = Undefined).
Proof. intros strict size. repeat split; reflexivity. Qed.
Print Assumptions C56_empty_refuted.

(** Non-vacuity: a text with a character of each length. *)
Definition ex_text := [0x61; 0xE9; 0x20AC; 0x1F600; 0].
Example C56_nonvacuous : spells utf8 ex_text [0x61; 0xC3; 0xA9; 0xE2; 0x82; 0xAC; 0xF0; 0x9F; 0x98; 0x80; 0] /\ spells utf16 ex_text [0x61; 0xE9; 0x20AC; 0xD83D; 0xDE00; 0] /\
  to_wstring true [0x61; 0xC3; 0xA9; 0xE2; 0x82; 0xAC; 0xF0; 0x9F; 0x98; 0x80; 0] = Text [0x61; 0xE9; 0x20AC; 0xD83D; 0xDE00; 0] /\
  to_string true 4 [0x61; 0xD83D; 0xDE00] = Throws /\ to_string false 4 [0xD83D; 0xDE00] = Text [0xED; 0xA0; 0xBD; 0xED; 0xB8; 0x80] /\
  ToUTF1632 true [0xC0; 0x80] = Throws /\ ToUTF1632 true [0x61; 0xE2; 0x82] = Text [0x61].
Proof.
  assert (Hs : Forall scalar ex_text) by (unfold ex_text, scalar; repeat constructor; lia).
  split; [apply (spells_exists utf8 put_utf8); [intros c [Hc _]; apply put_utf8_ok; lia|exact Hs]|].
  split; [apply (spells_exists utf16 put_utf16 put_utf16_ok ex_text Hs)|]. repeat split; reflexivity.
Qed.
