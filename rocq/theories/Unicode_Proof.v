From Verif Require Import Base HalfFloat_Proof Unicode_Model Unicode_Spec.

Lemma cont_spec b : is_byte b -> cont b = ((0x80 <=? b) && (b <? 0xC0)).
Proof.
  intros H. assert (G : forall w, 0 <= w < 256 -> Bool.eqb (cont w) ((0x80 <=? w) && (w <? 0xC0)) = true) by (apply all_below; vm_compute; reflexivity).
  apply Bool.eqb_prop, G, H.
Qed.
Lemma cont_tail b : tail b -> cont b = true.
Proof. intros H. unfold tail in H. rewrite cont_spec by (unfold is_byte; lia). lia. Qed.
Lemma tail_cont b : is_byte b -> cont b = true -> tail b.
Proof. intros Hb H. rewrite cont_spec in H by exact Hb. unfold tail. lia. Qed.

Lemma land3f x : Z.land x 0x3F = x mod 64.
Proof. change 0x3F with (Z.ones 6). now rewrite Z.land_ones by lia. Qed.
Lemma land3ff x : Z.land x 0x3FF = x mod 1024.
Proof. change 0x3FF with (Z.ones 10). now rewrite Z.land_ones by lia. Qed.
Ltac shifts := rewrite ?land3f, ?land3ff, ?Z.shiftr_div_pow2, ?Z.shiftl_mul_pow2 by lia;
  change (2 ^ 6) with 64 in *; change (2 ^ 12) with 4096 in *; change (2 ^ 18) with 262144 in *; change (2 ^ 10) with 1024 in *.

Lemma put_utf8_ok c : 0 <= c < 0x110000 -> utf8 c (put_utf8 c).
Proof.
  intros H. unfold put_utf8. shifts.
  destruct (Z.ltb_spec c 0x80); [constructor; lia|]. destruct (Z.leb_spec c 0x7FF); [|destruct (Z.leb_spec c 0xFFFF)].
  - assert (E : c = (c / 64 + 0xC0 - 0xC0) * 64 + (c mod 64 + 0x80 - 0x80)) by lia. rewrite E at 1. constructor; unfold tail; lia.
  - assert (E : c = ((c / 4096 + 0xE0 - 0xE0) * 64 + ((c / 64) mod 64 + 0x80 - 0x80)) * 64 + (c mod 64 + 0x80 - 0x80)) by lia.
    rewrite E at 1. constructor; unfold tail; lia.
  - assert (E : c = (((c / 262144 + 0xF0 - 0xF0) * 64 + ((c / 4096) mod 64 + 0x80 - 0x80)) * 64 + ((c / 64) mod 64 + 0x80 - 0x80)) * 64 + (c mod 64 + 0x80 - 0x80)) by lia.
    rewrite E at 1. constructor; unfold tail; lia.
Qed.

Lemma utf8_unique c p q : utf8 c p -> utf8 c q -> p = q.
Proof.
  intros H1 H2. destruct H1; inversion H2; subst; clear H2; unfold tail in *; repeat match goal with x := _ |- _ => subst x end; try lia; try reflexivity; repeat f_equal; lia.
Qed.
Lemma utf8_put c p : 0 <= c < 0x110000 -> utf8 c p -> p = put_utf8 c.
Proof. intros H1 H2. exact (utf8_unique c _ _ H2 (put_utf8_ok c H1)). Qed.
Lemma utf8_bytes c p : scalar c -> utf8 c p -> bytes_ok p.
Proof. intros [Hs _] H. unfold bytes_ok. inversion H; subst; repeat match goal with x := _ |- _ => subst x end; unfold tail in *; repeat constructor; unfold is_byte; lia. Qed.
Lemma utf8_nonempty c p : utf8 c p -> (1 <= length p)%nat.
Proof. intros H. inversion H; cbn; lia. Qed.

Lemma read_ok strict c p rest : scalar c -> utf8 c p -> read_utf8 strict (p ++ rest) = Got c rest.
Proof.
  intros [Hs Hn] H. inversion H as [c0 R|a b Ra Tb c0 R|a b d Ra Tb Td c0 R|a b d e Ra Tb Td Te c0 R]; subst c p; cbn [app read_utf8].
  - destruct (Z.ltb_spec c0 0x80); [reflexivity|lia].
  - subst c0. destruct (Z.ltb_spec a 0x80); [lia|]. destruct (Z.ltb_spec a 0xC2); [unfold tail in *; lia|]. destruct (Z.ltb_spec a 0xE0); [|lia].
    rewrite (cont_tail b Tb). cbn [negb]. shifts. f_equal. lia.
  - subst c0. unfold tail in *. destruct (Z.ltb_spec a 0x80); [lia|]. destruct (Z.ltb_spec a 0xC2); [lia|]. destruct (Z.ltb_spec a 0xE0); [lia|]. destruct (Z.ltb_spec a 0xF0); [|lia].
    rewrite (cont_tail b Tb), (cont_tail d Td). cbn [negb].
    destruct (Z.eqb_spec a 0xE0), (Z.ltb_spec b 0xA0); cbn [andb]; try lia;
      (destruct strict; cbn [andb]; [destruct (Z.eqb_spec a 0xED), (Z.geb_spec b 0xA0); cbn [andb]; try lia|]; shifts; f_equal; lia).
  - subst c0. unfold tail in *. destruct (Z.ltb_spec a 0x80); [lia|]. destruct (Z.ltb_spec a 0xC2); [lia|]. destruct (Z.ltb_spec a 0xE0); [lia|]. destruct (Z.ltb_spec a 0xF0); [lia|]. destruct (Z.ltb_spec a 0xF5); [|lia].
    rewrite (cont_tail b Tb), (cont_tail d Td), (cont_tail e Te). cbn [negb].
    destruct (Z.eqb_spec a 0xF0), (Z.ltb_spec b 0x90); cbn [andb]; try lia;
      destruct (Z.eqb_spec a 0xF4), (Z.geb_spec b 0x90); cbn [andb]; try lia; shifts; f_equal; lia.
Qed.

Ltac got H := match type of H with Got ?x ?r = Got ?c ?rest =>
  let Ec := fresh in let Er := fresh in assert (Ec : c = x) by congruence; assert (Er : rest = r) by congruence; clear H; rewrite Er, Ec; clear Er Ec end.

Lemma read_sound l c rest : bytes_ok l -> read_utf8 true l = Got c rest -> exists p, l = p ++ rest /\ utf8 c p /\ scalar c.
Proof.
  intros Hb H. unfold read_utf8 in H. destruct l as [|c1 r1]; [discriminate|]. inversion Hb as [|? ? B1 Hb1]; subst. unfold is_byte in B1.
  destruct (Z.ltb_spec c1 0x80).
  { got H. exists [c1]. split; [reflexivity|]. split; [constructor; lia|]. split; lia. }
  destruct (Z.ltb_spec c1 0xC2); [discriminate|]. destruct r1 as [|c2 r2]; [destruct (c1 <? 0xF5); discriminate|].
  inversion Hb1 as [|? ? B2 Hb2]; subst. destruct (Z.ltb_spec c1 0xE0).
  { destruct (cont c2) eqn:C2; cbn [negb] in H; [|discriminate]. apply tail_cont in C2; [|exact B2]. got H. exists [c1; c2]. split; [reflexivity|].
    shifts. unfold tail in *. replace (c1 * 64 + c2 - 0x3080) with ((c1 - 0xC0) * 64 + (c2 - 0x80)) by lia. split; [constructor; unfold tail; lia|]. split; lia. }
  destruct (Z.ltb_spec c1 0xF0).
  { destruct (cont c2) eqn:C2; cbn [negb] in H; [|discriminate]. apply tail_cont in C2; [|exact B2].
    destruct ((c1 =? 0xE0) && (c2 <? 0xA0)) eqn:O; [discriminate|]. cbn [andb] in H. destruct ((c1 =? 0xED) && (c2 >=? 0xA0)) eqn:Su; [discriminate|].
    destruct r2 as [|c3 r3]; [discriminate|]. inversion Hb2 as [|? ? B3 Hb3]; subst. destruct (cont c3) eqn:C3; cbn [negb] in H; [|discriminate]. apply tail_cont in C3; [|exact B3].
    got H. exists [c1; c2; c3]. split; [reflexivity|]. shifts. unfold tail in *.
    replace (c1 * 4096 + c2 * 64 + c3 - 0xE2080) with (((c1 - 0xE0) * 64 + (c2 - 0x80)) * 64 + (c3 - 0x80)) by lia.
    split; [constructor; unfold tail; lia|]. split; lia. }
  destruct (Z.ltb_spec c1 0xF5); [|discriminate].
  destruct (cont c2) eqn:C2; cbn [negb] in H; [|discriminate]. apply tail_cont in C2; [|exact B2].
  destruct ((c1 =? 0xF0) && (c2 <? 0x90)) eqn:O; [discriminate|]. destruct ((c1 =? 0xF4) && (c2 >=? 0x90)) eqn:Su; [discriminate|].
  destruct r2 as [|c3 r3]; [discriminate|]. inversion Hb2 as [|? ? B3 Hb3]; subst. destruct (cont c3) eqn:C3; cbn [negb] in H; [|discriminate]. apply tail_cont in C3; [|exact B3].
  destruct r3 as [|c4 r4]; [discriminate|]. inversion Hb3 as [|? ? B4 Hb4]; subst. destruct (cont c4) eqn:C4; cbn [negb] in H; [|discriminate]. apply tail_cont in C4; [|exact B4].
  got H. exists [c1; c2; c3; c4]. split; [reflexivity|]. shifts. unfold tail in *.
  replace (c1 * 262144 + c2 * 4096 + c3 * 64 + c4 - 0x3C82080) with ((((c1 - 0xF0) * 64 + (c2 - 0x80)) * 64 + (c3 - 0x80)) * 64 + (c4 - 0x80)) by lia.
  split; [constructor; unfold tail; lia|]. split; lia.
Qed.

Lemma put_utf16_ok c : scalar c -> utf16 c (put_utf16 c).
Proof.
  intros [H _]. unfold put_utf16. destruct (Z.leb_spec c 0xFFFF); [constructor; lia|]. change (Z.shiftr 0x10000 10) with 64. shifts.
  assert (E : c = 0x10000 + (0xD800 - 64 + c / 1024 - 0xD800) * 1024 + (0xDC00 + c mod 1024 - 0xDC00)) by lia. rewrite E at 1. constructor; lia.
Qed.
Lemma utf16_unique c p q : utf16 c p -> utf16 c q -> p = q.
Proof.
  intros H1 H2. destruct H1 as [c R|h l Rh Rl].
  - inversion H2 as [c0 R0|h0 l0 Rh0 Rl0 E0]; subst; [reflexivity|lia].
  - remember (0x10000 + (h - 0xD800) * 1024 + (l - 0xDC00)) as x eqn:Ex. destruct H2 as [c0 R0|h0 l0 Rh0 Rl0]; [lia|]. f_equal; [lia|]. f_equal. lia.
Qed.
Lemma utf16_put c p : scalar c -> utf16 c p -> p = put_utf16 c.
Proof. intros Hs H. exact (utf16_unique c _ _ H (put_utf16_ok c Hs)). Qed.

Lemma spells_cons form c text units : spells form (c :: text) units -> scalar c /\ exists p rest, form c p /\ units = p ++ rest /\ spells form text rest.
Proof.
  intros [Hs (parts & F & E)]. inversion Hs; subst. inversion F; subst. split; [assumption|]. eexists _, _. split; [eassumption|]. split; [reflexivity|]. split; [assumption|]. eexists; split; [eassumption|reflexivity].
Qed.
Lemma spells_nil form units : spells form [] units -> units = [].
Proof. intros [_ (parts & F & E)]. inversion F; subst. reflexivity. Qed.
Lemma spells_cons_intro (form : Z -> list Z -> Prop) c p text units : scalar c -> form c p -> spells form text units -> spells form (c :: text) (p ++ units).
Proof. intros Hc Hp [Hs (parts & F & ->)]. split; [constructor; assumption|]. exists (p :: parts). split; [constructor; assumption|reflexivity]. Qed.
Lemma spells_exists (form : Z -> list Z -> Prop) (f : Z -> list Z) : (forall c, scalar c -> form c (f c)) -> forall text, Forall scalar text -> spells form text (flat_map f text).
Proof. intros H text. induction text as [|c text IH]; intros Hs; [split; [constructor|exists []; split; [constructor|reflexivity]]|]. inversion Hs; subst. cbn [flat_map]. apply spells_cons_intro; auto. Qed.
Lemma spells_is (form : Z -> list Z -> Prop) (f : Z -> list Z) : (forall c p, scalar c -> form c p -> p = f c) -> forall text units, spells form text units -> units = flat_map f text.
Proof.
  intros H text. induction text as [|c text IH]; intros units Hs; [exact (spells_nil _ _ Hs)|]. apply spells_cons in Hs as (Hc & p & rest & Hp & -> & Hr). cbn [flat_map]. rewrite (IH _ Hr). f_equal. apply H; assumption.
Qed.

Lemma from_utf8_more strict : forall text units fuel tl, spells utf8 text units -> (length units <= fuel)%nat -> 
  utf8_to_utf16 strict (fuel + length tl) (units ++ tl) = match utf8_to_utf16 strict (fuel + length tl - length text) tl with Text l => Text (flat_map put_utf16 text ++ l) | r => r end.
Proof.
  induction text as [|c text IH]; intros units fuel tl Hs Hf.
  - rewrite (spells_nil _ _ Hs). cbn [app length flat_map]. rewrite Nat.sub_0_r. destruct (utf8_to_utf16 strict (fuel + length tl) tl); reflexivity.
  - apply spells_cons in Hs as (Hc & p & rest & Hp & -> & Hr). pose proof (utf8_nonempty _ _ Hp) as Hl. rewrite app_length in Hf.
    destruct fuel as [|fuel]; [lia|]. rewrite <- app_assoc. cbn [utf8_to_utf16 Nat.add].
    destruct p as [|b p]; [cbn in Hl; lia|]. cbn [app]. change (b :: p ++ rest ++ tl) with ((b :: p) ++ (rest ++ tl)). rewrite (read_ok strict c _ _ Hc Hp).
    rewrite (IH rest fuel tl Hr) by (cbn in Hf; lia). cbn [length Nat.sub]. 
    destruct (utf8_to_utf16 strict (fuel + length tl - length text) tl); try reflexivity. cbn [flat_map]. now rewrite app_assoc.
Qed.

Lemma fuel_irrel strict : forall f1 f2 l, (length l <= f1)%nat -> (length l <= f2)%nat -> bytes_ok l -> utf8_to_utf16 strict f1 l = utf8_to_utf16 strict f2 l.
Proof.
  assert (Dec : forall l c rest, read_utf8 strict l = Got c rest -> (length rest < length l)%nat /\ (bytes_ok l -> bytes_ok rest)).
  { intros l c rest H. unfold read_utf8 in H. destruct l as [|c1 r1]; [discriminate|].
    destruct (c1 <? 0x80); [injection H as <- <-; cbn; split; [lia|intros B; inversion B; assumption]|]. destruct (c1 <? 0xC2); [discriminate|].
    destruct r1 as [|c2 r2]; [destruct (c1 <? 0xF5); discriminate|]. destruct (c1 <? 0xE0).
    { destruct (negb (cont c2)); [discriminate|]. injection H as <- <-. cbn. split; [lia|]. intros B. inversion B as [|? ? _ B']; inversion B'; assumption. }
    destruct (c1 <? 0xF0).
    { destruct (negb (cont c2)); [discriminate|]. destruct ((c1 =? 0xE0) && (c2 <? 0xA0)); [discriminate|]. destruct (strict && (c1 =? 0xED) && (c2 >=? 0xA0)); [discriminate|].
      destruct r2 as [|c3 r3]; [discriminate|]. destruct (negb (cont c3)); [discriminate|]. injection H as <- <-. cbn. split; [lia|]. intros B. inversion B as [|? ? _ B']; inversion B' as [|? ? _ B2]; inversion B2; assumption. }
    destruct (c1 <? 0xF5); [|discriminate]. destruct (negb (cont c2)); [discriminate|]. destruct ((c1 =? 0xF0) && (c2 <? 0x90)); [discriminate|]. destruct ((c1 =? 0xF4) && (c2 >=? 0x90)); [discriminate|].
    destruct r2 as [|c3 r3]; [discriminate|]. destruct (negb (cont c3)); [discriminate|]. destruct r3 as [|c4 r4]; [discriminate|]. destruct (negb (cont c4)); [discriminate|].
    injection H as <- <-. cbn. split; [lia|]. intros B. inversion B as [|? ? _ B']; inversion B' as [|? ? _ B2]; inversion B2 as [|? ? _ B3]; inversion B3; assumption. }
  induction f1 as [|f1 IH]; intros f2 l H1 H2 Hb.
  - destruct l; [|cbn in H1; lia]. destruct f2; reflexivity.
  - destruct f2 as [|f2]; [destruct l; [reflexivity|cbn in H2; lia]|]. destruct l as [|b l]; [reflexivity|]. cbn [utf8_to_utf16].
    destruct (read_utf8 strict (b :: l)) as [c rest| |] eqn:R; try reflexivity. destruct (Dec _ _ _ R) as [D1 D2]. cbn [length] in *. rewrite (IH f2 rest) by (try lia; auto). reflexivity.
Qed.

Lemma utf16_units text units : spells utf16 text units -> units = flat_map put_utf16 text.
Proof. apply spells_is. exact utf16_put. Qed.
Lemma utf8_units text units : spells utf8 text units -> units = flat_map put_utf8 text.
Proof. apply spells_is. intros c p [Hc _] H. apply utf8_put; [lia|exact H]. Qed.

Lemma to_utf8_32 strict text : Forall scalar text -> utf32_to_utf8 strict text = Text (flat_map put_utf8 text).
Proof.
  induction 1 as [|c text [Hc Hn] Hs IH]; [reflexivity|]. cbn [utf32_to_utf8 flat_map]. destruct (Z.ltb_spec 0x10FFFF c); [lia|].
  replace (is_surrogate c) with false by (unfold is_surrogate; lia). rewrite andb_false_r, IH. reflexivity.
Qed.
Lemma from_utf16 : forall text units tl, spells utf16 text units -> utf16_to_utf8 (units ++ tl) = match utf16_to_utf8 tl with Text l => Text (flat_map put_utf8 text ++ l) | r => r end.
Proof.
  induction text as [|c text IH]; intros units tl Hs.
  - rewrite (spells_nil _ _ Hs). cbn. destruct (utf16_to_utf8 tl); reflexivity.
  - apply spells_cons in Hs as ([Hc Hn] & p & rest & Hp & -> & Hr). inversion Hp as [c0 R|h l Rh Rl]; subst; cbn [app utf16_to_utf8].
    + destruct (Z.leb_spec 0xD800 c); cbn [andb].
      * destruct (Z.leb_spec c 0xDBFF); [lia|]. destruct (Z.leb_spec 0xDC00 c); cbn [andb]; [destruct (Z.leb_spec c 0xDFFF); [lia|]|]; rewrite (IH _ _ Hr); destruct (utf16_to_utf8 tl); cbn [flat_map]; rewrite <- ?app_assoc; reflexivity.
      * destruct (Z.leb_spec 0xDC00 c); cbn [andb]; [lia|]. rewrite (IH _ _ Hr); destruct (utf16_to_utf8 tl); cbn [flat_map]; rewrite <- ?app_assoc; reflexivity.
    + destruct (Z.leb_spec 0xD800 h); [|lia]. destruct (Z.leb_spec h 0xDBFF); [|lia]. cbn [andb].
      destruct (Z.leb_spec 0xDC00 l); [|lia]. destruct (Z.leb_spec l 0xDFFF); [|lia]. cbn [andb]. rewrite (IH _ _ Hr). destruct (utf16_to_utf8 tl); try reflexivity.
      cbn [flat_map]. rewrite <- app_assoc. do 2 f_equal. f_equal. shifts. lia.
Qed.

Lemma byte_part text units tl : spells utf8 text units -> bytes_ok tl -> bytes_ok (units ++ tl).
Proof.
  revert units. induction text as [|c text IH]; intros units Hs Ht; [rewrite (spells_nil _ _ Hs); exact Ht|].
  apply spells_cons in Hs as (Hc & p & rest & Hp & -> & Hr). rewrite <- app_assoc. unfold bytes_ok. apply Forall_app. split; [exact (utf8_bytes c p Hc Hp)|exact (IH _ Hr Ht)].
Qed.
Lemma text_len text units : spells utf8 text units -> (length text <= length units)%nat.
Proof.
  revert units. induction text as [|c text IH]; intros units Hs; [cbn; lia|]. apply spells_cons in Hs as (Hc & p & rest & Hp & -> & Hr).
  specialize (IH _ Hr). pose proof (utf8_nonempty _ _ Hp). rewrite app_length. cbn [length]. lia.
Qed.
Lemma wide_more strict text units tl : spells utf8 text units -> bytes_ok tl ->
  ToUTF1632 strict (units ++ tl) = match ToUTF1632 strict tl with Text l => Text (flat_map put_utf16 text ++ l) | r => r end.
Proof.
  intros Hs Ht. unfold ToUTF1632. rewrite app_length, (from_utf8_more strict text units (length units) tl Hs) by lia.
  pose proof (text_len _ _ Hs). rewrite (fuel_irrel strict _ (length tl) tl) by (auto; lia). reflexivity.
Qed.
Lemma wide_ok strict text units : spells utf8 text units -> ToUTF1632 strict units = Text (flat_map put_utf16 text).
Proof. intros Hs. rewrite <- (app_nil_r units), (wide_more strict text units [] Hs) by constructor. cbn. now rewrite app_nil_r. Qed.

(** a proper beginning of a character's sequence *)
Definition cut_short (tl : list Z) : Prop := tl <> [] /\ exists c more, scalar c /\ more <> [] /\ utf8 c (tl ++ more).
Lemma incomplete_cut tl : bytes_ok tl -> tl <> [] -> (read_utf8 true tl = Incomplete <-> cut_short tl).
Proof.
  intros Hb Hne. split.
  - intros H. split; [exact Hne|]. unfold read_utf8 in H. destruct tl as [|c1 r1]; [contradiction|]. inversion Hb as [|? ? B1 Hb1]; subst. unfold is_byte in B1.
    destruct (Z.ltb_spec c1 0x80); [discriminate|]. destruct (Z.ltb_spec c1 0xC2); [discriminate|]. destruct r1 as [|c2 r2].
    { destruct (Z.ltb_spec c1 0xF5); [|discriminate]. destruct (Z_lt_dec c1 0xE0); [|destruct (Z_lt_dec c1 0xF0)].
      - exists ((c1 - 0xC0) * 64 + (0x80 - 0x80)), [0x80]. split; [split; lia|]. split; [discriminate|]. cbn [app]. constructor; unfold tail; lia.
      - set (b := if c1 =? 0xE0 then 0xA0 else 0x80). assert (Hbb : b = 0xA0 /\ c1 = 0xE0 \/ b = 0x80 /\ c1 <> 0xE0) by (unfold b; destruct (Z.eqb_spec c1 0xE0); auto). clearbody b.
        exists (((c1 - 0xE0) * 64 + (b - 0x80)) * 64 + (0x80 - 0x80)), [b; 0x80]. split; [split; lia|]. split; [discriminate|]. cbn [app]. constructor; unfold tail; lia.
      - set (b := if c1 =? 0xF0 then 0x90 else 0x80). assert (Hbb : b = 0x90 /\ c1 = 0xF0 \/ b = 0x80 /\ c1 <> 0xF0) by (unfold b; destruct (Z.eqb_spec c1 0xF0); auto). clearbody b.
        exists ((((c1 - 0xF0) * 64 + (b - 0x80)) * 64 + (0x80 - 0x80)) * 64 + (0x80 - 0x80)), [b; 0x80; 0x80]. split; [split; lia|]. split; [discriminate|]. cbn [app]. constructor; unfold tail; lia. }
    inversion Hb1 as [|? ? B2 Hb2]; subst. destruct (Z.ltb_spec c1 0xE0); [destruct (negb (cont c2)); discriminate|]. destruct (Z.ltb_spec c1 0xF0).
    { destruct (cont c2) eqn:C2; cbn [negb] in H; [|discriminate]. apply tail_cont in C2; [|exact B2].
      destruct ((c1 =? 0xE0) && (c2 <? 0xA0)) eqn:O; [discriminate|]. cbn [andb] in H. destruct ((c1 =? 0xED) && (c2 >=? 0xA0)) eqn:Su; [discriminate|].
      destruct r2 as [|c3 r3]; [|destruct (negb (cont c3)); discriminate]. unfold tail in C2.
      exists (((c1 - 0xE0) * 64 + (c2 - 0x80)) * 64 + (0x80 - 0x80)), [0x80]. split; [split; lia|]. split; [discriminate|]. cbn [app]. constructor; unfold tail; lia. }
    destruct (Z.ltb_spec c1 0xF5); [|discriminate]. destruct (cont c2) eqn:C2; cbn [negb] in H; [|discriminate]. apply tail_cont in C2; [|exact B2].
    destruct ((c1 =? 0xF0) && (c2 <? 0x90)) eqn:O; [discriminate|]. destruct ((c1 =? 0xF4) && (c2 >=? 0x90)) eqn:Su; [discriminate|]. unfold tail in C2.
    destruct r2 as [|c3 r3].
    { exists ((((c1 - 0xF0) * 64 + (c2 - 0x80)) * 64 + (0x80 - 0x80)) * 64 + (0x80 - 0x80)), [0x80; 0x80]. split; [split; lia|]. split; [discriminate|]. cbn [app]. constructor; unfold tail; lia. }
    inversion Hb2 as [|? ? B3 Hb3]; subst. destruct (cont c3) eqn:C3; cbn [negb] in H; [|discriminate]. apply tail_cont in C3; [|exact B3]. unfold tail in C3.
    destruct r3 as [|c4 r4]; [|destruct (negb (cont c4)); discriminate].
    exists ((((c1 - 0xF0) * 64 + (c2 - 0x80)) * 64 + (c3 - 0x80)) * 64 + (0x80 - 0x80)), [0x80]. split; [split; lia|]. split; [discriminate|]. cbn [app]. constructor; unfold tail; lia.
  - intros (_ & c & more & [Hs Hn] & Hm & Hu). unfold read_utf8. destruct tl as [|c1 r1]; [contradiction|]. cbn [app] in Hu.
    destruct more as [|m more]; [contradiction|].
    inversion Hu as [? R E1 E2|a b Ra Tb c0 R E1 E2|a b d Ra Tb Td c0 R E1 E2|a b d e Ra Tb Td Te c0 R E1 E2]; repeat match goal with x := _ |- _ => subst x end; unfold tail in *.
    + destruct r1; discriminate.
    + destruct r1 as [|c2 r1]; cbn [app] in *; [|destruct r1; cbn [app] in *; [congruence|congruence]].
      subst a. destruct (Z.ltb_spec c1 0x80); [lia|]. destruct (Z.ltb_spec c1 0xC2); [lia|]. destruct (Z.ltb_spec c1 0xF5); [reflexivity|lia].
    + subst a. destruct (Z.ltb_spec c1 0x80); [lia|]. destruct (Z.ltb_spec c1 0xC2); [lia|]. destruct r1 as [|c2 r1]; cbn [app] in *; [destruct (Z.ltb_spec c1 0xF5); [reflexivity|lia]|].
      destruct r1 as [|c3 r1]; cbn [app] in *; [|destruct r1; cbn [app] in *; congruence]. assert (b = c2) by congruence. subst b.
      destruct (Z.ltb_spec c1 0xE0); [lia|]. destruct (Z.ltb_spec c1 0xF0); [|lia]. rewrite (cont_tail c2) by (unfold tail; lia). cbn [negb andb].
      destruct (Z.eqb_spec c1 0xE0), (Z.ltb_spec c2 0xA0); cbn [andb]; try lia; destruct (Z.eqb_spec c1 0xED), (Z.geb_spec c2 0xA0); cbn [andb]; try lia; reflexivity.
    + subst a. destruct (Z.ltb_spec c1 0x80); [lia|]. destruct (Z.ltb_spec c1 0xC2); [lia|]. destruct r1 as [|c2 r1]; cbn [app] in *; [destruct (Z.ltb_spec c1 0xF5); [reflexivity|lia]|].
      assert (b = c2) by congruence. subst b. destruct (Z.ltb_spec c1 0xE0); [lia|]. destruct (Z.ltb_spec c1 0xF0); [lia|]. destruct (Z.ltb_spec c1 0xF5); [|lia].
      rewrite (cont_tail c2) by (unfold tail; lia). cbn [negb].
      assert (G1 : (c1 =? 0xF0) && (c2 <? 0x90) = false) by lia. assert (G2 : (c1 =? 0xF4) && (c2 >=? 0x90) = false) by lia. rewrite G1, G2.
      destruct r1 as [|c3 r1]; cbn [app] in *; [reflexivity|]. assert (d = c3) by congruence. subst d. rewrite (cont_tail c3) by (unfold tail; lia). cbn [negb].
      destruct r1 as [|c4 r1]; cbn [app] in *; [reflexivity|]. destruct r1; cbn [app] in *; congruence.
Qed.

Lemma wide_sound : forall fuel b w, bytes_ok b -> (length b <= fuel)%nat -> utf8_to_utf16 true fuel b = Text w ->
  exists text b' tl, b = b' ++ tl /\ spells utf8 text b' /\ spells utf16 text w /\ (tl = [] \/ cut_short tl).
Proof.
  assert (E : spells utf8 [] [] /\ spells utf16 [] []) by (split; (split; [constructor|exists []; split; [constructor|reflexivity]])).
  induction fuel as [|fuel IH]; intros b w Hb Hf H.
  - cbn [utf8_to_utf16] in H. injection H as <-. destruct b; [|cbn in Hf; lia]. exists [], [], []. split; [reflexivity|]. destruct E as [E1 E2]. auto.
  - destruct b as [|x b]; [cbn in H; injection H as <-; exists [], [], []; split; [reflexivity|]; destruct E; auto|].
    cbn [utf8_to_utf16] in H. destruct (read_utf8 true (x :: b)) as [c rest| |] eqn:R; [| |discriminate].
    + destruct (read_sound _ _ _ Hb R) as (p & Ep & Hp & Hc). pose proof (utf8_nonempty _ _ Hp) as Lp. rewrite Ep in *. apply Forall_app in Hb as [Hb1 Hb2]. rewrite app_length in Hf.
      destruct (utf8_to_utf16 true fuel rest) as [l| |] eqn:Rest; try discriminate. assert (w = put_utf16 c ++ l) by congruence. subst w.
      destruct (IH rest l Hb2 ltac:(lia) Rest) as (text & b' & tl & E1 & E2 & E3 & E4).
      exists (c :: text), (p ++ b'), tl. split; [rewrite <- app_assoc; congruence|]. split; [apply spells_cons_intro; assumption|]. split; [apply spells_cons_intro; auto; apply put_utf16_ok; exact Hc|exact E4].
    + assert (w = []) by congruence. subst w. exists [], [], (x :: b). split; [reflexivity|]. destruct E as [E1 E2]. split; [exact E1|]. split; [exact E2|]. right. apply incomplete_cut; auto; discriminate.
Qed.

Lemma utf16_sound : forall n w b, (length w <= n)%nat -> Forall (is_word 16) w -> utf16_to_utf8 w = Text b ->
  exists text w' tl, w = w' ++ tl /\ spells utf16 text w' /\ spells utf8 text b /\ (tl = [] \/ exists h, tl = [h] /\ 0xD800 <= h < 0xDC00).
Proof.
  assert (E : spells utf8 [] [] /\ spells utf16 [] []) by (split; (split; [constructor|exists []; split; [constructor|reflexivity]])).
  induction n as [|n IH]; intros w b Hl Hw H.
  - destruct w; [|cbn in Hl; lia]. cbn in H. injection H as <-. exists [], [], []. split; [reflexivity|]. destruct E; auto.
  - destruct w as [|c r]; [cbn in H; injection H as <-; exists [], [], []; split; [reflexivity|]; destruct E; auto|].
    inversion Hw as [|? ? W1 Hw1]; subst. unfold is_word in W1. change (2 ^ 16) with 65536 in W1. cbn [utf16_to_utf8 length] in *.
    destruct ((0xD800 <=? c) && (c <=? 0xDBFF)) eqn:Hi.
    + destruct r as [|c2 r2].
      { injection H as <-. exists [], [], [c]. split; [reflexivity|]. destruct E as [E1 E2]. split; [exact E2|]. split; [exact E1|]. right. exists c. split; [reflexivity|lia]. }
      destruct ((0xDC00 <=? c2) && (c2 <=? 0xDFFF)) eqn:Lo; [|discriminate]. destruct (utf16_to_utf8 r2) as [l| |] eqn:Rest; try discriminate.
      inversion Hw1 as [|? ? W2 Hw2]; subst. destruct (IH r2 l ltac:(cbn in Hl; lia) Hw2 Rest) as (text & w' & tl & E1 & E2 & E3 & E4).
      revert H. shifts. intros H. set (v := 0x10000 + (c - 0xD800) * 1024 + (c2 - 0xDC00)).
      assert (Sv : scalar v) by (unfold v; split; lia).
      exists (v :: text), ([c; c2] ++ w'), tl. split; [cbn; congruence|]. split; [apply spells_cons_intro; auto; unfold v; constructor; lia|]. split; [|exact E4].
      assert (Eb : b = put_utf8 v ++ l). { replace v with (c * 1024 + c2 - 0x35FDC00) by (unfold v; lia). congruence. } subst b. apply spells_cons_intro; auto. apply put_utf8_ok. destruct Sv; lia.
    + destruct ((0xDC00 <=? c) && (c <=? 0xDFFF)) eqn:Lo; [discriminate|]. destruct (utf16_to_utf8 r) as [l| |] eqn:Rest; try discriminate.
      destruct (IH r l ltac:(lia) Hw1 Rest) as (text & w' & tl & E1 & E2 & E3 & E4). assert (Sc : scalar c) by (split; lia).
      exists (c :: text), ([c] ++ w'), tl. split; [cbn; congruence|]. split; [apply spells_cons_intro; auto; constructor; lia|]. split; [|exact E4].
      assert (b = put_utf8 c ++ l) by congruence. subst b. apply spells_cons_intro; auto. apply put_utf8_ok. lia.
Qed.

Lemma utf32_sound : forall w b, Forall (is_word 32) w -> utf32_to_utf8 true w = Text b -> spells utf8 w b.
Proof.
  induction w as [|c w IH]; intros b Hw H; [cbn in H; injection H as <-; split; [constructor|exists []; split; [constructor|reflexivity]]|].
  inversion Hw as [|? ? W1 Hw1]; subst. unfold is_word in W1. cbn [utf32_to_utf8] in H. destruct (Z.ltb_spec 0x10FFFF c); [discriminate|]. cbn [andb] in H.
  destruct (is_surrogate c) eqn:S; [discriminate|]. unfold is_surrogate in S. destruct (utf32_to_utf8 true w) as [l| |] eqn:Rest; try discriminate.
  assert (b = put_utf8 c ++ l) by congruence. subst b. apply spells_cons_intro; [split; lia|apply put_utf8_ok; lia|apply IH; auto].
Qed.

(** on a 4-byte wchar_t the surrogate pairs of to_wstring do not convert back *)
Lemma pair_lax text : Forall scalar text -> utf32_to_utf8 false (flat_map put_utf16 text) = Text (flat_map put_utf8 (flat_map put_utf16 text)).
Proof.
  intros Hs. assert (G : forall w, Forall (fun c => 0 <= c < 0x110000) w -> utf32_to_utf8 false w = Text (flat_map put_utf8 w)).
  { induction 1 as [|c w Hc Hw IH]; [reflexivity|]. cbn [utf32_to_utf8 flat_map andb]. destruct (Z.ltb_spec 0x10FFFF c); [lia|]. now rewrite IH. }
  apply G. induction Hs as [|c text [Hc _] Hs IH]; [constructor|]. cbn [flat_map]. apply Forall_app. split; [|exact IH].
  unfold put_utf16. destruct (Z.leb_spec c 0xFFFF); [repeat constructor; lia|]. change (Z.shiftr 0x10000 10) with 64. shifts. repeat constructor; lia.
Qed.
Lemma put_len c : scalar c -> (length (put_utf8 c) <= length (flat_map put_utf8 (put_utf16 c)))%nat /\ (0x10000 <= c -> (length (put_utf8 c) < length (flat_map put_utf8 (put_utf16 c)))%nat).
Proof.
  intros [Hc _]. unfold put_utf16. destruct (Z.leb_spec c 0xFFFF).
  - cbn [flat_map]. rewrite app_nil_r. split; lia.
  - change (Z.shiftr 0x10000 10) with 64. shifts. cbn [flat_map]. rewrite app_nil_r, app_length.
    assert (L4 : length (put_utf8 c) = 4%nat) by (unfold put_utf8; destruct (Z.ltb_spec c 0x80); [lia|]; destruct (Z.leb_spec c 0x7FF); [lia|]; destruct (Z.leb_spec c 0xFFFF); [lia|reflexivity]).
    assert (L3 : forall x, 0xD800 <= x < 0xE000 -> length (put_utf8 x) = 3%nat) by (intros x Hx; unfold put_utf8; destruct (Z.ltb_spec x 0x80); [lia|]; destruct (Z.leb_spec x 0x7FF); [lia|]; destruct (Z.leb_spec x 0xFFFF); [reflexivity|lia]).
    rewrite L4, !L3 by lia. lia.
Qed.
Lemma pair_longer text : Forall scalar text -> (length (flat_map put_utf8 text) <= length (flat_map put_utf8 (flat_map put_utf16 text)))%nat /\
  (Exists (fun c => 0x10000 <= c) text -> (length (flat_map put_utf8 text) < length (flat_map put_utf8 (flat_map put_utf16 text)))%nat).
Proof.
  induction 1 as [|c text Hc Hs [IH1 IH2]]; [split; [cbn; lia|intros H; inversion H]|]. cbn [flat_map]. rewrite flat_map_app, !app_length. destruct (put_len c Hc) as [P1 P2].
  split; [lia|]. intros H. inversion H; subst; [specialize (P2 ltac:(assumption)); lia|specialize (IH2 ltac:(assumption)); lia].
Qed.
Lemma pair_strict text : Forall scalar text -> Exists (fun c => 0x10000 <= c) text -> utf32_to_utf8 true (flat_map put_utf16 text) = Throws.
Proof.
  intros Hs He. induction Hs as [|c text [Hc Hn] Hs IH]; [inversion He|]. cbn [flat_map]. unfold put_utf16 at 1. destruct (Z.leb_spec c 0xFFFF).
  - cbn [app utf32_to_utf8]. destruct (Z.ltb_spec 0x10FFFF c); [lia|]. replace (is_surrogate c) with false by (unfold is_surrogate; lia). cbn [andb]. rewrite IH; [reflexivity|]. inversion He; subst; [lia|assumption].
  - change (Z.shiftr 0x10000 10) with 64. shifts. cbn [app utf32_to_utf8]. destruct (Z.ltb_spec 0x10FFFF (0xD800 - 64 + c / 1024)); [reflexivity|].
    replace (is_surrogate (0xD800 - 64 + c / 1024)) with true; [reflexivity|]. unfold is_surrogate. lia.
Qed.
Lemma bmp_same text : Forall (fun c => c < 0x10000) text -> flat_map put_utf16 text = text.
Proof. induction 1 as [|c text H Ht IH]; [reflexivity|]. cbn [flat_map]. unfold put_utf16 at 1. destruct (Z.leb_spec c 0xFFFF); [|lia]. now rewrite IH. Qed.
Lemma c_str_ok l rest : Forall (fun c => c <> 0) l -> c_str (l ++ 0 :: rest) = l.
Proof. induction 1 as [|c l Hc Hl IH]; [reflexivity|]. cbn [app c_str]. destruct (Z.eqb_spec c 0); [contradiction|]. now rewrite IH. Qed.
