(** C59: the SSE colour-block decoder, formats/BlockDecoderSimd.hpp.
    [fits], [block_written], [field], [number], [word_at], [chan565], [weight] are those of C41 and C52 (Block_Spec). *)
From Verif Require Import Base Reflector_Model Reflector_Spec Reflector_Proof Block_Model Block_Spec Block_Proof BlockSimd_Model BlockSimd_Proof.

Definition block (n : nat) (data : list Z) : Prop := (n <= length data)%nat /\ Forall is_byte data.
(** the palette index a texel carries *)
Definition index (data : list Z) (row col : Z) : Z := field 2 (firstn 4 (skipn 4 data)) (number row col).
(** 3 * max565 k times the exact value of channel k of palette entry i on the scale 0..255 *)
Definition exact (w1 w2 i : Z) (k : nat) : Z := 255 * ((3 - weight i) * chan565 w1 k + weight i * chan565 w2 k).
Definition within (tol w1 w2 i : Z) (k : nat) (v : Z) : Prop := Z.abs (3 * max565 k * v - exact w1 w2 i k) <= tol * (3 * max565 k).
(** channel k of a colour is in the upper half of its range *)
Definition upper (w : Z) (k : nat) : bool := max565 k <? 2 * chan565 w k.

(** *** Where it writes *)
(** Exactly the sixteen texels are written; texels with the same index get the same three bytes,
    which depend on nothing but the two end points and that index. *)
Theorem C59_texels : forall data, block 8 data -> exists pal : Z -> list Z,
  (forall i, length (pal i) = 3%nat /\ Forall is_byte (pal i)) /\
  (forall data', block 8 data' -> firstn 4 data' = firstn 4 data ->
   forall buf w h width, fits w h width 3 buf -> exists buf', SDecodeBC1Block data' buf w h width 3 = Some buf' /\
    block_written 0 3 w h width 3 (fun row col => pal (index data' row col)) buf buf').
Proof.
  intros data (L & B). exists (entry_bytes (le_value (firstn 4 data))). split.
  - intros i. split; [apply entry_length|]. unfold entry_bytes. cbn [le_bytes firstn]. repeat (constructor; [unfold is_byte; apply Z.mod_pos_bound; lia|]). constructor.
  - intros data' (L' & B') E buf w h width HF. rewrite <- E. apply (simd_ok data' buf w h width L' B' HF).
Qed.
Print Assumptions C59_texels.

(** *** What it writes *)
Lemma fields raw : 0 <= raw < 2 ^ 32 -> exists c0 g0 r0 c1 g1 r1, 0 <= c0 < 32 /\ 0 <= g0 < 64 /\ 0 <= r0 < 32 /\ 0 <= c1 < 32 /\ 0 <= g1 < 64 /\ 0 <= r1 < 32 /\
  raw = c0 + 32 * g0 + 2048 * r0 + 65536 * (c1 + 32 * g1 + 2048 * r1).
Proof.
  intros H. exists (raw mod 32), ((raw / 32) mod 64), ((raw / 2048) mod 32), ((raw / 65536) mod 32), ((raw / 2097152) mod 64), (raw / 134217728).
  change (2 ^ 32) with 4294967296 in H. lia.
Qed.
Definition sg (x : Z) : Z := if x <? 128 then x else x - 256.
Lemma sg_ok x : 0 <= x < 256 -> sgn 8 x = sg x.
Proof. intros H. unfold sgn, wrap, sg. change (2 ^ 8) with 256. change (8 - 1) with 7. change (2 ^ 7) with 128. rewrite !Z.mod_small by lia. reflexivity. Qed.
Definition mixed (i s t : Z) : Z := match i with 0 => s | 1 => t | 2 => (s * 170 + t * 85) / 256 | _ => (s * 85 + t * 170) / 256 end.

Lemma entry_values raw i c0 g0 r0 c1 g1 r1 : 0 <= c0 < 32 -> 0 <= g0 < 64 -> 0 <= r0 < 32 -> 0 <= c1 < 32 -> 0 <= g1 < 64 -> 0 <= r1 < 32 ->
  raw = c0 + 32 * g0 + 2048 * r0 + 65536 * (c1 + 32 * g1 + 2048 * r1) ->
  let A := mixed i (sg (8 * c0)) (sg (8 * c1 + r0 / 4)) in
  let B := mixed i (sg (4 * g0 + c0 / 8)) (sg (4 * g1 + c1 / 8)) in
  let C := mixed i (sg (8 * r0 + g0 / 8)) (sg (8 * r1 + g1 / 8)) in
  entry_bytes raw i = [A mod 256; (B + A / 256) mod 256; (C + (B + A / 256) / 256) mod 256].
Proof.
  intros H0 H1 H2 H3 H4 H5 E A B C.
  assert (X0 : sgn 8 (raw_byte raw 0 0) = sg (8 * c0)) by (rewrite sg_ok; unfold raw_byte; [f_equal; lia|lia]).
  assert (X1 : sgn 8 (raw_byte raw 0 1) = sg (4 * g0 + c0 / 8)) by (rewrite sg_ok; unfold raw_byte; [f_equal; lia|lia]).
  assert (X2 : sgn 8 (raw_byte raw 0 2) = sg (8 * r0 + g0 / 8)) by (rewrite sg_ok; unfold raw_byte; [f_equal; lia|lia]).
  assert (Y0 : sgn 8 (raw_byte raw 1 0) = sg (8 * c1 + r0 / 4)) by (rewrite sg_ok; unfold raw_byte; change (2 ^ 13) with 8192; [f_equal; lia|lia]).
  assert (Y1 : sgn 8 (raw_byte raw 1 1) = sg (4 * g1 + c1 / 8)) by (rewrite sg_ok; unfold raw_byte; change (2 ^ 19) with 524288; [f_equal; lia|lia]).
  assert (Y2 : sgn 8 (raw_byte raw 1 2) = sg (8 * r1 + g1 / 8)) by (rewrite sg_ok; unfold raw_byte; change (2 ^ 24) with 16777216; [f_equal; lia|lia]).
  assert (W : entry_word raw i = A + 256 * B + 65536 * C) by (unfold entry_word, comp; rewrite X0, X1, X2, Y0, Y1, Y2; reflexivity).
  unfold entry_bytes. rewrite W. clearbody A B C. clear. cbn [le_bytes firstn]. unfold wrap. change (2 ^ 32) with 4294967296.
  assert (L3 : forall x y z x' y' z' : Z, x = x' -> y = y' -> z = z' -> [x; y; z] = [x'; y'; z']) by (intros; subst; reflexivity).
  apply L3; lia.
Qed.

Lemma words data c0 g0 r0 c1 g1 r1 : block 8 data -> 0 <= c0 < 32 -> 0 <= g0 < 64 -> 0 <= r0 < 32 -> 0 <= c1 < 32 -> 0 <= g1 < 64 -> 0 <= r1 < 32 ->
  le_value (firstn 4 data) = c0 + 32 * g0 + 2048 * r0 + 65536 * (c1 + 32 * g1 + 2048 * r1) ->
  (forall k, chan565 (word_at data 0) k = match k with O => c0 | 1%nat => g0 | _ => r0 end) /\
  (forall k, chan565 (word_at data 2) k = match k with O => c1 | 1%nat => g1 | _ => r1 end).
Proof.
  intros (L & HB) H0 H1 H2 H3 H4 H5 E. do 4 (destruct data as [|? data]; [cbn in L; lia|]).
  do 4 (inversion_clear HB as [|? ? ? HB']; rename HB' into HB). unfold is_byte in *. cbn [firstn le_value] in E. unfold word_at. cbn [skipn firstn le_value].
  split; intros [|[|k]]; unfold chan565; lia.
Qed.

Lemma mix_same s t x y i : 0 <= x < 256 -> 0 <= y < 256 -> s = sg x -> t = sg y -> 2 <= i < 4 -> (x <? 128) = (y <? 128) ->
  let u := if i =? 2 then (170 * x + 85 * y) / 256 else (85 * x + 170 * y) / 256 in
  mixed i s t = (if x <? 128 then u else u - 255).
Proof.
  intros Hx Hy -> -> Hi H u. unfold u, sg. rewrite <- H. assert (C : i = 2 \/ i = 3) by lia.
  destruct C as [-> | ->]; cbn [mixed Z.eqb Pos.eqb]; destruct (Z.ltb_spec x 128); lia.
Qed.

Lemma half5 c : (31 <? 2 * c) = negb (c <? 16). Proof. destruct (Z.ltb_spec 31 (2 * c)), (Z.ltb_spec c 16); cbn; lia. Qed.
Lemma half6 c : (63 <? 2 * c) = negb (c <? 32). Proof. destruct (Z.ltb_spec 63 (2 * c)), (Z.ltb_spec c 32); cbn; lia. Qed.
Lemma half8 c l m : 0 <= l < m -> m = 8 -> (m * c + l <? 128) = (c <? 16).
Proof. intros H ->. destruct (Z.ltb_spec (8 * c + l) 128), (Z.ltb_spec c 16); lia. Qed.
Lemma half4 c l : 0 <= l < 4 -> (4 * c + l <? 128) = (c <? 32).
Proof. intros H. destruct (Z.ltb_spec (4 * c + l) 128), (Z.ltb_spec c 32); lia. Qed.

Lemma ends_near c0 g0 r0 c1 g1 r1 : 0 <= c0 < 32 -> 0 <= g0 < 64 -> 0 <= r0 < 32 -> 0 <= c1 < 32 -> 0 <= g1 < 64 -> 0 <= r1 < 32 ->
  forall x y z, x = 8 * c0 \/ x = 8 * c0 + r1 / 4 -> y = 4 * g0 + c0 / 8 -> z = 8 * r0 + g0 / 8 ->
  let A := sg x in let B := sg y in let C := sg z in
  let v0 := A mod 256 in let v1 := (B + A / 256) mod 256 in let v2 := (C + (B + A / 256) / 256) mod 256 in
  Z.abs (31 * v0 - 255 * c0) <= 9 * 31 /\ Z.abs (63 * v1 - 255 * g0) <= 9 * 63 /\ Z.abs (31 * v2 - 255 * r0) <= 9 * 31.
Proof.
  intros H0 H1 H2 H3 H4 H5 x y z Hx Hy Hz A B C v0 v1 v2.
  assert (a0 : 0 <= x < 256) by lia. assert (b0 : 0 <= y < 256) by lia. assert (e0 : 0 <= z < 256) by lia.
  assert (V0 : v0 = x) by (unfold v0, A, sg; destruct (Z.ltb_spec x 128); lia).
  assert (Q0 : A / 256 = if x <? 128 then 0 else -1) by (unfold A, sg; destruct (Z.ltb_spec x 128); lia).
  assert (V1 : v1 = y - if x <? 128 then 0 else 1) by (unfold v1; rewrite Q0; unfold B, sg; destruct (Z.ltb_spec x 128), (Z.ltb_spec y 128); lia).
  assert (Q1 : (B + A / 256) / 256 = if y <? 128 then 0 else -1) by (rewrite Q0; unfold B, sg; destruct (Z.ltb_spec x 128), (Z.ltb_spec y 128); lia).
  assert (V2 : v2 = z - if y <? 128 then 0 else 1) by (unfold v2; rewrite Q1; unfold C, sg; destruct (Z.ltb_spec y 128), (Z.ltb_spec z 128); lia).
  rewrite V0, V1, V2. clearbody v0 v1 v2 A B C. clear V0 V1 V2 Q0 Q1. destruct (x <? 128), (y <? 128); lia.
Qed.

(** one channel of a mixed colour whose end points lie in the same half, [br] borrowed by the channel below *)
Lemma same_half i x y br : 2 <= i < 4 -> 0 <= x < 256 -> 0 <= y < 256 -> (x <? 128) = (y <? 128) ->
  br = 0 \/ (br = 1 /\ 2 <= x /\ 2 <= y) ->
  let u := if i =? 2 then (170 * x + 85 * y) / 256 else (85 * x + 170 * y) / 256 in
  let M := mixed i (sg x) (sg y) in
  (M - br) mod 256 = u - br + (if x <? 128 then 0 else 1) /\ (M - br) / 256 = if x <? 128 then 0 else -1.
Proof.
  intros Hi Hx Hy H Hb u M. pose proof (mix_same _ _ x y i Hx Hy eq_refl eq_refl Hi H) as E. cbv zeta in E. fold u in E. fold M in E.
  assert (U : 0 <= u <= 254) by (unfold u; destruct (i =? 2); lia).
  assert (U1 : br <= u) by (unfold u; destruct (i =? 2); lia).
  assert (U2 : 128 <= x -> 127 <= u) by (intros; unfold u; destruct (Z.ltb_spec x 128), (Z.ltb_spec y 128); try discriminate; destruct (i =? 2); lia).
  assert (U3 : x < 128 -> u <= 127) by (intros; unfold u; destruct (Z.ltb_spec x 128), (Z.ltb_spec y 128); try discriminate; destruct (i =? 2); lia).
  rewrite E. clearbody u M. destruct (Z.ltb_spec x 128); lia.
Qed.

Lemma mixed_near i c0 g0 r0 c1 g1 r1 : 2 <= i < 4 -> 0 <= c0 < 32 -> 0 <= g0 < 64 -> 0 <= r0 < 32 -> 0 <= c1 < 32 -> 0 <= g1 < 64 -> 0 <= r1 < 32 ->
  (c0 <? 16) = (c1 <? 16) -> (g0 <? 32) = (g1 <? 32) -> (r0 <? 16) = (r1 <? 16) ->
  let A := mixed i (sg (8 * c0)) (sg (8 * c1 + r0 / 4)) in
  let B := mixed i (sg (4 * g0 + c0 / 8)) (sg (4 * g1 + c1 / 8)) in
  let C := mixed i (sg (8 * r0 + g0 / 8)) (sg (8 * r1 + g1 / 8)) in
  let v0 := A mod 256 in let v1 := (B + A / 256) mod 256 in let v2 := (C + (B + A / 256) / 256) mod 256 in
  let E a b := 255 * ((3 - weight i) * a + weight i * b) in
  Z.abs (93 * v0 - E c0 c1) <= 9 * 93 /\ Z.abs (189 * v1 - E g0 g1) <= 9 * 189 /\ Z.abs (93 * v2 - E r0 r1) <= 9 * 93.
Proof.
  intros Hi H0 H1 H2 H3 H4 H5 Kc Kg Kr A B C v0 v1 v2 E.
  destruct (same_half i (8 * c0) (8 * c1 + r0 / 4) 0 Hi ltac:(lia) ltac:(lia)) as [P0 Q0].
  { replace (8 * c0) with (8 * c0 + 0) by lia. rewrite !half8 by lia. exact Kc. } { now left. }
  fold A in P0, Q0. rewrite Z.sub_0_r in P0, Q0. fold v0 in P0.
  set (b0 := if 8 * c0 <? 128 then 0 else 1).
  assert (QA : A / 256 = - b0) by (rewrite Q0; unfold b0; destruct (8 * c0 <? 128); reflexivity).
  destruct (same_half i (4 * g0 + c0 / 8) (4 * g1 + c1 / 8) b0 Hi ltac:(lia) ltac:(lia)) as [P1 Q1].
  { rewrite !half4 by lia. exact Kg. }
  { unfold b0. destruct (Z.ltb_spec (8 * c0) 128); [now left|]. right. destruct (Z.ltb_spec c0 16); [lia|]. destruct (Z.ltb_spec c1 16); [discriminate|]. lia. }
  fold B in P1, Q1.
  assert (V1 : v1 = (B - b0) mod 256) by (unfold v1; rewrite QA; reflexivity). rewrite <- V1 in P1.
  set (b1 := if 4 * g0 + c0 / 8 <? 128 then 0 else 1).
  assert (QB : (B + A / 256) / 256 = - b1) by (rewrite QA; change (B + - b0) with (B - b0); rewrite Q1; unfold b1; destruct (4 * g0 + c0 / 8 <? 128); reflexivity).
  destruct (same_half i (8 * r0 + g0 / 8) (8 * r1 + g1 / 8) b1 Hi ltac:(lia) ltac:(lia)) as [P2 Q2].
  { rewrite !half8 by lia. exact Kr. }
  { unfold b1. rewrite half4 by lia. destruct (Z.ltb_spec g0 32); [now left|]. right. destruct (Z.ltb_spec g1 32); [discriminate|]. lia. }
  fold C in P2, Q2.
  assert (V2 : v2 = (C - b1) mod 256) by (unfold v2; rewrite QB; reflexivity). rewrite <- V2 in P2.
  rewrite P0, P1, P2. clearbody v0 v1 v2 A B C. clear P0 P1 P2 Q0 Q1 Q2 V1 V2 QA QB.
  fold b0. assert (R0 : b0 = 0 /\ c0 < 16 \/ b0 = 1 /\ 16 <= c0) by (unfold b0; destruct (Z.ltb_spec (8 * c0) 128); lia).
  fold b1. assert (R1 : b1 = 0 /\ g0 < 32 \/ b1 = 1 /\ 32 <= g0) by (unfold b1; destruct (Z.ltb_spec (4 * g0 + c0 / 8) 128); lia).
  set (b2 := if 8 * r0 + g0 / 8 <? 128 then 0 else 1). assert (R2 : b2 = 0 /\ r0 < 16 \/ b2 = 1 /\ 16 <= r0) by (unfold b2; destruct (Z.ltb_spec (8 * r0 + g0 / 8) 128); lia).
  assert (Kc' : 16 <= c0 -> 16 <= c1) by (destruct (Z.ltb_spec c0 16), (Z.ltb_spec c1 16); try discriminate; lia).
  assert (Kg' : 32 <= g0 -> 32 <= g1) by (destruct (Z.ltb_spec g0 32), (Z.ltb_spec g1 32); try discriminate; lia).
  assert (Kr' : 16 <= r0 -> 16 <= r1) by (destruct (Z.ltb_spec r0 16), (Z.ltb_spec r1 16); try discriminate; lia).
  clearbody b0 b1 b2. clear Kc Kg Kr. unfold E. assert (Ci : i = 2 \/ i = 3) by lia. clear Hi.
  destruct Ci as [-> | ->]; cbn [weight Z.eqb Pos.eqb]; lia.
Qed.

(** one channel of a mixed colour whose end points lie in different halves *)
Lemma other_half i x y br : 2 <= i < 4 -> 0 <= x < 256 -> 0 <= y < 256 -> (x <? 128) <> (y <? 128) -> 0 <= br <= 1 ->
  let u := if i =? 2 then (170 * x + 85 * y) / 256 else (85 * x + 170 * y) / 256 in
  let v := (mixed i (sg x) (sg y) - br) mod 256 in
  Z.abs (v - u) >= 85 /\ 0 <= v < 256.
Proof.
  intros Hi Hx Hy H Hb u v. split; [|apply Z.mod_pos_bound; lia]. unfold v, u, sg. assert (C : i = 2 \/ i = 3) by lia.
  destruct C as [-> | ->]; cbn [mixed Z.eqb Pos.eqb]; destruct (Z.ltb_spec x 128), (Z.ltb_spec y 128); try congruence; lia.
Qed.
Lemma far_value i n s a b x y v : 2 <= i < 4 -> 0 <= a <= n -> 0 <= b <= n -> (n = 31 /\ s = 8 \/ n = 63 /\ s = 4) ->
  s * a <= x < s * a + s -> s * b <= y < s * b + s ->
  let u := if i =? 2 then (170 * x + 85 * y) / 256 else (85 * x + 170 * y) / 256 in
  Z.abs (v - u) >= 85 -> ~ Z.abs (3 * n * v - 255 * ((3 - weight i) * a + weight i * b)) <= 76 * (3 * n).
Proof.
  intros Hi Ha Hb Hn Hx Hy u Hv. unfold u in Hv. assert (C : i = 2 \/ i = 3) by lia. destruct Hn as [[-> ->]|[-> ->]], C as [-> | ->]; cbn [weight Z.eqb Pos.eqb] in *; lia.
Qed.

Lemma index_range data row col : 0 <= index data row col < 4.
Proof. unfold index, field. apply Z.mod_pos_bound. lia. Qed.
Lemma raw_range data : block 8 data -> 0 <= le_value (firstn 4 data) < 2 ^ 32.
Proof.
  intros (L & HB). do 4 (destruct data as [|? data]; [cbn in L; lia|]).
  do 4 (inversion_clear HB as [|? ? ? HB']; rename HB' into HB). unfold is_byte in *. cbn [firstn le_value]. lia.
Qed.
Lemma upper5 w k n : max565 k = 31 -> chan565 w k = n -> upper w k = negb (n <? 16).
Proof. intros E1 E2. unfold upper. rewrite E1, E2. apply half5. Qed.
Lemma upper6 w n : chan565 w 1 = n -> upper w 1 = negb (n <? 32).
Proof. intros E2. unfold upper. rewrite E2. apply half6. Qed.
Lemma negb_inj a b : negb a = negb b -> a = b. Proof. destruct a, b; cbn; congruence. Qed.
Lemma weight_range i : 0 <= i < 4 -> i = 0 \/ i = 1 \/ 2 <= i < 4. Proof. lia. Qed.

Lemma near_entry data i k : block 8 data -> 0 <= i < 4 -> (k < 3)%nat ->
  i < 2 \/ (forall k, (k < 3)%nat -> upper (word_at data 0) k = upper (word_at data 2) k) ->
  within 9 (word_at data 0) (word_at data 2) i k (nth k (entry_bytes (le_value (firstn 4 data)) i) (-1)).
Proof.
  intros HD Hi Hk HU. destruct (fields _ (raw_range data HD)) as (c0 & g0 & r0 & c1 & g1 & r1 & B0 & B1 & B2 & B3 & B4 & B5 & E).
  destruct (words data c0 g0 r0 c1 g1 r1 HD B0 B1 B2 B3 B4 B5 E) as [W1 W2].
  rewrite (entry_values _ i c0 g0 r0 c1 g1 r1 B0 B1 B2 B3 B4 B5 E). unfold within, exact. rewrite W1, W2.
  destruct (weight_range i Hi) as [-> |[-> | Hi2]].
  - cbn [mixed weight]. destruct (ends_near c0 g0 r0 c1 g1 r1 B0 B1 B2 B3 B4 B5 _ _ _ (or_introl eq_refl) eq_refl eq_refl) as (N0 & N1 & N2).
    destruct k as [|[|[|k]]]; [| | |lia]; cbn [nth max565]; lia.
  - cbn [mixed weight]. destruct (ends_near c1 g1 r1 c0 g0 r0 B3 B4 B5 B0 B1 B2 _ _ _ (or_intror eq_refl) eq_refl eq_refl) as (N0 & N1 & N2).
    destruct k as [|[|[|k]]]; [| | |lia]; cbn [nth max565]; lia.
  - destruct HU as [HU|HU]; [lia|].
    assert (K0 : (c0 <? 16) = (c1 <? 16)) by (apply negb_inj; rewrite <- (upper5 (word_at data 0) 0 c0 eq_refl (W1 0%nat)), <- (upper5 (word_at data 2) 0 c1 eq_refl (W2 0%nat)); apply HU; lia).
    assert (K1 : (g0 <? 32) = (g1 <? 32)) by (apply negb_inj; rewrite <- (upper6 (word_at data 0) g0 (W1 1%nat)), <- (upper6 (word_at data 2) g1 (W2 1%nat)); apply HU; lia).
    assert (K2 : (r0 <? 16) = (r1 <? 16)) by (apply negb_inj; rewrite <- (upper5 (word_at data 0) 2 r0 eq_refl (W1 2%nat)), <- (upper5 (word_at data 2) 2 r1 eq_refl (W2 2%nat)); apply HU; lia).
    destruct (mixed_near i c0 g0 r0 c1 g1 r1 Hi2 B0 B1 B2 B3 B4 B5 K0 K1 K2) as (N0 & N1 & N2).
    destruct k as [|[|[|k]]]; [| | |lia]; cbn [nth max565].
    + exact N0.
    + exact N1.
    + exact N2.
Qed.

Lemma far_entry data i k : block 8 data -> 2 <= i < 4 -> (k < 3)%nat -> upper (word_at data 0) k <> upper (word_at data 2) k ->
  ~ within 76 (word_at data 0) (word_at data 2) i k (nth k (entry_bytes (le_value (firstn 4 data)) i) (-1)).
Proof.
  intros HD Hi Hk HU. destruct (fields _ (raw_range data HD)) as (c0 & g0 & r0 & c1 & g1 & r1 & B0 & B1 & B2 & B3 & B4 & B5 & E).
  destruct (words data c0 g0 r0 c1 g1 r1 HD B0 B1 B2 B3 B4 B5 E) as [W1 W2].
  rewrite (entry_values _ i c0 g0 r0 c1 g1 r1 B0 B1 B2 B3 B4 B5 E). unfold within, exact. rewrite W1, W2.
  assert (R : forall x y, 0 <= x < 256 -> 0 <= y < 256 -> -128 <= mixed i (sg x) (sg y) < 128).
  { intros x y Hx Hy. assert (S : forall z, 0 <= z < 256 -> -128 <= sg z < 128) by (intros z Hz; unfold sg; destruct (Z.ltb_spec z 128); lia).
    pose proof (S x Hx). pose proof (S y Hy). assert (C : i = 2 \/ i = 3) by lia. destruct C as [-> | ->]; cbn [mixed]; lia. }
  pose proof (R (8 * c0) (8 * c1 + r0 / 4) ltac:(lia) ltac:(lia)) as RA. pose proof (R (4 * g0 + c0 / 8) (4 * g1 + c1 / 8) ltac:(lia) ltac:(lia)) as RB. clear R.
  destruct k as [|[|[|k]]]; [| | |lia]; cbn [nth max565].
  - rewrite (upper5 _ 0 c0 eq_refl (W1 0%nat)), (upper5 _ 0 c1 eq_refl (W2 0%nat)) in HU.
    destruct (other_half i (8 * c0) (8 * c1 + r0 / 4) 0 Hi ltac:(lia) ltac:(lia)) as [F _]; [|lia|].
    { replace (8 * c0) with (8 * c0 + 0) by lia. rewrite !half8 by lia. congruence. }
    rewrite Z.sub_0_r in F. apply (far_value i 31 8 c0 c1 (8 * c0) (8 * c1 + r0 / 4)); auto; lia.
  - rewrite (upper6 _ g0 (W1 1%nat)), (upper6 _ g1 (W2 1%nat)) in HU. set (A := mixed i (sg (8 * c0)) _) in *.
    destruct (other_half i (4 * g0 + c0 / 8) (4 * g1 + c1 / 8) (- (A / 256)) Hi ltac:(lia) ltac:(lia)) as [F _]; [|lia|].
    { rewrite !half4 by lia. congruence. }
    rewrite Z.sub_opp_r in F. apply (far_value i 63 4 g0 g1 (4 * g0 + c0 / 8) (4 * g1 + c1 / 8)); auto; lia.
  - rewrite (upper5 _ 2 r0 eq_refl (W1 2%nat)), (upper5 _ 2 r1 eq_refl (W2 2%nat)) in HU.
    set (A := mixed i (sg (8 * c0)) _) in *. set (B := mixed i (sg (4 * g0 + c0 / 8)) _) in *.
    destruct (other_half i (8 * r0 + g0 / 8) (8 * r1 + g1 / 8) (- ((B + A / 256) / 256)) Hi ltac:(lia) ltac:(lia)) as [F _]; [|lia|].
    { rewrite !half8 by lia. congruence. }
    rewrite Z.sub_opp_r in F. apply (far_value i 31 8 r0 r1 (8 * r0 + g0 / 8) (8 * r1 + g1 / 8)); auto; lia.
Qed.

(** When, channel by channel, both end points lie in the same half of the range, every byte of every
    texel is within 9 (of 255) of its exact value; texels that carry an end point always are. *)
Theorem C59_near : forall data buf buf' w h width, block 8 data -> fits w h width 3 buf ->
  SDecodeBC1Block data buf w h width 3 = Some buf' ->
  forall row col k, in_block row col -> (k < 3)%nat ->
  index data row col < 2 \/ (forall k, (k < 3)%nat -> upper (word_at data 0) k = upper (word_at data 2) k) ->
  within 9 (word_at data 0) (word_at data 2) (index data row col) k (nth k (bytes_at (cell 0 w h width 3 row col) 3 buf') (-1)).
Proof.
  intros data buf buf' w h width HD HF E row col k Hin Hk HU. pose proof HD as (L & HB).
  destruct (simd_ok data buf w h width L HB HF) as (b & E' & W1 & W2 & W3). rewrite E in E'. assert (b = buf') by congruence. subst b.
  rewrite (W2 row col Hin). apply near_entry; auto. apply index_range.
Qed.
Print Assumptions C59_near.

(** When they do not, every texel that mixes the end points is wrong by more than 76 in that channel. *)
Theorem C59_far : forall data buf buf' w h width, block 8 data -> fits w h width 3 buf ->
  SDecodeBC1Block data buf w h width 3 = Some buf' ->
  forall row col k, in_block row col -> (k < 3)%nat -> 2 <= index data row col ->
  upper (word_at data 0) k <> upper (word_at data 2) k ->
  ~ within 76 (word_at data 0) (word_at data 2) (index data row col) k (nth k (bytes_at (cell 0 w h width 3 row col) 3 buf') (-1)).
Proof.
  intros data buf buf' w h width HD HF E row col k Hin Hk Hi HU. pose proof HD as (L & HB).
  destruct (simd_ok data buf w h width L HB HF) as (b & E' & W1 & W2 & W3). rewrite E in E'. assert (b = buf') by congruence. subst b.
  rewrite (W2 row col Hin). apply far_entry; auto. pose proof (index_range data row col). unfold index, simd_index in *. lia.
Qed.
Print Assumptions C59_far.

(** With any other texel size the sixteen texels are not what gets written: on a one-texel-row image
    of four-byte texels the fourth byte of a texel is overwritten and the last texel of a row is not reached. *)
Theorem C59_other_sizes : forall buf, length buf = 64%nat ->
  exists buf', SDecodeBC1Block [255; 255; 255; 255; 0; 0; 0; 0] buf 0 0 1 4 = Some buf' /\
    nth_error buf' 3 = Some 248 /\ nth_error buf' 12 = nth_error buf 12.
Proof.
  intros buf L. do 64 (destruct buf as [|? buf]; [discriminate|]). destruct buf; [|discriminate].
  eexists. split; [vm_compute; reflexivity|]. split; reflexivity.
Qed.
Print Assumptions C59_other_sizes.

(** *** Cases *)
(** white comes out as 248, 254, 254; mid-greys either side of the half mix to values near neither *)
Example C59_white : exists buf', SDecodeBC1Block [255; 255; 255; 255; 0; 0; 0; 0] (repeat 0 48) 0 0 1 3 = Some buf' /\ firstn 3 buf' = [248; 254; 254].
Proof. eexists. split; [vm_compute; reflexivity|reflexivity]. Qed.
Example C59_grey : exists buf', SDecodeBC1Block [0x10; 0x84; 0xef; 0x7b; 0xe4; 0xe4; 0xe4; 0xe4] (repeat 0 48) 0 0 1 3 = Some buf' /\
  firstn 12 buf' = [128; 129; 131; 124; 125; 123; 212; 212; 213; 39; 41; 40].
Proof. eexists. split; [vm_compute; reflexivity|vm_compute; reflexivity]. Qed.
(** a dark block meets C59_near, the grey one C59_far *)
Example C59_dark_case : block 8 [0x08; 0x42; 0x04; 0x21; 0xe4; 0xe4; 0xe4; 0xe4] /\
  (forall k, (k < 3)%nat -> upper (word_at [0x08; 0x42; 0x04; 0x21; 0xe4; 0xe4; 0xe4; 0xe4] 0) k = upper (word_at [0x08; 0x42; 0x04; 0x21; 0xe4; 0xe4; 0xe4; 0xe4] 2) k) /\ fits 0 0 1 3 (repeat 0 48).
Proof. split; [|split]. - split; [cbn; lia|]. repeat constructor; unfold is_byte; lia. - intros [|[|[|k]]] H; [reflexivity..|lia]. - unfold fits. rewrite repeat_length. lia. Qed.
Example C59_grey_case : upper (word_at [0x10; 0x84; 0xef; 0x7b; 0xe4; 0xe4; 0xe4; 0xe4] 0) 0 <> upper (word_at [0x10; 0x84; 0xef; 0x7b; 0xe4; 0xe4; 0xe4; 0xe4] 2) 0 /\
  index [0x10; 0x84; 0xef; 0x7b; 0xe4; 0xe4; 0xe4; 0xe4] 0 2 = 2.
Proof. split; [vm_compute; discriminate|reflexivity]. Qed.
(** green is 0 in both end points, yet a mixed colour is fully green: the borrow of the first channel *)
Example C59_green : exists buf', SDecodeBC1Block [0; 0; 0x10; 0; 0xaa; 0; 0; 0] (repeat 0 48) 0 0 1 3 = Some buf' /\ firstn 3 buf' = [213; 255; 255].
Proof. eexists. split; [vm_compute; reflexivity|vm_compute; reflexivity]. Qed.
