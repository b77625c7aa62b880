(** C53: restoring the blue channel of a two-channel normal map, ComputeBC5Blue
    (formats/BlockDecoder.h).  The flag says whether plain char is signed on the platform. *)
From Verif Require Import Base Reflector_Model Float_Model Blue_Model Blue_Spec Blue_Proof.

(** Where char is unsigned: for every image of n three-byte pixels, byte 0 of each pixel becomes
    exactly floor(127 (1 + sqrt(max(0, 1 - x^2 - y^2)))) of its other two bytes; nothing else
    changes. *)
Theorem C53_blue_exact : forall n buf, Forall is_byte buf -> (3 * n <= length buf)%nat -> Z.of_nat (3 * n) < 2 ^ 32 ->
  exists buf', ComputeBC5Blue false buf (Z.of_nat (3 * n)) = Some buf' /\
    length buf' = length buf /\
    (forall i, (3 * n <= i)%nat \/ (i mod 3 <> 0)%nat -> nth_error buf' i = nth_error buf i) /\
    (forall j, (j < n)%nat -> exists x y v,
       nth_error buf' (3 * j) = Some v /\ nth_error buf' (3 * j + 1) = Some x /\ nth_error buf' (3 * j + 2) = Some y /\
       blue_value x y v).
Proof.
  intros n buf HB HL H32. unfold ComputeBC5Blue. rewrite Nat2Z.id.
  destruct (blue_loop_ok (3 * n) 0 n buf) as (buf' & E & L & U & W); try lia; auto.
  exists buf'. split; [exact E|]. split; [exact L|].
  assert (U' : forall i, (3 * n <= i)%nat \/ (i mod 3 <> 0)%nat -> nth_error buf' i = nth_error buf i).
  { intros i Hi. apply U. intros (j & Hj & ->). destruct Hi as [Hi|Hi]; [lia|]. apply Hi.
    rewrite Nat.mul_comm. now apply Nat.mod_mul. }
  split; [exact U'|]. intros j Hj. destruct (W j) as (x & y & v & X & Y & V & G); [lia|].
  exists x, y, v. split; [exact V|]. split; [rewrite U'; [exact X|]|split; [rewrite U'; [exact Y|]|exact G]]; right.
  - replace (3 * j + 1)%nat with (1 + j * 3)%nat by lia. rewrite Nat.mod_add by lia. cbn. lia.
  - replace (3 * j + 2)%nat with (2 + j * 3)%nat by lia. rewrite Nat.mod_add by lia. cbn. lia.
Qed.
Print Assumptions C53_blue_exact.

(** Where char is signed the conversion is undefined for every pixel with z >= 1/127: the code is
    only defined when every normal points away from the viewer plane by less than that. *)
Theorem C53_blue_signed_char_undefined : forall x y, is_byte x -> is_byte y ->
  (255 ^ 2 <= 127 ^ 2 * z_square x y -> blue true x y = None) /\
  (127 ^ 2 * z_square x y < 255 ^ 2 -> blue true x y = Some 127).
Proof.
  intros x y Hx Hy. destruct (blue_exact x y Hx Hy) as (v & E & ((V1 & V2) & Q1 & Q2)).
  unfold blue, to_char. rewrite E. split; intros H.
  - assert (v <> 127). { intros ->. change ((127 - 127 + 1) ^ 2 * 255 ^ 2) with (255 ^ 2) in Q2. lia. }
    destruct (Z.leb_spec (-128) v); [|lia]. destruct (Z.ltb_spec v 128); [lia|]. reflexivity.
  - assert (v = 127) as ->.
    { destruct (Z.eq_dec v 127); [assumption|]. exfalso. assert (1 <= v - 127) by lia.
      assert (1 ^ 2 <= (v - 127) ^ 2) by (apply Z.pow_le_mono_l; lia). lia. }
    reflexivity.
Qed.
Print Assumptions C53_blue_signed_char_undefined.

(** *** The hypotheses are met *)
Example C53_case : ComputeBC5Blue false [7; 128; 128; 7; 0; 0; 7; 200; 60; 7; 7] 9 = Some [253; 128; 128; 127; 0; 0; 206; 200; 60; 7; 7].
Proof. vm_compute. reflexivity. Qed.
Example C53_signed : blue true 128 128 = None /\ blue true 0 0 = Some 127.
Proof. vm_compute. split; reflexivity. Qed.
