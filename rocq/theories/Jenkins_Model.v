(** Model of datas/jenkinshash.hpp and datas/jenkinshash3.hpp. Strings are byte lists. *)
From Verif Require Import Base.

(** jenkinshash.hpp:33-37, the loop body; [w] is the width of T (64 for JenHash, 32 for
    JenHashCannon). [c] is static_cast<uint8>(char). *)
Definition jen_step (w : Z) (result c : Z) : Z :=
  let result := wrap w (result + c) in
  let result := wrap w (result + wrap w (result * 2 ^ 10)) in
  let result := Z.lxor result (result / 2 ^ 6) in
  u32 result.
(** jenkinshash.hpp:40-44 *)
Definition jen_final (w : Z) (result : Z) : Z :=
  let result := wrap w (result + wrap w (result * 2 ^ 3)) in
  let result := Z.lxor result (result / 2 ^ 11) in
  let result := wrap w (result + wrap w (result * 2 ^ 15)) in
  u32 result.
(** jenkinshash.hpp:28-45, JenkinsHash_<T>. The literal constructor (:54) passes the same
    view without the terminating NUL, so compile-time and run-time hashing are one function. *)
Definition jenkins (w : Z) (input : list Z) : Z :=
  jen_final w (fold_left (jen_step w) input 0).

(** jenkinshash.hpp:53-55, the constructor from a char array of n bytes: n - 1 are hashed *)
Definition jenkins_literal (w : Z) (arr : list Z) : Z :=
  jenkins w (firstn (length arr - 1) arr).

(** jenkinshash.hpp:63-72, the comparison operators on two values *)
Definition jen_eq (a o : Z) : bool := o =? a.
Definition jen_ne (a o : Z) : bool := negb (o =? a).
Definition jen_lt (a o : Z) : bool := o <? a.
Definition jen_gt (a o : Z) : bool := a <? o.

(** jenkinshash3.hpp:24, JenTriplet_ *)
Record trip := T { ta : Z; tb : Z; tc : Z }.

(** jenkinshash3.hpp:26-28 *)
Definition jen3_setup (len seed : Z) : Z := u32 (u32 (0xdeadbeef + u32 (u32 len * 4)) + seed).
(** jenkinshash3.hpp:30-32, for 0 < by < 32 *)
Definition jen_rot (x by_ : Z) : Z := Z.lor (u32 (x * 2 ^ by_)) (x / 2 ^ (32 - by_)).
Definition add32 (a b : Z) : Z := u32 (a + b).
Definition sub32 (a b : Z) : Z := u32 (a - b).

(** jenkinshash3.hpp:42-47 *)
Definition trip_add (t k : trip) : trip :=
  T (add32 (ta t) (ta k)) (add32 (tb t) (tb k)) (add32 (tc t) (tc k)).

(** jenkinshash3.hpp:49-68, Mix: six times the three statements
    [x -= z; x ^= JenRotate(z, k); z += y;], returning the new x and z *)
Definition mix_line (x y z k : Z) : Z * Z :=
  let x := sub32 x z in
  let x := Z.lxor x (jen_rot z k) in
  let z := add32 z y in
  (x, z).
Definition jen3_mix (t : trip) : trip :=
  let '(T a b c) := t in
  let '(a, c) := mix_line a b c 4 in
  let '(b, a) := mix_line b c a 6 in
  let '(c, b) := mix_line c a b 8 in
  let '(a, c) := mix_line a b c 16 in
  let '(b, a) := mix_line b c a 19 in
  let '(c, b) := mix_line c a b 4 in
  T a b c.

(** jenkinshash3.hpp:70-85, Finalize: seven times [x ^= y; x -= JenRotate(y, k);] *)
Definition final_line (x y k : Z) : Z :=
  let x := Z.lxor x y in
  sub32 x (jen_rot y k).
Definition jen3_final (t : trip) : trip :=
  let '(T a b c) := t in
  let c := final_line c b 14 in
  let a := final_line a c 11 in
  let b := final_line b a 25 in
  let c := final_line c b 16 in
  let a := final_line a c 4 in
  let b := final_line b a 14 in
  let c := final_line c b 24 in
  T a b c.

(** jenkinshash3.hpp:88-94, JenMutateKey_: a byte past the end counts as zero. Note that
    offset only advances while it is inside. *)
Definition jen_key (input : list Z) (offset : nat) : Z :=
  let n := length input in
  let get off := if (n <=? off)%nat then (0, off) else (nth off input 0, S off) in
  let '(ck0, o) := get offset in
  let '(ck1, o) := get o in
  let '(ck2, o) := get o in
  let '(ck3, _) := get o in
  Z.lor ck0 (Z.lor (ck1 * 2 ^ 8) (Z.lor (ck2 * 2 ^ 16) (ck3 * 2 ^ 24))).

(** jenkinshash3.hpp:104-111, the loop; [n] bounds the number of iterations, [k] is the
    offset, [stop] is max(size, 12) - 12. *)
Fixpoint jen3_loop (n : nat) (input : list Z) (k stop : nat) (t : trip) : trip :=
  match n with
  | O => t
  | S n' =>
      if (k <? stop)%nat then
        let tr := T (jen_key input k) (jen_key input (k + 4)) (jen_key input (k + 8)) in
        jen3_loop n' input (k + 12) stop (jen3_mix (trip_add t tr))
      else t
  end.

(** jenkinshash3.hpp:96-137, JenkinsHash3_ *)
Definition jenkins3 (input : list Z) (seed : Z) : Z :=
  let size := length input in
  let numRKeys := (size / 4 + if (size mod 4 =? 0)%nat then 0 else 1)%nat in
  let s := jen3_setup (Z.of_nat numRKeys) seed in
  let t := jen3_loop (S size) input 0 (Nat.max size 12 - 12) (T s s s) in
  let lastKeys := if (size =? 12)%nat then 12%nat else (size mod 12)%nat in
  let lastTrip :=
    if (8 <? lastKeys)%nat then
      T (jen_key input (size - lastKeys)) (jen_key input (size - (lastKeys - 4)))
        (jen_key input (size - (lastKeys - 8)))
    else if (4 <? lastKeys)%nat then
      T (jen_key input (size - lastKeys)) (jen_key input (size - (lastKeys - 4))) 0
    else if (0 <? lastKeys)%nat then T (jen_key input (size - lastKeys)) 0 0
    else T 0 0 0 in
  let t := if (0 <? lastKeys)%nat then jen3_final (trip_add t lastTrip) else t in
  tc t.
