(** The four-lane float vector of datas/vectors_simd.hpp (V4SimdFltType, Vector4A16), over an
    abstract scalar so that the same definitions run in exact real arithmetic and in binary32.
    Simplifications: the bitwise operators of float vectors are in Vector_Model.v (on patterns); here
    the one use of masks, in esMatrix44::operator-, is written as a choice per lane.  NaN payloads
    are not tracked. *)
From Coq Require Import Reals Floats.SpecFloat.
From Verif Require Import Base Float_Model.

Record scalar : Type := {
  car :> Type;
  s_add : car -> car -> car;
  s_sub : car -> car -> car;
  s_mul : car -> car -> car;
  s_div : car -> car -> car;
  s_neg : car -> car;
  s_sqrt : car -> car;
  s_int : Z -> car;
  s_lt : car -> car -> bool;
  s_le : car -> car -> bool;
}.
Arguments s_add {_}. Arguments s_sub {_}. Arguments s_mul {_}. Arguments s_div {_}.
Arguments s_neg {_}. Arguments s_sqrt {_}. Arguments s_int {_}. Arguments s_lt {_}. Arguments s_le {_}.

(** exact real arithmetic *)
Definition reals : scalar :=
  {| car := R; s_add := Rplus; s_sub := Rminus; s_mul := Rmult; s_div := Rdiv; s_neg := Ropp;
     s_sqrt := R_sqrt.sqrt; s_int := IZR;
     s_lt := fun a b => if Rlt_dec a b then true else false;
     s_le := fun a b => if Rle_dec a b then true else false |}.
(** binary32, one rounding per operation *)
Definition singles : scalar :=
  {| car := f32; s_add := fadd; s_sub := fsub; s_mul := fmul; s_div := fdiv; s_neg := SFopp;
     s_sqrt := fsqrt; s_int := of_int; s_lt := SFltb; s_le := SFleb |}.

(** the vector: datas/vectors_simd.hpp 38-47 *)
Record vec (K : scalar) : Type := V { X : K; Y : K; Z_ : K; W : K }.
Arguments V {_}. Arguments X {_}. Arguments Y {_}. Arguments Z_ {_}. Arguments W {_}.

Section Vec.
  Context {K : scalar}.
  Implicit Types a b : vec K.
  Notation "0" := (s_int 0%Z : K). Notation "1" := (s_int 1%Z : K).

  (** V4SimdFltType(value_type s): datas/vectors_simd.hpp 70 *)
  Definition all4 (s : K) : vec K := V s s s s.
  Definition lane a (i : nat) : K := match i with O => X a | S O => Y a | S (S O) => Z_ a | _ => W a end.
  (** _mm_shuffle_ps(a, b, _MM_SHUFFLE(z, y, x, w)): two lanes of a, then two lanes of b *)
  Definition shuffle a b (z y x w : nat) : vec K := V (lane a w) (lane a x) (lane b y) (lane b z).
  Definition map2 (f : K -> K -> K) a b : vec K := V (f (X a) (X b)) (f (Y a) (Y b)) (f (Z_ a) (Z_ b)) (f (W a) (W b)).
  (** operators + - * /: datas/vectors_simd.hpp 92-103 *)
  Definition vadd a b := map2 s_add a b.
  Definition vsub a b := map2 s_sub a b.
  Definition vmul a b := map2 s_mul a b.
  Definition vdiv a b := map2 s_div a b.
  (** operators with a scalar: datas/vectors_simd.hpp 117-120 *)
  Definition vmuls a (s : K) := vmul a (all4 s).
  Definition vdivs a (s : K) := vdiv a (all4 s).
  (** operator-(): datas/vectors_simd.hpp 141 *)
  Definition vneg a := vmuls a (s_int (-1)).
  (** Dot, _mm_dp_ps with mask 0xf1 (datas/vectors_simd.hpp 186-188): lanes 0+1 and 2+3 are added
      first, then the two sums *)
  Definition Dot a b : K :=
    s_add (s_add (s_mul (X a) (X b)) (s_mul (Y a) (Y b))) (s_add (s_mul (Z_ a) (Z_ b)) (s_mul (W a) (W b))).
  (** DotV: datas/vectors_simd.hpp 190-192 *)
  Definition DotV a b : vec K := all4 (Dot a b).
  (** Length: datas/vectors_simd.hpp 181-184 *)
  Definition Length a : K := s_sqrt (X (DotV a a)).
  (** Cross: datas/vectors_simd.hpp 194-204 *)
  Definition Cross a b : vec K :=
    let temp0 := shuffle a a 3 0 2 1 in
    let temp1 := shuffle b b 3 1 0 2 in
    let temp2 := shuffle a a 3 1 0 2 in
    let temp3 := shuffle b b 3 0 2 1 in
    vsub (vmul temp0 temp1) (vmul temp2 temp3).
  (** !len: the length compares equal to zero *)
  Definition is_zero (x : K) : bool := s_le x 0 && s_le 0 x.
  (** Normalized: datas/vectors_simd.hpp 206-214 *)
  Definition Normalized a : vec K := let len := Length a in if is_zero len then a else vdivs a len.
  (** QConjugate: datas/vectors_simd.hpp 220-222 *)
  Definition QConjugate a : vec K := vmul a (V (s_int (-1)) (s_int (-1)) (s_int (-1)) 1).
  Definition set_lane a (i : nat) (x : K) : vec K :=
    match i with
    | O => V x (Y a) (Z_ a) (W a) | S O => V (X a) x (Z_ a) (W a)
    | S (S O) => V (X a) (Y a) x (W a) | _ => V (X a) (Y a) (Z_ a) x
    end.
  (** QComputeElement<i>: datas/vectors_simd.hpp 224-231 *)
  Definition QComputeElement (i : nat) a : vec K :=
    let res0 := vsub (all4 1) (DotV a a) in
    let res1 := s_sqrt (X res0) in
    set_lane a i res1.
  (** QComputeElementVar: datas/vectors_simd.hpp 233-237 *)
  Definition QComputeElementVar (i : nat) a : vec K := set_lane a i (s_sqrt (s_sub 1 (Dot a a))).

  Definition all_lanes (f : K -> K -> bool) a b : bool :=
    f (X a) (X b) && f (Y a) (Y b) && f (Z_ a) (Z_ b) && f (W a) (W b).
  (** Compare: datas/vectors_simd.hpp 59-65; eps is the thread-local epsilon *)
  Definition Compare (eps : K) a b : bool :=
    all_lanes (fun x y => s_le y (s_add x eps) && s_le (s_sub x eps) y) a b.
  (** operator==, <, >, <=, >=: datas/vectors_simd.hpp 150-164 *)
  Definition veq (eps : K) a b : bool := Compare eps b a.
  Definition vlt a b : bool := all_lanes s_lt a b.
  Definition vgt a b : bool := all_lanes (fun x y => s_lt y x) a b.
  Definition vle (eps : K) a b : bool := vlt a b || veq eps a b.
  Definition vge (eps : K) a b : bool := vgt a b || veq eps a b.
  (** _mm_hsub_ps *)
  Definition hsub a b : vec K := V (s_sub (X a) (Y a)) (s_sub (Z_ a) (W a)) (s_sub (X b) (Y b)) (s_sub (Z_ b) (W b)).
  (** IsSymetrical: datas/vectors_simd.hpp 172-176 *)
  Definition IsSymetrical (eps : K) a : bool :=
    let temp := shuffle a a 3 1 0 2 in Compare eps (hsub a a) (hsub temp temp).
End Vec.
