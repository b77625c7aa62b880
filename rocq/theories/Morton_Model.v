(** Model of formats/addr_ps3.hpp.  size_t has 64 bits; [None] is a write outside the mask arrays.
    std::log2 of an exact power of two, truncated to size_t, is taken to be exact. *)
From Verif Require Import Base.

Record MortonSettings := mkMS { width : Z; height : Z; xmask : list Z; ymask : list Z }.

Definition set_at (l : list Z) (i v : Z) : option (list Z) :=
  if (0 <=? i) && (i <? Z.of_nat (length l))
  then Some (firstn (Z.to_nat i) l ++ v :: skipn (S (Z.to_nat i)) l) else None.

(** the loop :34-37, [n] iterations from [b] on *)
Fixpoint diagonal (n : nat) (b : Z) (xm ym : list Z) : option (list Z * list Z) :=
  match n with
  | O => Some (xm, ym)
  | S n' =>
    match set_at xm (b - 4) (u64 (Z.shiftl 1 b)), set_at ym (b - 4) (u64 (Z.shiftl 1 b)) with
    | Some xm', Some ym' => diagonal n' (b + 1) xm' ym'
    | _, _ => None
    end
  end.

(** MortonSettings::MortonSettings, :28-50 *)
Definition Morton_new (w h : Z) : option MortonSettings :=
  let bitOffsetW := Z.log2 w in
  let bitOffsetH := Z.log2 h in
  let minBits := if bitOffsetH <? bitOffsetW then bitOffsetH else bitOffsetW in
  match diagonal (Z.to_nat (minBits - 4)) 4 (repeat 0 10) (repeat 0 10) with
  | None => None
  | Some (xm, ym) =>
    if bitOffsetW =? bitOffsetH then Some (mkMS w h xm ym)
    else
      let mask := Z.lxor (u64 (h - 1)) (u64 (w - 1)) in
      if bitOffsetH <? bitOffsetW then
        option_map (fun xm' => mkMS w h xm' ym) (set_at xm (bitOffsetH - 4) mask)
      else
        option_map (fun ym' => mkMS w h xm ym') (set_at ym (bitOffsetW - 4) mask)
  end.

Definition lor_all (l : list Z) : Z := fold_left Z.lor l 0.
Definition sh (v s : Z) : Z := u64 (Z.shiftl v s).

(** MortonAddr, :53-98 *)
Definition MortonAddr (x y : Z) (m : MortonSettings) : Z :=
  let xm i := nth i (xmask m) 0 in
  let ym i := nth i (ymask m) 0 in
  let x0 := Z.land x 1 in
  let x1 := sh (Z.land x 2) 1 in
  let x2 := sh (Z.land x 4) 2 in
  let x3 := sh (Z.land x 8) 3 in
  let x4 := sh (Z.land x (xm 0%nat)) 4 in
  let x5 := sh (Z.land x (xm 1%nat)) 5 in
  let x6 := sh (Z.land x (xm 2%nat)) 6 in
  let x7 := sh (Z.land x (xm 3%nat)) 7 in
  let y0 := sh (Z.land y 1) 1 in
  let y1 := sh (Z.land y 2) 2 in
  let y2 := sh (Z.land y 4) 3 in
  let y3 := sh (Z.land y 8) 4 in
  let y4 := sh (Z.land y (ym 0%nat)) 5 in
  let y5 := sh (Z.land y (ym 1%nat)) 6 in
  let y6 := sh (Z.land y (ym 2%nat)) 7 in
  let y7 := sh (Z.land y (ym 3%nat)) 8 in
  let retval := lor_all [x0; x1; x2; x3; x4; x5; x6; x7; y0; y1; y2; y3; y4; y5; y6; y7] in
  if negb (xm 4%nat =? 0) || negb (ym 4%nat =? 0) then                  (* :76 *)
    let x8 := sh (Z.land x (xm 4%nat)) 8 in
    let x9 := sh (Z.land x (xm 5%nat)) 9 in
    let x10 := sh (Z.land x (xm 6%nat)) 10 in
    let y8 := sh (Z.land y (ym 4%nat)) 9 in
    let y9 := sh (Z.land y (ym 5%nat)) 10 in
    let y10 := sh (Z.land y (ym 6%nat)) 11 in
    let retval := lor_all [retval; x8; x9; x10; y8; y9; y10] in
    if negb (xm 7%nat =? 0) || negb (ym 7%nat =? 0) then                (* :86 *)
      let x11 := sh (Z.land x (xm 7%nat)) 11 in
      let x12 := sh (Z.land x (xm 8%nat)) 12 in
      let x13 := sh (Z.land x (xm 9%nat)) 13 in
      let y11 := sh (Z.land y (ym 7%nat)) 12 in
      let y12 := sh (Z.land y (ym 8%nat)) 13 in
      let y13 := sh (Z.land y (ym 9%nat)) 14 in
      lor_all [retval; x11; x12; x13; y11; y12; y13]
    else retval
  else retval.
