(** Model of datas/base_128.hpp (bint128 and buint128).
    A stream is the list of bytes still to be read; reading a byte from an
    exhausted stream leaves an uninitialised variable in the C++ code, so it is
    the separate outcome [None].  A Write is the list of bytes it appends. *)
From Verif Require Import Base.

(** buint128::Read, datas/base_128.hpp:97-115.  The for loop runs [id] from 0
    to 8; [n] is the number of iterations left. *)
Fixpoint bu_read_loop (n : nat) (id : Z) (value : Z) (s : list Z) : option (Z * list Z) :=
  match n with
  | O => Some (value, s)
  | S n' =>
    match s with
    | [] => None
    | c :: s' =>
      let value' :=
        if id =? 8
        then Z.lor value (u64 (Z.shiftl c 56))                           (* :103-104 *)
        else Z.lor value (u64 (Z.shiftl (Z.land c 127) (7 * id))) in     (* :105-107 *)
      if Z.land c 128 =? 0 then Some (value', s')                        (* :109-111 *)
      else bu_read_loop n' (id + 1) value' s'
    end
  end.
Definition buint128_Read (s : list Z) : option (Z * list Z) := bu_read_loop 9 0 0 s.

(** buint128::Write, datas/base_128.hpp:117-134.  The [while (true)] loop runs
    on fuel; running out of fuel is [None]. *)
Fixpoint bu_write_loop (fuel : nat) (index : Z) (valueCopy : Z) : option (list Z) :=
  match fuel with
  | O => None
  | S f =>
    let lastValue := u8 valueCopy in                                     (* :122 *)
    let valueCopy' := Z.shiftr valueCopy 7 in                            (* :123 *)
    if (valueCopy' =? 0) || (index =? 8)                                 (* :125 *)
    then Some [lastValue]                                                (* :126 *)
    else match bu_write_loop f (index + 1) valueCopy' with               (* :129,132 *)
         | Some bs => Some (Z.lor lastValue 128 :: bs)
         | None => None
         end
  end.
Definition buint128_Write (value : Z) : option (list Z) := bu_write_loop 20 0 value.

(** bint128::Read, datas/base_128.hpp:30-53; [value] is an int64. *)
Fixpoint bi_read_loop (n : nat) (id : Z) (value : Z) (s : list Z) : option (Z * list Z) :=
  match n with
  | O => Some (value, s)
  | S n' =>
    match s with
    | [] => None
    | c :: s' =>
      if id <? 8 then                                                    (* :36 *)
        if Z.land c 128 =? 0 then                                        (* :37 *)
          let v := Z.lor value (sgn 64 (Z.shiftl (Z.land c 63) (7 * id))) in   (* :38 *)
          Some (if Z.land c 64 =? 0 then v else Z.lnot v, s')            (* :40-43 *)
        else
          bi_read_loop n' (id + 1)
            (Z.lor value (sgn 64 (Z.shiftl (Z.land c 127) (7 * id)))) s' (* :45 *)
      else
        bi_read_loop n' (id + 1)
          (Z.lor value (sgn 64 (Z.shiftl c (7 * id)))) s'                (* :48 *)
    end
  end.
Definition bint128_Read (s : list Z) : option (Z * list Z) := bi_read_loop 9 0 0 s.

(** bint128::Write, datas/base_128.hpp:55-86: the loop :63-73 returns the bytes
    written so far together with lastValue and lastIndex. *)
Fixpoint bi_write_loop (fuel : nat) (valueCopy lastIndex : Z) : option (list Z * Z * Z) :=
  match fuel with
  | O => None
  | S f =>
    let lastValue := u8 valueCopy in                                     (* :64 *)
    let valueCopy' := Z.shiftr valueCopy 7 in                            (* :65 *)
    if valueCopy' =? 0 then Some ([], lastValue, lastIndex)              (* :67-69 *)
    else match bi_write_loop f valueCopy' (lastIndex + 1) with
         | Some (bs, lv, li) => Some (Z.lor lastValue 128 :: bs, lv, li) (* :71-72 *)
         | None => None
         end
  end.

Definition bint128_Write (value : Z) : option (list Z) :=
  let sign := (value <? 0) && (Z.lnot (Z.shiftr value 56) =? 0) in       (* :58 *)
  let valueCopy := u64 (if sign then Z.lnot value else value) in         (* :59 *)
  match bi_write_loop 20 valueCopy 0 with
  | None => None
  | Some (bs, lastValue, lastIndex) =>
    if lastIndex <? 8 then                                               (* :75 *)
      let signMask := if sign then 64 else 0 in                          (* :76 *)
      if negb (Z.land lastValue 64 =? 0) then                            (* :77 *)
        Some (bs ++ [Z.lor lastValue 128; signMask])                     (* :78-79 *)
      else
        Some (bs ++ [Z.lor lastValue signMask])                          (* :81 *)
    else
      Some (bs ++ [lastValue])                                           (* :84 *)
  end.
