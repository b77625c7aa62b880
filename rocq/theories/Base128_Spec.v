(** Specification vocabulary for C01/C02: values written back to back with a
    writer [w] and read back one after another with a reader [rd]. *)
From Verif Require Import Base.

Fixpoint write_seq (w : Z -> option (list Z)) (vs : list Z) : option (list Z) :=
  match vs with
  | [] => Some []
  | v :: r => match w v, write_seq w r with
              | Some b, Some bs => Some (b ++ bs)
              | _, _ => None
              end
  end.
Fixpoint read_seq (rd : list Z -> option (Z * list Z)) (n : nat) (s : list Z) : option (list Z * list Z) :=
  match n with
  | O => Some ([], s)
  | S n' => match rd s with
            | None => None
            | Some (v, s') => match read_seq rd n' s' with
                              | None => None
                              | Some (vs, s'') => Some (v :: vs, s'')
                              end
            end
  end.

