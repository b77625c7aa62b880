(** What is in a loaded reflection database: an independent reader that starts at a class record and
    follows the pointers, the way a user of the object does. *)
From Verif Require Import Base RefDb_Model.
Local Open Scope Z_scope.

Section View.
(** the buffer: its address, its size and its bytes *)
Variables (base size : Z) (m : Z -> Z).
(** [n] bytes at an offset in the buffer *)
Definition bytes (n : nat) (a : Z) : option (list Z) :=
  if (0 <=? a) && (a + Z.of_nat n <=? size) then Some (map (fun i => m (a + Z.of_nat i)) (seq 0 n)) else None.
Definition number (n : nat) (a : Z) : option Z := l <- bytes n a ;; Some (le_value l).
(** a terminated string of at most [n] bytes *)
Fixpoint string_at (n : nat) (a : Z) : option (list Z) :=
  match n with
  | O => None
  | S n' => b <- number 1 a ;; if b =? 0 then Some [] else r <- string_at n' (a + 1) ;; Some (b :: r)
  end.
Definition some_string (a : Z) : option (list Z) := string_at (S (Z.to_nat size)) a.
(** [n] elements of [w] bytes each *)
Fixpoint each {A} (n : nat) (w a : Z) (f : Z -> option A) : option (list A) :=
  match n with O => Some [] | S n' => x <- f a ;; r <- each n' w (a + w) f ;; Some (x :: r) end.
(** what a pointer stored at [a] leads to, or [None] for a null pointer *)
Definition target {A} (a : Z) (f : Z -> option A) : option (option A) :=
  p <- number 8 a ;; if p =? 0 then Some None else x <- f (p - base) ;; Some (Some x).
Definition must {A} (o : option (option A)) : option A := match o with Some (Some x) => Some x | _ => None end.
(** a view: pointer and number of bytes.  An empty view has a null pointer. *)
Definition view_at (a : Z) : option (list Z) :=
  n <- number 8 (a + 8) ;; t <- target a (bytes (Z.to_nat n)) ;;
  match t with Some x => Some x | None => if n =? 0 then Some [] else None end.
(** the class whose 56 byte record starts at [q] (reflectorStatic: two words, six pointers) *)
Definition class_at (q : Z) : option cls :=
  h <- number 4 q ;;
  n' <- number 4 (q + 4) ;;
  let n := Z.to_nat n' in
  ts <- must (target (q + 8) (fun a => each n 16 a (bytes 16))) ;;
  ns <- target (q + 16) (fun a => each n 8 a (fun a => must (target a some_string))) ;;
  cn <- target (q + 24) some_string ;;
  al <- target (q + 32) (fun a => each n 8 a (fun a => target a some_string)) ;;
  ah <- target (q + 40) (fun a => each n 4 a (number 4)) ;;
  ds <- target (q + 48) (fun a => each n 32 a (fun a => x <- view_at a ;; y <- view_at (a + 16) ;; Some (x, y))) ;;
  Some (Cls h ts ns cn al ah ds).
(** an enumeration: hash, names, where its values are, name *)
Definition enum_of (e : Z * list text * Z * text) : option enm :=
  let '(h, ns, v, nm) := e in vs <- each (length ns) 8 v (number 8) ;; Some (Enm h ns vs nm).
End View.

(** The whole object *)
Fixpoint all {A} (l : list (option A)) : option (list A) :=
  match l with [] => Some [] | x :: r => y <- x ;; z <- all r ;; Some (y :: z) end.
Definition contents (base : Z) (r : loaded) : option db :=
  match r with
  | Refused _ => None
  | Loaded s m n es =>
    cs <- all (map (fun i => class_at base s m (56 * Z.of_nat i)) (seq 0 n)) ;;
    xs <- all (map (enum_of s m) es) ;; Some (Db cs xs)
  end.

(** What Save may be given *)
Definition string_ok (t : list Z) : Prop := Forall (fun b => 0 < b < 256) t.
Definition bytes_ok (t : list Z) : Prop := Forall (fun b => 0 <= b < 256) t.
Definition per_type {A} (c : cls) (o : option (list A)) (P : A -> Prop) : Prop :=
  match o with None => True | Some l => length l = length (types c) /\ Forall P l end.
Definition class_ok (c : cls) : Prop :=
  0 <= chash c < 2 ^ 32 /\
  Forall (fun t => length t = 16%nat /\ bytes_ok t) (types c) /\
  per_type c (names c) string_ok /\
  match cname c with None => True | Some t => string_ok t end /\
  per_type c (aliases c) (fun o => match o with None => True | Some t => string_ok t end) /\
  per_type c (ahashes c) (fun h => 0 <= h < 2 ^ 32) /\
  per_type c (descs c) (fun p => bytes_ok (fst p) /\ bytes_ok (snd p)).
Definition enum_ok (e : enm) : Prop :=
  0 <= ehash e < 2 ^ 32 /\ length (evalues e) = length (enames e) /\
  Forall (fun v => 0 <= v < 2 ^ 64) (evalues e) /\ Forall string_ok (enames e) /\ string_ok (ename e).
(** room for everything *)
Definition total (l : list Z) : Z := fold_right Z.add 0 l.
Definition len {A} (l : list A) : Z := Z.of_nat (length l).
Definition texts (l : list text) : Z := total (map (fun t => len t + 1) l).
Definition if_some {A} (o : option A) (f : A -> Z) : Z := match o with Some x => f x | None => 0 end.
Definition class_bytes (c : cls) : Z :=
  let n := len (types c) in
  56 + 16 * n +
  if_some (ahashes c) (fun _ => 4 * n) +
  if_some (names c) (fun l => 7 + 8 * n + texts l) +
  if_some (aliases c) (fun l => 7 + 8 * n + total (map (fun o => if_some o (fun t => len t + 1)) l)) +
  if_some (descs c) (fun l => 32 * n + total (map (fun p => len (fst p) + len (snd p) + 2) l)) +
  if_some (cname c) (fun t => len t + 1).
Definition enum_bytes (e : enm) : Z := 8 + 8 * len (evalues e) + 8 * (len (enames e) + 1) + texts (enames e ++ [ename e]).
Definition db_bytes (d : db) : Z := total (map class_bytes (classes d)) + 7 + total (map enum_bytes (enums d)).
Definition db_ok (d : db) : Prop := Forall class_ok (classes d) /\ Forall enum_ok (enums d) /\ db_bytes d < 2 ^ 31.

(** The same database without the hashes of the aliases *)
Definition no_hashes (c : cls) : cls := Cls (chash c) (types c) (names c) (cname c) (aliases c) None (descs c).
Definition without_alias_hashes (d : db) : db := Db (map no_hashes (classes d)) (enums d).
