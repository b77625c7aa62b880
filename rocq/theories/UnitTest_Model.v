(** Model of datas/unit_testing.hpp: the checks a test function is made of, and the list of cases.
    Characters as ASCII codes. *)
From Coq Require Import Strings.Ascii Strings.String.
From Verif Require Import Base Reflector_Model Errors_Model MacroLoop_Model Printer_Model.

(** * How the compiler reads an expression
    A macro pastes the tokens of its argument as they stand, so what an argument means depends on what is
    around it.  [TAtom] is anything that is one operand whatever surrounds it: a name, a literal, a call,
    an index or member access.  Of the operators, ! and the two-operand ones the C++ grammar puts on
    ten levels (multiplicative 10, additive 9, shift 8, relational 7, equality 6, & 5, ^ 4, | 3, && 2,
    || 1); not the conditional operator, assignment and comma. *)
Inductive binop := OMul | OAdd | OSub | OShl | OLt | OLe | OGt | OGe | OEq | ONe | OBand | OBxor | OBor | OAnd | OOr.
Definition prec (o : binop) : nat :=
  match o with
  | OMul => 10 | OAdd | OSub => 9 | OShl => 8 | OLt | OLe | OGt | OGe => 7 | OEq | ONe => 6
  | OBand => 5 | OBxor => 4 | OBor => 3 | OAnd => 2 | OOr => 1
  end.
Inductive tok := TAtom (n : nat) | TOp (o : binop) | TNot | TOpen | TClose.
Inductive expr := EAtom (n : nat) | ENot (e : expr) | EPar (e : expr) | EBin (o : binop) (l r : expr).

(** All two-operand operators group to the left; [fuel] bounds the number of calls *)
Fixpoint parse_bin (fuel : nat) (p : nat) (ts : list tok) : option (expr * list tok) :=
  match fuel with
  | O => None
  | S k => match parse_un k ts with Some (e, r) => climb k p e r | None => None end
  end
with parse_un (fuel : nat) (ts : list tok) : option (expr * list tok) :=
  match fuel with
  | O => None
  | S k =>
      match ts with
      | TAtom n :: r => Some (EAtom n, r)
      | TNot :: r => match parse_un k r with Some (e, r') => Some (ENot e, r') | None => None end
      | TOpen :: r => match parse_bin k 1 r with Some (e, TClose :: r') => Some (EPar e, r') | _ => None end
      | _ => None
      end
  end
with climb (fuel : nat) (p : nat) (l : expr) (ts : list tok) : option (expr * list tok) :=
  match fuel with
  | O => None
  | S k =>
      match ts with
      | TOp o :: r =>
          if (p <=? prec o)%nat
          then match parse_bin k (S (prec o)) r with Some (e, r') => climb k p (EBin o l e) r' | None => None end
          else Some (l, ts)
      | _ => Some (l, ts)
      end
  end.
(** the whole text is one expression *)
Definition parse (ts : list tok) : option expr :=
  match parse_bin (3 * length ts + 1) 1 ts with Some (e, []) => Some e | _ => None end.

Definition b2z (b : bool) : Z := if b then 1 else 0.
Definition binval (o : binop) (x y : Z) : Z :=
  match o with
  | OMul => x * y | OAdd => x + y | OSub => x - y | OShl => Z.shiftl x y
  | OLt => b2z (x <? y) | OLe => b2z (x <=? y) | OGt => b2z (y <? x) | OGe => b2z (y <=? x)
  | OEq => b2z (x =? y) | ONe => b2z (negb (x =? y))
  | OBand => Z.land x y | OBxor => Z.lxor x y | OBor => Z.lor x y
  | OAnd => b2z (negb (x =? 0) && negb (y =? 0)) | OOr => b2z (negb (x =? 0) || negb (y =? 0))
  end%Z.
(** Integer values, without overflow; operands have no side effects *)
Fixpoint eval (env : nat -> Z) (e : expr) : Z :=
  match e with
  | EAtom n => env n
  | ENot e => b2z (eval env e =? 0)%Z
  | EPar e => eval env e
  | EBin o l r => binval o (eval env l) (eval env r)
  end.

(** * A macro argument: its tokens and its text, what # makes of it *)
Record arg := Arg { toks : list tok; txt : list Z }.
(** unit_testing.hpp:94-99 TEST_EQUAL, 101-106 TEST_GT, 108-113 TEST_LT, 115-119 TEST_GT_EQ,
    121-125 TEST_LE_EQ, 133-138 TEST_NOT_EQUAL *)
Inductive cmp := TEST_EQUAL | TEST_GT | TEST_LT | TEST_GT_EQ | TEST_LE_EQ | TEST_NOT_EQUAL.
(** the operator each of them puts between its arguments *)
Definition cmp_op (c : cmp) : binop :=
  match c with TEST_EQUAL => ONe | TEST_GT => OLe | TEST_LT => OGe | TEST_GT_EQ => OLt | TEST_LE_EQ => OGt | TEST_NOT_EQUAL => OEq end.
(** and the text of it each of them passes to PrintCheckFailed *)
Definition cmp_txt (c : cmp) : list Z :=
  match c with
  | TEST_EQUAL => ascii " != " | TEST_GT => ascii " <= " | TEST_LT => ascii " >= "
  | TEST_GT_EQ => ascii " < " | TEST_LE_EQ => ascii " > " | TEST_NOT_EQUAL => ascii " == "
  end.
(** what the statements in a TEST_THROW do: end, or throw an exception of some type *)
Inductive body := Ends | Throws (ty : nat).
Inductive stmt :=
| TEST_CHECK (v : arg)
| TEST_NOT_CHECK (v : arg)
| TEST_CMP (c : cmp) (v1 v2 : arg)
| TEST_THROW (what : nat) (name : list Z) (b : body).

Section Run.
  (** __FILE__, and whether a handler for [what &] accepts an exception of type [ty] *)
  Context (env : nat -> Z) (file : list Z) (catches : nat -> nat -> bool).

  (** if (tokens): None is a text the compiler refuses *)
  Definition cond (ts : list tok) : option bool := option_map (fun e => negb (eval env e =? 0)%Z) (parse ts).
  (** unit_testing.hpp:23-25 *)
  Definition check_failed (line : Z) (t : list Z) : list Z :=
    (ascii "Check failed " ++ file ++ ascii "(" ++ to_string line ++ ascii "): " ++ t)%list.
  (** unit_testing.hpp:57-68, with the value of each argument (28-55: as GCC 7 and later print it; a
      call argument is an expression of its own) *)
  Definition PrintCheckFailed (a b : Z) (aName bName op : list Z) (line : Z) : list Z :=
    check_failed line (aName ++ op ++ bName ++ ascii ", " ++ to_string a ++ op ++ to_string b)%list.
  Definition value (a : arg) : option Z := option_map (eval env) (parse (toks a)).

  (** One statement at a line: whether it returns 1, and the ERROR line it prints *)
  Definition step (line : Z) (s : stmt) : option (option (list Z)) :=
    match s with
    (* unit_testing.hpp:88-92 *)
    | TEST_CHECK v =>
        match cond (TNot :: toks v) with
        | Some c => Some (if c then Some (check_failed line (txt v)) else None)
        | None => None end
    (* unit_testing.hpp:127-131 *)
    | TEST_NOT_CHECK v =>
        match cond (toks v) with
        | Some c => Some (if c then Some (check_failed line (txt v)) else None)
        | None => None end
    (* unit_testing.hpp:94-125, 133-138 *)
    | TEST_CMP c v1 v2 =>
        match cond (toks v1 ++ TOp (cmp_op c) :: toks v2)%list, value v1, value v2 with
        | Some c', Some a, Some b =>
            Some (if c' then Some (PrintCheckFailed a b (txt v1) (txt v2) (cmp_txt c) line) else None)
        | _, _, _ => None end
    (* unit_testing.hpp:70-86 *)
    | TEST_THROW what name b =>
        Some (match b with
              | Ends => Some (ascii "Expected throw " ++ file ++ ascii "(" ++ to_string line ++ ascii ")")%list
              | Throws ty =>
                  if catches what ty then None
                  else Some (ascii "Unhandled exception " ++ file ++ ascii "(" ++ to_string line ++ ascii "): Expected " ++ name)%list
              end)
    end.
  (** A test function: its statements with their lines, then return 0.  The result, what is printed and
      how many statements were run. *)
  Fixpoint run (l : list (Z * stmt)) : option (Z * list (list Z) * nat) :=
    match l with
    | [] => Some (0, [], O)
    | (line, s) :: r =>
        match step line s with
        | None => None
        | Some (Some m) => Some (1, [m], 1%nat)
        | Some None => match run r with Some (res, ms, n) => Some (res, ms, S n) | None => None end
        end
    end.
End Run.

(** * TEST_CASES: 149-156, of TEST_FUNCs: 140-147.  A case is the name of a function and what it returns;
    the lines printed, with their kind, and the value of the result variable *)
Definition test_func (c : list Z * Z) : list (mptype * list Z) :=
  if (snd c =? 0)%Z then [] else [(ERR, (ascii "Method " ++ fst c ++ ascii " failed!")%list)].
Definition TEST_CASES (cases : list (list Z * Z)) : option (list (mptype * list Z) * Z) :=
  match VA_NARGS cases, StaticFor cases with
  | Some (inr n), Some done =>
      let ran := flat_map (fun o => match o with Some c => [c] | None => [] end) done in
      let _tstVal := fold_left (fun a c => a + snd c)%Z ran 0%Z in
      Some ([(MSG, (ascii "Testing " ++ to_string (Z.of_nat n) ++ ascii " cases.")%list)] ++ flat_map test_func ran ++
            [(MSG, (ascii "Testing result: " ++ to_string (Z.of_nat n - _tstVal) ++ ascii " out of " ++
                    to_string (Z.of_nat n) ++ ascii " successed.")%list)], _tstVal)
  | _, _ => None
  end%list.
