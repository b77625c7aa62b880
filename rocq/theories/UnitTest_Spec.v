(** What a check is supposed to check. *)
From Coq Require Import Strings.Ascii Strings.String.
From Verif Require Import Base Reflector_Model Errors_Model UnitTest_Model.

(** The value an argument has by itself, when it is an expression *)
Definition means (env : nat -> Z) (a : arg) (x : Z) : Prop := exists e, parse (toks a) = Some e /\ eval env e = x.
(** The outermost operator of an argument binds more tightly than the ten levels (one operand), or than
    the operator [o] *)
Definition one_operand (a : arg) : Prop := exists e, parse (toks a) = Some e /\ match e with EBin _ _ _ => False | _ => True end.
Definition tighter (a : arg) (o : binop) : Prop :=
  exists e, parse (toks a) = Some e /\ match e with EBin o' _ _ => (prec o < prec o')%nat | _ => True end.

(** The relation a comparison check asks for, and how its opposite is written *)
Definition asked (c : cmp) (x y : Z) : Prop :=
  match c with
  | TEST_EQUAL => x = y | TEST_NOT_EQUAL => x <> y | TEST_GT => x > y | TEST_LT => x < y
  | TEST_GT_EQ => x >= y | TEST_LE_EQ => x <= y
  end.
Definition written (c : cmp) : list Z :=
  match c with
  | TEST_EQUAL => ascii " != " | TEST_NOT_EQUAL => ascii " == " | TEST_GT => ascii " <= " | TEST_LT => ascii " >= "
  | TEST_GT_EQ => ascii " < " | TEST_LE_EQ => ascii " > "
  end.

Section S.
  Context (env : nat -> Z) (file : list Z) (catches : nat -> nat -> bool).
  (** arguments written so that pasting does not regroup them *)
  Definition plain (s : stmt) : Prop :=
    match s with
    | TEST_CHECK v => one_operand v
    | TEST_NOT_CHECK v => exists x, means env v x
    | TEST_CMP c v1 v2 => tighter v1 (cmp_op c) /\ tighter v2 (cmp_op c)
    | TEST_THROW _ _ _ => True
    end.
  Definition holds (s : stmt) : Prop :=
    match s with
    | TEST_CHECK v => exists x, means env v x /\ x <> 0
    | TEST_NOT_CHECK v => means env v 0
    | TEST_CMP c v1 v2 => exists x y, means env v1 x /\ means env v2 y /\ asked c x y
    | TEST_THROW what _ b => exists ty, b = Throws ty /\ catches what ty = true
    end.
  Definition place (line : Z) : list Z := (file ++ ascii "(" ++ to_string line ++ ascii ")")%list.
  (** the line printed for a statement that does not hold *)
  Definition report (line : Z) (s : stmt) (m : list Z) : Prop :=
    match s with
    | TEST_CHECK v | TEST_NOT_CHECK v => m = (ascii "Check failed " ++ place line ++ ascii ": " ++ txt v)%list
    | TEST_CMP c v1 v2 =>
        exists x y, means env v1 x /\ means env v2 y /\
          m = (ascii "Check failed " ++ place line ++ ascii ": " ++ txt v1 ++ written c ++ txt v2 ++ ascii ", " ++
               to_string x ++ written c ++ to_string y)%list
    | TEST_THROW _ name Ends => m = (ascii "Expected throw " ++ place line)%list
    | TEST_THROW _ name (Throws _) => m = (ascii "Unhandled exception " ++ place line ++ ascii ": Expected " ++ name)%list
    end.
End S.
