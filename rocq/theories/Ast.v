(** pkg/core/ast: the syntax tree. *)
From Verif Require Export Dice.
Open Scope list_scope.
Open Scope Z_scope.

(** ast/divide.go:6-13 [RoundingMethodType] *)
Inductive rounding := RoundDown | RoundHalf | RoundUp.

(** ast/divide.go:16-29 [RoundingMethodType.String] *)
Definition rounding_string (r : rounding) : string :=
  match r with RoundDown => "" | RoundHalf => "R" | RoundUp => "U" end.

(** The five kinds of [VariableInfixExpression], ast/variable_infix_expression.go:50-91. *)
Inductive vkind := KD | KB | KR | KU | KRand.

(** The infix nodes: [BasicInfixExpression] made by NewAdd, NewSubtract, NewMultiply, NewCompare
    (ast/basic_infix_expression.go:23-110; the comparison operator is an arbitrary string in Go),
    [Divide] (ast/divide.go:57-105) and [VariableInfixExpression]. *)
Inductive infixop :=
| OpAdd | OpSub | OpMul | OpDiv (r : rounding) | OpCmp (op : string) | OpVar (k : vkind).

(** Command node types, ast/node.go:17-27 and ast/command.go:55-95. *)
Inductive cmdtype := CCalc | CDRollExpr | CDRollComp | CBRollComp | CRRollComp | CURollComp.

(** AST nodes.  A Go [*VariableInfixExpression] stored in a list is a [vroll]
    (kind, left, right); the bonus of a [URollExpr] is a possibly nil [InfixExpression].
    [NNull] is a Go nil [Node] interface value (only reachable by building trees by hand).
    Go mutates nodes in place; the model returns the new node instead. *)
Inductive node :=
| NNull
| NNil                                     (* ast/nil.go:13-16 *)
| NInt (v : Z)                             (* ast/int.go *)
| NString (s : string)                     (* ast/string.go:8-15 *)
| NSumRoll (ds : list die)                 (* ast/sum_roll_result.go:10-17 *)
| NNeg (right : node)                      (* ast/prefix_expression.go:92-103 *)
| NInfix (op : infixop) (left right : node)
| NBRollList (rolls : list vroll)          (* ast/b_roll_list.go:9-17 *)
| NRRollList (rolls : list vroll) (th : node)            (* ast/r_roll_list.go:9-18 *)
| NURollExpr (rolls : list vroll) (th : node) (bonus : option bonus) (* ast/u_roll_expr.go:9-18 *)
| NChoice (items : list string)            (* ast/choice.go:8-15 *)
| NCommand (t : cmdtype) (e : node)        (* ast/command.go:8-14 *)
with vroll := VRoll (k : vkind) (num sides : node)
with bonus := Bonus (op : infixop) (left right : node).

(** ast/node.go:53-88 [NodeType.String] composed with [Type()] *)
Definition vkind_type (k : vkind) : string :=
  match k with KD => "DRoll" | KB => "BRoll" | KR => "RRoll" | KU => "URoll" | KRand => "RandomNumber" end.
Definition op_type (op : infixop) : string :=
  match op with
  | OpAdd => "Add" | OpSub => "Subtract" | OpMul => "Multiply"
  | OpDiv RoundUp => "DivideWithRoundingUp" | OpDiv RoundHalf => "DivideWithRounding"
  | OpDiv RoundDown => "DivideWithRoundingDown"
  | OpCmp _ => "Compare" | OpVar k => vkind_type k
  end.
Definition cmd_type (t : cmdtype) : string :=
  match t with
  | CCalc => "Calc" | CDRollExpr => "DRollExpr" | CDRollComp => "DRollComp"
  | CBRollComp => "BRollComp" | CRRollComp => "RRollComp" | CURollComp => "URollComp"
  end.
Definition node_type (n : node) : string :=
  match n with
  | NNull => ""   (* calling Type() on nil panics; callers test [is_null] first *)
  | NNil => "Nil" | NInt _ => "Int" | NString _ => "String" | NSumRoll _ => "SumRollResult"
  | NNeg _ => "UnaryMinus" | NInfix op _ _ => op_type op
  | NBRollList _ => "BRollList" | NRRollList _ _ => "RRollList" | NURollExpr _ _ _ => "URollExpr"
  | NChoice _ => "Choice" | NCommand t _ => cmd_type t
  end.

Definition is_null (n : node) : bool := match n with NNull => true | _ => false end.

(** ast/nil.go:7-9, 35-37 [IsNil] *)
Definition is_nil (n : node) : bool := match n with NNil => true | _ => false end.

(** [Operator()]: ast/basic_infix_expression.go:32,55,78,102, ast/divide.go:59,
    ast/variable_infix_expression.go:10-16 *)
Definition vkind_operator (k : vkind) : string :=
  match k with KD => "D" | KB => "B" | KR => "R" | KU => "U" | KRand => "..." end.
Definition op_string (op : infixop) : string :=
  match op with
  | OpAdd => "+" | OpSub => "-" | OpMul => "*"
  | OpDiv r => ("/" ++ rounding_string r)%string
  | OpCmp s => s
  | OpVar k => vkind_operator k
  end.

(** ast/operator_precedence.go:6-21 and the constructors *)
Definition op_prec (op : infixop) : Z :=
  match op with
  | OpCmp _ => 1
  | OpAdd | OpSub => 2
  | OpMul | OpDiv _ => 3
  | OpVar KRand => 5
  | OpVar _ => 4
  end.
(** [IsLeftAssociative], [IsRightAssociative] *)
Definition op_lassoc (op : infixop) : bool :=
  match op with OpAdd | OpSub | OpMul | OpDiv _ => true | OpCmp _ | OpVar _ => false end.
Definition op_rassoc (op : infixop) : bool :=
  match op with OpAdd | OpMul => true | _ => false end.

(** [IsPrimaryExpression]: the isPrimaryExpression field set by each constructor. *)
Definition is_primary (n : node) : bool :=
  match n with
  | NNil | NInt _ | NString _ | NSumRoll _ => true
  | NInfix (OpVar _) _ _ => true
  | _ => false
  end.

(** [IsVariable]: ast/variable_node.go:8-19, basic_infix_expression.go:15-17,
    prefix_expression.go:85-87, command.go:23-25.  On a nil child Go panics; the model
    answers false there (the only callers, [evaluator], are guarded in the model). *)
Fixpoint is_variable (n : node) : bool :=
  match n with
  | NNull | NNil | NInt _ | NString _ | NSumRoll _ => false
  | NNeg r => is_variable r
  | NInfix (OpVar _) _ _ => true
  | NInfix _ l r => is_variable l || is_variable r
  | NBRollList _ | NRRollList _ _ | NURollExpr _ _ _ | NChoice _ => true
  | NCommand _ e => is_variable e
  end.

(** ast/sum_roll_result.go:41-49 [SumRollResult.Value] *)
Definition sum_roll_value (ds : list die) : Z := sum64 (map die_value ds).
