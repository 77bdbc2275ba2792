(** S-expressions of syntax trees: the SExp methods of pkg/core/ast. *)
From Verif Require Export Eval Quote.
Open Scope list_scope.
Open Scope Z_scope.

Section Quoting.
  Variable printable : Z -> bool.
(** OperatorForSExp: basic_infix_expression.go:33,56,79,103, divide.go:71, variable_infix_expression.go:41 *)
Definition op_sexp (op : infixop) : string :=
  match op with OpVar k => vkind_type k | _ => op_string op end.

(** infix_expression.go:106-124, prefix_expression.go:69-79, int.go:36-38, nil.go:40-42, string.go:35-37,
    choice.go:35-48, b_roll_list.go:37-50, r_roll_list.go:40-55, u_roll_expr.go:37-55, sum_roll_result.go:52-60,
    command.go:28-38.  A nil child of an infix or prefix node prints as nil; calling SExp on any other nil node panics
    in Go, here it prints "nil" as well (not reachable for parsed commands). *)
Fixpoint sexp_with (n : node) : string :=
  let roll (v : vroll) : string :=
    match v with VRoll k l r => ("(" ++ vkind_type k ++ " " ++ sexp_with l ++ " " ++ sexp_with r ++ ")")%string end in
  let rlist (rolls : list vroll) (th : node) : string :=
    ("(RRollList " ++ sexp_with th ++ " " ++ join " " (map roll rolls) ++ ")")%string in
  match n with
  | NNull => "nil"
  | NNil => "nil"
  | NInt v => itoa v
  | NString s => quote printable s
  | NSumRoll ds => ("(SumRollResult " ++ join " " (map die_sexp ds) ++ ")")%string
  | NNeg r => ("(- " ++ sexp_with r ++ ")")%string
  | NInfix op l r => ("(" ++ op_sexp op ++ " " ++ sexp_with l ++ " " ++ sexp_with r ++ ")")%string
  | NBRollList rolls => ("(BRollList " ++ join " " (map roll rolls) ++ ")")%string
  | NRRollList rolls th => rlist rolls th
  | NURollExpr rolls th b =>
      match b with
      | None => ("(URollExpr " ++ rlist rolls th ++ ")")%string
      | Some (Bonus op _ r) => ("(URollExpr (" ++ op_sexp op ++ " " ++ rlist rolls th ++ " " ++ sexp_with r ++ "))")%string
      end
  | NChoice items => ("(Choice" ++ fold_right (fun s acc => " " ++ quote printable s ++ acc) ")" items)%string
  | NCommand t e => ("(" ++ cmd_type t ++ " " ++ sexp_with e ++ ")")%string
  end.
End Quoting.
(** The S-expression of a node *)
Definition sexp : node -> string := sexp_with is_print.
