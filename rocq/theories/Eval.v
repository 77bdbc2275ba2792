(** pkg/core/evaluator: evaluation of syntax trees. *)
From Verif Require Export Ast Object Float Comp.
Open Scope list_scope.
Open Scope Z_scope.
Open Scope comp_scope.

(** evaluator.go:41: the default of the exported field MaxRerolls *)
Definition default_max_rerolls : Z := 10000.

(** Go runtime panics *)
Definition panic_nil {A} : comp A := CPanic "invalid memory address or nil pointer dereference".
Definition panic_type {A} : comp A := CPanic "interface conversion".
Definition panic_index {A} : comp A := CPanic "index out of range".

(** evaluator.go:107-109 [objectToIntNode] (the integer itself) *)
Definition obj_int (o : obj) : comp Z :=
  match o with OInt v => CRet v | _ => panic_type end.

(** eval_infix_expression.go:146-164 [evalSumRoll] *)
Definition eval_sum_roll (num sides : Z) : comp obj :=
  CRoll num sides (fun ds => CRet (OInt (sum64 (map die_value ds)))).

(** eval_infix_expression.go:168-186 [evalBasicRoll] *)
Definition eval_basic_roll (num sides : Z) : comp obj :=
  CRoll num sides (fun ds => CRet (OArray (map (fun d => OInt (die_value d)) ds))).

(** eval_infix_expression.go:189-214 [evalRandomNumber] *)
Definition eval_random_number (min max : Z) : comp obj :=
  if max <=? min then
    CErr ("evalRandomNumber: min (" ++ itoa min ++ ") must be less than max (" ++ itoa max ++ ")")%string
  else
    let rand_range := wrap64 (wrap64 (max - min) + 1) in
    CRoll 1 rand_range (fun ds =>
      match ds with
      | d :: _ => CRet (OInt (wrap64 (wrap64 (min - 1) + die_value d)))
      | [] => panic_index
      end).

(** eval_infix_expression.go:72-109 [evalIntegerInfixExpression] *)
Definition eval_int_infix (operator : string) (l r : Z) : comp obj :=
  if String.eqb operator "+" then CRet (OInt (wrap64 (l + r)))
  else if String.eqb operator "-" then CRet (OInt (wrap64 (l - r)))
  else if String.eqb operator "*" then CRet (OInt (wrap64 (l * r)))
  else if String.eqb operator "D" then eval_sum_roll l r
  else if String.eqb operator "B" then eval_basic_roll l r
  else if String.eqb operator "R" then eval_basic_roll l r
  else if String.eqb operator "..." then eval_random_number l r
  else if String.eqb operator "=" then CRet (OBool (l =? r))
  else if String.eqb operator "<>" then CRet (OBool (negb (l =? r)))
  else if String.eqb operator "<" then CRet (OBool (l <? r))
  else if String.eqb operator ">" then CRet (OBool (r <? l))
  else if String.eqb operator "<=" then CRet (OBool (l <=? r))
  else if String.eqb operator ">=" then CRet (OBool (r <=? l))
  else CErr ("operator not implemented: INTEGER " ++ operator ++ " INTEGER")%string.

(** eval_infix_expression.go:112-143 [evalIntegerDivide] *)
Definition eval_int_divide (m : rounding) (l r : Z) : comp obj :=
  if r =? 0 then CErr (itoa l ++ " divided by zero")%string
  else match m with
       | RoundDown => CRet (OInt (wrap64 (Z.quot l r)))
       | RoundHalf => CRet (OInt (div_round l r))
       | RoundUp => CRet (OInt (div_ceil l r))
       end.

(** eval_infix_expression.go:39-69 [evalInfixExpressionOperands].  An operand is [None] if it is
    a nil node, otherwise its evaluation.  (Lines 55-57 and 64-66 test for a nil object without an
    error, which [Eval] never returns; not modelled.) *)
Definition eval_operands (operator : string) (l r : option (comp obj)) : comp (obj * obj) :=
  match l with
  | None => CErr ("operator " ++ operator ++ ": left is nil")%string
  | Some ml =>
      match r with
      | None => CErr ("operator " ++ operator ++ ": right is nil")%string
      | Some mr => a <- ml ;; b <- mr ;; CRet (a, b)
      end
  end.

(** eval_infix_expression.go:12-34 [evalInfixExpression] *)
Definition eval_infix (op : infixop) (l r : option (comp obj)) : comp obj :=
  '(a, b) <- eval_operands (op_string op) l r ;;
  match a, b with
  | OInt x, OInt y =>
      match op with
      | OpDiv m => eval_int_divide m x y
      | _ => eval_int_infix (op_string op) x y
      end
  | _, _ => CErr ("operator not implemented: " ++ obj_type a ++ " " ++ op_string op ++ " " ++ obj_type b)%string
  end.

(** eval_prefix_expression.go:11-50 [evalPrefixExpression] for the only prefix operator "-" *)
Definition eval_prefix (r : option (comp obj)) : comp obj :=
  match r with
  | None => CErr "operator -: right is nil"
  | Some m =>
      o <- m ;;
      match o with
      | OInt v => CRet (OInt (wrap64 (- v)))
      | _ => CErr ("operator not implemented: -" ++ obj_type o)%string
      end
  end.

(** eval_infix_expression.go:217-242 [countNumOfSuccesses] *)
Fixpoint count_successes (values : list obj) (operator : string) (target : Z) (acc : Z) : comp Z :=
  match values with
  | [] => CRet acc
  | v :: rest =>
      x <- obj_int v ;;
      o <- eval_int_infix operator x target ;;
      match o with
      | OBool b => count_successes rest operator target (if b then acc + 1 else acc)
      | _ => panic_type
      end
  end.

(** A roll of a roll list with its operands as computations.  The Go code keeps the nodes and calls
    [e.Eval] on them each time; here the node is replaced by its (repeatable) evaluation. *)
Record qroll := QRoll { q_kind : vkind; q_num : option (comp obj); q_sides : option (comp obj) }.

(** [e.Eval(roll)] for a [*VariableInfixExpression] *)
Definition eval_qroll (q : qroll) : comp obj := eval_infix (OpVar (q_kind q)) (q_num q) (q_sides q).

(** eval_b_roll_list.go:9-23 [evalBRollList] *)
Fixpoint eval_b_roll_list (rolls : list qroll) (elements : list obj) : comp obj :=
  match rolls with
  | [] => CRet (OArray elements)
  | q :: rest =>
      o <- eval_qroll q ;;
      match o with
      | OArray l => eval_b_roll_list rest (elements ++ l)
      | _ => panic_type
      end
  end.

(** eval_r_roll_list.go:54-60: number of values at or above the threshold;
    [None] if an element is not an integer (failed type assertion) *)
Fixpoint count_ge (threshold : Z) (l : list obj) (acc : Z) : option Z :=
  match l with
  | [] => Some acc
  | OInt v :: rest => count_ge threshold rest (if threshold <=? v then acc + 1 else acc)
  | _ :: _ => None
  end.

(** eval_r_roll_list.go:34-70: the loop of [evalRRollList], [fuel] iterations left *)
Fixpoint eval_r_loop (fuel : nat) (threshold : Z) (queue : list qroll) (groups : list obj) : comp obj :=
  match fuel with
  | O => CRet (OArray groups)
  | S fuel' =>
      match queue with
      | [] => CRet (OArray groups)
      | q :: queue' =>
          o <- eval_qroll q ;;
          match o with
          | OArray values =>
              match count_ge threshold values 0 with
              | None => panic_type
              | Some n =>
                  let queue'' :=
                    if 0 <? n then queue' ++ [QRoll KR (Some (CRet (OInt n))) (q_sides q)] else queue' in
                  eval_r_loop fuel' threshold queue'' (groups ++ [OArray values])
              end
          | _ => panic_type
          end
      end
  end.

(** eval_r_roll_list.go:13-73 [evalRRollList]; [threshold] = evaluation of the threshold node *)
Definition eval_r_roll_list (mr : Z) (rolls : list qroll) (th_nil : bool) (threshold : comp obj) : comp obj :=
  if th_nil then CErr "evalRRollList: threshold is nil"
  else
    o <- threshold ;;
    match o with
    | OInt t => eval_r_loop (Z.to_nat mr) t rolls []
    | _ => panic_type
    end.

(** eval_u_roll_expr.go:107-119: the inner loop of [evalCompoundingRoll] *)
Fixpoint eval_u_chain (fuel : nat) (sides threshold : Z) (group : list obj) : comp (list obj) :=
  match fuel with
  | O => CRet group
  | S fuel' =>
      CRoll 1 sides (fun ds =>
        match ds with
        | d :: _ =>
            let group' := group ++ [OInt (die_value d)] in
            if die_value d <? threshold then CRet group'
            else eval_u_chain fuel' sides threshold group'
        | [] => panic_index
        end)
  end.

(** eval_u_roll_expr.go:104-123: the outer loop of [evalCompoundingRoll] *)
Fixpoint eval_u_groups (mr : Z) (n : nat) (sides threshold : Z) (groups : list obj) : comp (list obj) :=
  match n with
  | O => CRet groups
  | S n' =>
      g <- eval_u_chain (Z.to_nat mr) sides threshold [] ;;
      eval_u_groups mr n' sides threshold (groups ++ [OArray g])
  end.

(** eval_u_roll_expr.go:63-126 [evalCompoundingRoll] *)
Definition eval_compounding_roll (mr : Z) (q : qroll) (threshold : Z) : comp (list obj) :=
  '(l, r) <- eval_operands (vkind_operator (q_kind q)) (q_num q) (q_sides q) ;;
  match l with
  | OInt num =>
      match r with
      | OInt sides =>
          if sides <? 1 then
            CErr ("evalCompoundingRoll(num: " ++ itoa num ++ ", sides: " ++ itoa sides ++ "): ダイスの面数が少なすぎます")%string
          else if num <? 1 then
            CErr ("evalCompoundingRoll(num: " ++ itoa num ++ ", sides: " ++ itoa sides ++ "): 振るダイス数が少なすぎます")%string
          else if max_alloc_16 <? num then CPanic "makeslice: cap out of range"
          else eval_u_groups mr (Z.to_nat num) sides threshold []
      | _ => CErr "evalCompoundingRoll: evaluated sides is not an Integer"
      end
  | _ => CErr "evalCompoundingRoll: evaluated num is not an Integer"
  end.

(** eval_u_roll_expr.go:25-32: the loop of [evalURollList] *)
Fixpoint eval_u_rolls (mr : Z) (rolls : list qroll) (threshold : Z) (groups : list obj) : comp (list obj) :=
  match rolls with
  | [] => CRet groups
  | q :: rest =>
      gs <- eval_compounding_roll mr q threshold ;;
      eval_u_rolls mr rest threshold (groups ++ gs)
  end.

(** eval_u_roll_expr.go:11-35 [evalURollList] *)
Definition eval_u_roll_list (mr : Z) (rolls : list qroll) (th_nil : bool) (threshold : comp obj) : comp (list obj) :=
  if th_nil then CErr "evalURollList: threshold is nil"
  else
    o <- threshold ;;
    match o with
    | OInt t => eval_u_rolls mr rolls t []
    | _ => panic_type
    end.

(** eval_u_roll_expr.go:38-59 [evalURollExpr]; the bonus is evaluated before the rolls *)
Definition eval_u_roll_expr (mr : Z) (rolls : list qroll) (th_nil : bool) (threshold : comp obj)
    (bonus : option (comp obj)) : comp obj :=
  m <- match bonus with
       | None => CRet 0
       | Some b => o <- b ;; obj_int o
       end ;;
  groups <- eval_u_roll_list mr rolls th_nil threshold ;;
  CRet (OURollExpr groups m).

(** eval_choice.go:9-19 [evalChoice] *)
Definition eval_choice (items : list string) : comp obj :=
  CRoll 1 (Z.of_nat (length items)) (fun ds =>
    match ds with
    | d :: _ =>
        let index := wrap64 (die_value d - 1) in
        if (index <? 0) || (Z.of_nat (length items) <=? index) then panic_index
        else match nth_error items (Z.to_nat index) with
             | Some s => CRet (OString s)
             | None => panic_index
             end
    | [] => panic_index
    end).

(** The nodes of Go type BasicInfixExpression: additions, subtractions, multiplications and comparisons *)
Definition is_basic_op (op : infixop) : bool :=
  match op with OpAdd | OpSub | OpMul | OpCmp _ => true | OpDiv _ | OpVar _ => false end.

(** eval_b_roll_comp.go:9-32 [evalBRollComp] *)
Definition eval_b_roll_comp (operator : string) (l r : option (comp obj)) : comp obj :=
  '(values, target) <- eval_operands operator l r ;;
  match values with
  | OArray vs =>
      match target with
      | OInt t => n <- count_successes vs operator t 0 ;; CRet (OBRollComp vs n)
      | _ => panic_type
      end
  | _ => panic_type
  end.

(** eval_r_roll_comp.go:23-35: the loop of [evalRRollComp] *)
Fixpoint count_group_successes (groups : list obj) (operator : string) (target : Z) (acc : Z) : comp Z :=
  match groups with
  | [] => CRet acc
  | OArray vs :: rest =>
      n <- count_successes vs operator target 0 ;;
      count_group_successes rest operator target (wrap64 (acc + n))
  | _ :: _ => panic_type
  end.

(** eval_r_roll_comp.go:9-41 [evalRRollComp] *)
Definition eval_r_roll_comp (operator : string) (l r : option (comp obj)) : comp obj :=
  '(groups, target) <- eval_operands operator l r ;;
  match groups with
  | OArray gs =>
      match target with
      | OInt t => n <- count_group_successes gs operator t 0 ;; CRet (ORRollComp gs n)
      | _ => panic_type
      end
  | _ => panic_type
  end.

(** eval_u_roll_comp.go:9-42 [evalURollComp] *)
Definition eval_u_roll_comp (operator : string) (l r : option (comp obj)) : comp obj :=
  '(res, target) <- eval_operands operator l r ;;
  match res with
  | OURollExpr groups m =>
      sums <- clift (sum_of_groups groups) ;;
      match target with
      | OInt t =>
          n <- count_successes (map (fun s => OInt (wrap64 (s + m))) sums) operator t 0 ;;
          CRet (OURollComp groups m n)
      | _ => panic_type
      end
  | _ => panic_type
  end.

(** evaluator.go:51-89 [Eval], [evalCommand].  [mr] is the field MaxRerolls. *)
Section EvalSec.
  Variable mr : Z.

  Fixpoint eval (n : node) : comp obj :=
    let operand (c : node) : option (comp obj) := if is_null c then None else Some (eval c) in
    let roll (v : vroll) : qroll := match v with VRoll k l r => QRoll k (operand l) (operand r) end in
    match n with
    | NNull => panic_nil                      (* node.Type() on nil, line 74 *)
    | NNil => CErr "unknown type: Nil"
    | NString _ => CErr "unknown type: String"
    | NInt v => CRet (OInt v)
    | NSumRoll ds => CRet (OInt (sum_roll_value ds))
    | NNeg r => eval_prefix (operand r)
    | NInfix op l r => eval_infix op (operand l) (operand r)
    | NBRollList rolls => eval_b_roll_list (map roll rolls) []
    | NRRollList rolls th =>
        if is_null th then panic_nil
        else eval_r_roll_list mr (map roll rolls) (is_nil th) (eval th)
    | NURollExpr rolls th bonus =>
        eval_u_roll_expr mr (map roll rolls) (is_nil th)
          (if is_null th then panic_nil else eval th)
          (match bonus with
           | None => None
           | Some (Bonus op l r) => Some (eval_infix op (operand l) (operand r))
           end)
    | NChoice items => eval_choice items
    | NCommand t e =>
        match t with
        | CBRollComp | CRRollComp | CURollComp =>
            match e with
            | NInfix op l r =>
                if is_basic_op op then
                  match t with
                  | CBRollComp => eval_b_roll_comp (op_string op) (operand l) (operand r)
                  | CRRollComp => eval_r_roll_comp (op_string op) (operand l) (operand r)
                  | _ => eval_u_roll_comp (op_string op) (operand l) (operand r)
                  end
                else panic_type
            | _ => panic_type
            end
        | _ => eval e
        end
    end.

  Definition operand (c : node) : option (comp obj) := if is_null c then None else Some (eval c).
  Definition to_qroll (v : vroll) : qroll :=
    match v with VRoll k l r => QRoll k (operand l) (operand r) end.

  (** ** eval_var_args.go *)

  (** eval_var_args.go:47-62 [evalVarArgsOfRoll]: the new operands *)
  Definition eval_roll_args (l r : node) : comp (node * node) :=
    lo <- eval l ;;
    ro <- eval r ;;
    lv <- obj_int lo ;;
    rv <- obj_int ro ;;
    CRet (NInt lv, NInt rv).

  (** eval_var_args.go:37-44 [evalVarArgsOfVariableExpr] on a [*VariableInfixExpression] *)
  Definition var_args_of_vroll (k : vkind) (l r : node) : comp (node * node) :=
    match k with
    | KRand => CErr ("evalVarArgsOfVariableExpr not implemented: " ++ vkind_type k)%string
    | _ => eval_roll_args l r
    end.

  (** eval_var_args.go:37-44 on a node (only called on primary variable expressions) *)
  Definition var_args_of_variable_expr (n : node) : comp node :=
    match n with
    | NInfix (OpVar k) l r => '(l', r') <- var_args_of_vroll k l r ;; CRet (NInfix (OpVar k) l' r')
    | _ => CErr ("evalVarArgsOfVariableExpr not implemented: " ++ node_type n)%string
    end.

  (** eval_var_args.go:66-71, 89-94, 114-119: the loop over a roll list *)
  Fixpoint var_args_rolls (rolls : list vroll) : comp (list vroll) :=
    match rolls with
    | [] => CRet []
    | VRoll k l r :: rest =>
        '(l', r') <- var_args_of_vroll k l r ;;
        rest' <- var_args_rolls rest ;;
        CRet (VRoll k l' r' :: rest')
    end.

  (** eval_var_args.go:79-86, 104-111: the threshold *)
  Definition var_args_threshold (th : node) : comp node :=
    if is_null th then panic_nil
    else if is_nil th then CRet th
    else o <- eval th ;; v <- obj_int o ;; CRet (NInt v).

  (** eval_var_args.go:122-139: the bonus of a URollExpr *)
  Definition var_args_bonus (b : option bonus) : comp (option bonus) :=
    match b with
    | None => CRet None
    | Some (Bonus op l r) =>
        o <- eval_infix op (operand l) (operand r) ;;
        v <- obj_int o ;;
        CRet (if v =? 0 then None
              else if 0 <? v then Some (Bonus OpAdd (NInt 0) (NInt v))
              else Some (Bonus OpSub (NInt 0) (NInt (wrap64 (- v)))))
    end.

  (** eval_var_args.go:10-31 [EvalVarArgs] with 145-218 (in command, compare, prefix, infix).
      Returns the updated node.  (After an error Go leaves a partially updated tree, which no caller
      uses; the model returns only the error.) *)
  Fixpoint eval_var_args (n : node) : comp node :=
    let child (c : node) : comp node :=
      if is_null c then panic_nil
      else if is_primary c then
        (if is_variable c then var_args_of_variable_expr c else CRet c)
      else eval_var_args c in
    match n with
    | NNull => panic_nil
    | NBRollList rolls => rolls' <- var_args_rolls rolls ;; CRet (NBRollList rolls')
    | NRRollList rolls th =>
        th' <- var_args_threshold th ;;
        rolls' <- var_args_rolls rolls ;;
        CRet (NRRollList rolls' th')
    | NURollExpr rolls th b =>
        th' <- var_args_threshold th ;;
        rolls' <- var_args_rolls rolls ;;
        b' <- var_args_bonus b ;;
        CRet (NURollExpr rolls' th' b')
    | NCommand t e => e' <- child e ;; CRet (NCommand t e')
    | NNeg r => r' <- child r ;; CRet (NNeg r')
    | NInfix (OpCmp op) l r =>
        l' <- eval_var_args l ;;
        ro <- eval r ;;
        rv <- obj_int ro ;;
        CRet (NInfix (OpCmp op) l' (NInt rv))
    | NInfix op l r =>
        l' <- child l ;;
        r' <- child r ;;
        CRet (NInfix op l' r')
    | _ => CErr ("EvalVarArgs not implemented: " ++ node_type n)%string
    end.

  (** ** determine_values.go *)

  (** determine_values.go:30-52 [determineValueOfDRoll] *)
  Definition determine_d_roll (l r : node) : comp node :=
    match l with
    | NInt num =>
        match r with
        | NInt sides => CRoll num sides (fun ds => CRet (NSumRoll ds))
        | NNull => panic_nil
        | _ => CErr ("sides is not Int: " ++ node_type r)%string
        end
    | NNull => panic_nil
    | _ => CErr ("num is not Int: " ++ node_type l)%string
    end.

  (** determine_values.go:22-28 and 56-67 [determineValueOfVariableExpr], [replaceVariablePrimaryExpr] *)
  Definition replace_variable_primary (c : node) : comp node :=
    if is_variable c then
      match c with
      | NInfix (OpVar KD) l r => determine_d_roll l r
      | _ => CErr ("determineValueOfVariableExpr not implemented: " ++ node_type c)%string
      end
    else CRet c.

  (** determine_values.go:9-20, 69-115 [DetermineValues] *)
  Fixpoint determine_values (n : node) : comp node :=
    let child (c : node) : comp node :=
      if is_null c then panic_nil
      else if is_primary c then replace_variable_primary c
      else determine_values c in
    match n with
    | NNull => panic_nil
    | NCommand t e => e' <- child e ;; CRet (NCommand t e')
    | NNeg r => r' <- child r ;; CRet (NNeg r')
    | NInfix op l r => l' <- child l ;; r' <- child r ;; CRet (NInfix op l' r')
    | _ => CErr ("DetermineValues not implemented: " ++ node_type n)%string
    end.

  (** ** partial_eval_of_compare.go:9-18 [EvalCompareLeft]: the value of the left side; the caller
      continues with the compare node whose left side is this integer *)
  Definition eval_compare_left (l : node) : comp Z := o <- eval l ;; obj_int o.

  (** ** reroll_threshold.go *)

  (** reroll_threshold.go:10-27 [SetRerollThreshold]: on [cmp(RRollList rolls th, right)], the new threshold *)
  Definition set_reroll_threshold (th right : node) : comp node :=
    if is_null th then panic_nil
    else if is_nil th then o <- eval right ;; v <- obj_int o ;; CRet (NInt v)
    else CRet th.

  (** reroll_threshold.go:48-62 [checkRollThreshold]: [None] is a nil error, [Some msg] an error that the
      caller turns into a message.  (If the threshold still contained random numbers and drawing their dice
      failed, Go would wrap that error too; the model lets it through.  The commands call this only after
      [EvalVarArgs]/[SetRerollThreshold], when the threshold is an integer node.) *)
  Definition check_roll_threshold (th : node) : comp (option string) :=
    r <- ctry (eval th) ;;
    match r with
    | inr e => CRet (Some ("閾値評価エラー: " ++ e)%string)
    | inl (OInt t) =>
        CRet (if t <? 2 then Some "振り足し目標値として2以上の整数を指定してください"%string else None)
    | inl _ => panic_type
    end.

  (** reroll_threshold.go:30-36 [CheckRRollThreshold] *)
  Definition check_r_roll_threshold (th : node) : comp (option string) :=
    if is_null th then panic_nil
    else if is_nil th then CRet (Some "2R6>=5 あるいは 2R6[5] のように振り足し目標値を指定してください"%string)
    else check_roll_threshold th.

  (** reroll_threshold.go:39-45 [CheckURollThreshold] *)
  Definition check_u_roll_threshold (th : node) : comp (option string) :=
    if is_null th then panic_nil
    else if is_nil th then CRet (Some "2U6[5] のように振り足し目標値を指定してください"%string)
    else check_roll_threshold th.
End EvalSec.
