(** Syntax trees in memory: the evaluator, the notation and the commands as Go runs them, on nodes that are
    updated in place (SetLeft, SetRight, assignments to Threshold, Bonus and Expression) and copied (util.Clone).
    The other files of the model take a tree as a value and return the updated tree; the theorems of Prop_heap.v
    relate the two. *)
From Verif Require Export Command SExp.
From Verif Require Import GoMem.
Open Scope list_scope.
Open Scope Z_scope.

(** A node in memory; children are addresses.  (Nil children are left out: the parser makes none.
    The slices of rolls and of CHOICE items are part of their node: only the parser appends to them.) *)
Inductive cell :=
| HNil                                                   (* ast/nil.go:13-16 *)
| HInt (v : Z)                                           (* ast/int.go *)
| HString (s : string)                                   (* ast/string.go:8-15 *)
| HSumRoll (ds : list die)                               (* ast/sum_roll_result.go:10-17 *)
| HNeg (right : nat)                                     (* ast/prefix_expression.go:28-39 *)
| HInfix (op : infixop) (left right : nat)               (* ast/infix_expression.go:33-52, divide.go:32-37, variable_infix_expression.go *)
| HBRollList (rolls : list nat)                          (* ast/b_roll_list.go:9-17 *)
| HRRollList (rolls : list nat) (th : nat)               (* ast/r_roll_list.go:9-18 *)
| HURollExpr (rolls : nat) (bonus : option nat)          (* ast/u_roll_expr.go:9-18 *)
| HChoice (items : list string)                          (* ast/choice.go:8-15 *)
| HCommand (t : cmdtype) (e : nat).                      (* ast/command.go:8-14 *)
Definition heap := list cell.

(** A Go computation on the memory, the feeder and the log; what was written stays written when it fails. *)
Definition hm (A : Type) := heap -> estate -> outcome A * (heap * estate).
Definition hret {A} (a : A) : hm A := fun h s => (Ok a, (h, s)).
Definition herr {A} (e : string) : hm A := fun h s => (Err e, (h, s)).
Definition hpanic {A} (p : string) : hm A := fun h s => (Panic p, (h, s)).
Definition hbind {A B} (m : hm A) (f : A -> hm B) : hm B := fun h s =>
  match m h s with
  | (Ok a, (h', s')) => f a h' s'
  | (Err e, hs) => (Err e, hs)
  | (Panic p, hs) => (Panic p, hs)
  end.
(** Part of the code that touches no node *)
Definition hpure {A} (c : comp A) : hm A := fun h s => let '(o, s') := run c s in (o, (h, s')).
Notation "'let!' x ':=' m 'in' f" := (hbind m (fun x => f)) (at level 200, x pattern, m at level 100, f at level 200).
Definition htype {A} : hm A := hpanic "interface conversion".

(** Reading a node, making a node, assigning to a node *)
Definition hload (a : nat) : hm cell := fun h s =>
  match nth_error h a with Some c => (Ok c, (h, s)) | None => (Panic "invalid memory address or nil pointer dereference"%string, (h, s)) end.
Definition halloc (c : cell) : hm nat := fun h s => (Ok (length h), (h ++ [c], s)).
Definition hstore (a : nat) (c : cell) : hm unit := fun h s => (Ok tt, (put h a c, s)).
(** infix_expression.go:70-72, 88-90 and prefix_expression.go:65-67 [SetLeft], [SetRight] *)
Definition set_left (a l : nat) : hm unit :=
  let! c := hload a in match c with HInfix op _ r => hstore a (HInfix op l r) | _ => htype end.
Definition set_right (a r : nat) : hm unit :=
  let! c := hload a in
  match c with HInfix op l _ => hstore a (HInfix op l r) | HNeg _ => hstore a (HNeg r) | _ => htype end.
(** evaluator.go:107-109 [objectToIntNode] *)
Definition int_node (o : obj) : hm nat := let! v := hpure (obj_int o) in halloc (HInt v).

(** node.go: [Type().String()] *)
Definition cell_type (c : cell) : string :=
  match c with
  | HNil => "Nil" | HInt _ => "Int" | HString _ => "String" | HSumRoll _ => "SumRollResult"
  | HNeg _ => "UnaryMinus" | HInfix op _ _ => op_type op
  | HBRollList _ => "BRollList" | HRRollList _ _ => "RRollList" | HURollExpr _ _ => "URollExpr"
  | HChoice _ => "Choice" | HCommand t _ => cmd_type t
  end.
(** [IsPrimaryExpression] *)
Definition cell_primary (c : cell) : bool :=
  match c with HNil | HInt _ | HString _ | HSumRoll _ | HInfix (OpVar _) _ _ => true | _ => false end.
(** [IsVariable] of a primary expression (the evaluator asks no other node) *)
Definition cell_variable (c : cell) : bool := match c with HInfix (OpVar _) _ _ => true | _ => false end.

(** ** Eval.  [ev] is the recursive call. *)
Section Evaluation.
  Variable ev : nat -> hm obj.
  (** eval_infix_expression.go:39-69 [evalInfixExpressionOperands] *)
  Definition h_operands (l r : nat) : hm (obj * obj) :=
    let! a := ev l in let! b := ev r in hret (a, b).
  (** eval_infix_expression.go:12-34 [evalInfixExpression] *)
  Definition h_infix (op : infixop) (l r : nat) : hm obj :=
    let! (a, b) := h_operands l r in
    match a, b with
    | OInt x, OInt y =>
        match op with
        | OpDiv m => hpure (eval_int_divide m x y)
        | _ => hpure (eval_int_infix (op_string op) x y)
        end
    | _, _ => herr ("operator not implemented: " ++ obj_type a ++ " " ++ op_string op ++ " " ++ obj_type b)%string
    end.
  (** eval_prefix_expression.go:11-50 [evalPrefixExpression] *)
  Definition h_prefix (r : nat) : hm obj :=
    let! o := ev r in
    match o with
    | OInt v => hret (OInt (wrap64 (- v)))
    | _ => herr ("operator not implemented: -" ++ obj_type o)%string
    end.
  (** eval_infix_expression.go:217-242 [countNumOfSuccesses]: a compare node is made for each value *)
  Fixpoint h_count (values : list obj) (operator : string) (target : Z) (acc : Z) : hm Z :=
    match values with
    | [] => hret acc
    | v :: rest =>
        let! x := int_node v in
        let! t := int_node (OInt target) in
        let! c := halloc (HInfix (OpCmp operator) x t) in
        let! o := ev c in
        match o with
        | OBool b => h_count rest operator target (if b then acc + 1 else acc)
        | _ => htype
        end
    end.
  (** eval_b_roll_list.go:9-23 [evalBRollList] *)
  Fixpoint h_b_rolls (rolls : list nat) (elements : list obj) : hm obj :=
    match rolls with
    | [] => hret (OArray elements)
    | q :: rest =>
        let! o := ev q in
        match o with OArray l => h_b_rolls rest (elements ++ l) | _ => htype end
    end.
  (** eval_r_roll_list.go:34-70: the loop; a new roll shares the node of the sides with the old one *)
  Fixpoint h_r_loop (fuel : nat) (threshold : Z) (queue : list nat) (groups : list obj) : hm obj :=
    match fuel with
    | O => hret (OArray groups)
    | S fuel' =>
        match queue with
        | [] => hret (OArray groups)
        | q :: queue' =>
            let! o := ev q in
            match o with
            | OArray values =>
                match count_ge threshold values 0 with
                | None => htype
                | Some n =>
                    if 0 <? n then
                      let! num := halloc (HInt n) in
                      let! c := hload q in
                      match c with
                      | HInfix _ _ sides =>
                          let! q' := halloc (HInfix (OpVar KR) num sides) in
                          h_r_loop fuel' threshold (queue' ++ [q']) (groups ++ [OArray values])
                      | _ => htype
                      end
                    else h_r_loop fuel' threshold queue' (groups ++ [OArray values])
                end
            | _ => htype
            end
        end
    end.
  (** [Threshold.IsNil()] *)
  Definition h_is_nil (th : nat) : hm bool := let! c := hload th in hret (match c with HNil => true | _ => false end).
  (** eval_r_roll_list.go:13-73 [evalRRollList] *)
  Definition h_r_roll_list (mr : Z) (rolls : list nat) (th : nat) : hm obj :=
    let! b := h_is_nil th in
    if (b : bool) then herr "evalRRollList: threshold is nil"
    else
      let! o := ev th in
      match o with OInt t => h_r_loop (Z.to_nat mr) t rolls [] | _ => htype end.
  (** eval_u_roll_expr.go:63-126 [evalCompoundingRoll] *)
  Definition h_compounding_roll (mr : Z) (q : nat) (threshold : Z) : hm (list obj) :=
    let! c := hload q in
    match c with
    | HInfix _ l r =>
        let! (a, b) := h_operands l r in
        match a with
        | OInt num =>
            match b with
            | OInt sides =>
                if sides <? 1 then
                  herr ("evalCompoundingRoll(num: " ++ itoa num ++ ", sides: " ++ itoa sides ++ "): ダイスの面数が少なすぎます")%string
                else if num <? 1 then
                  herr ("evalCompoundingRoll(num: " ++ itoa num ++ ", sides: " ++ itoa sides ++ "): 振るダイス数が少なすぎます")%string
                else if max_alloc_16 <? num then hpanic "makeslice: cap out of range"
                else hpure (eval_u_groups mr (Z.to_nat num) sides threshold [])
            | _ => herr "evalCompoundingRoll: evaluated sides is not an Integer"
            end
        | _ => herr "evalCompoundingRoll: evaluated num is not an Integer"
        end
    | _ => htype
    end.
  (** eval_u_roll_expr.go:25-32: the loop of [evalURollList] *)
  Fixpoint h_u_rolls (mr : Z) (rolls : list nat) (threshold : Z) (groups : list obj) : hm (list obj) :=
    match rolls with
    | [] => hret groups
    | q :: rest => let! gs := h_compounding_roll mr q threshold in h_u_rolls mr rest threshold (groups ++ gs)
    end.
  (** eval_u_roll_expr.go:11-35 [evalURollList] *)
  Definition h_u_roll_list (mr : Z) (lst : nat) : hm (list obj) :=
    let! c := hload lst in
    match c with
    | HRRollList rolls th =>
        let! b := h_is_nil th in
        if (b : bool) then herr "evalURollList: threshold is nil"
        else
          let! o := ev th in
          match o with OInt t => h_u_rolls mr rolls t [] | _ => htype end
    | _ => htype
    end.
  (** eval_u_roll_expr.go:38-59 [evalURollExpr] *)
  Definition h_u_roll_expr (mr : Z) (lst : nat) (bonus : option nat) : hm obj :=
    let! m := match bonus with None => hret 0 | Some b => let! o := ev b in hpure (obj_int o) end in
    let! groups := h_u_roll_list mr lst in
    hret (OURollExpr groups m).
  (** The type assertion of node.Expression to BasicInfixExpression; the operator and the operands *)
  Definition h_basic (e : nat) : hm (infixop * nat * nat) :=
    let! c := hload e in
    match c with HInfix op l r => if is_basic_op op then hret (op, l, r) else htype | _ => htype end.
  (** eval_b_roll_comp.go:9-32 [evalBRollComp] *)
  Definition h_b_roll_comp (e : nat) : hm obj :=
    let! (op, l, r) := h_basic e in
    let! (values, target) := h_operands l r in
    match values with
    | OArray vs =>
        match target with
        | OInt t => let! n := h_count vs (op_string op) t 0 in hret (OBRollComp vs n)
        | _ => htype
        end
    | _ => htype
    end.
  (** eval_r_roll_comp.go:23-35 *)
  Fixpoint h_count_groups (groups : list obj) (operator : string) (target : Z) (acc : Z) : hm Z :=
    match groups with
    | [] => hret acc
    | OArray vs :: rest =>
        let! n := h_count vs operator target 0 in
        h_count_groups rest operator target (wrap64 (acc + n))
    | _ :: _ => htype
    end.
  (** eval_r_roll_comp.go:9-41 [evalRRollComp] *)
  Definition h_r_roll_comp (e : nat) : hm obj :=
    let! (op, l, r) := h_basic e in
    let! (groups, target) := h_operands l r in
    match groups with
    | OArray gs =>
        match target with
        | OInt t => let! n := h_count_groups gs (op_string op) t 0 in hret (ORRollComp gs n)
        | _ => htype
        end
    | _ => htype
    end.
  (** eval_u_roll_comp.go:9-42 [evalURollComp] *)
  Definition h_u_roll_comp (e : nat) : hm obj :=
    let! (op, l, r) := h_basic e in
    let! (res, target) := h_operands l r in
    match res with
    | OURollExpr groups m =>
        let! sums := hpure (clift (sum_of_groups groups)) in
        match target with
        | OInt t =>
            let! n := h_count (map (fun s => OInt (wrap64 (s + m))) sums) (op_string op) t 0 in
            hret (OURollComp groups m n)
        | _ => htype
        end
    | _ => htype
    end.
End Evaluation.

Definition overflow {A} : hm A := hpanic "stack overflow".

(** evaluator.go:51-89 [Eval], [evalCommand]; [fuel] bounds the depth of the calls *)
Fixpoint h_eval (mr : Z) (fuel : nat) (a : nat) : hm obj :=
  match fuel with
  | O => overflow
  | S f =>
      let ev := h_eval mr f in
      let! c := hload a in
      match c with
      | HNil => herr "unknown type: Nil"
      | HString _ => herr "unknown type: String"
      | HInt v => hret (OInt v)
      | HSumRoll ds => hret (OInt (sum_roll_value ds))
      | HNeg r => h_prefix ev r
      | HInfix op l r => h_infix ev op l r
      | HBRollList rolls => h_b_rolls ev rolls []
      | HRRollList rolls th => h_r_roll_list ev mr rolls th
      | HURollExpr lst bonus => h_u_roll_expr ev mr lst bonus
      | HChoice items => hpure (eval_choice items)
      | HCommand t e =>
          match t with
          | CBRollComp => h_b_roll_comp ev e
          | CRRollComp => h_r_roll_comp ev e
          | CURollComp => h_u_roll_comp ev e
          | _ => ev e
          end
      end
  end.

Section InPlace.
  Variable mr : Z.
  (** eval_var_args.go:47-62 [evalVarArgsOfRoll] *)
  Definition h_roll_args (fuel : nat) (a : nat) : hm unit :=
    let! c := hload a in
    match c with
    | HInfix _ l r =>
        let! lo := h_eval mr fuel l in
        let! ro := h_eval mr fuel r in
        let! l' := int_node lo in
        let! _ := set_left a l' in
        let! r' := int_node ro in
        set_right a r'
    | _ => htype
    end.
  (** eval_var_args.go:37-44 [evalVarArgsOfVariableExpr] *)
  Definition h_var_args_of (fuel : nat) (a : nat) : hm unit :=
    let! c := hload a in
    match c with
    | HInfix (OpVar KRand) _ _ => herr ("evalVarArgsOfVariableExpr not implemented: " ++ cell_type c)%string
    | HInfix (OpVar _) _ _ => h_roll_args fuel a
    | _ => herr ("evalVarArgsOfVariableExpr not implemented: " ++ cell_type c)%string
    end.
  (** eval_var_args.go:66-71, 89-94, 114-119 *)
  Fixpoint h_var_args_rolls (fuel : nat) (rolls : list nat) : hm unit :=
    match rolls with
    | [] => hret tt
    | a :: rest => let! _ := h_var_args_of fuel a in h_var_args_rolls fuel rest
    end.
  (** eval_var_args.go:79-87, 104-112: the threshold of the list at [a] *)
  Definition h_var_args_threshold (fuel : nat) (a : nat) (rolls : list nat) (th : nat) : hm unit :=
    let! b := h_is_nil th in
    if (b : bool) then hret tt
    else let! o := h_eval mr fuel th in let! t := int_node o in hstore a (HRRollList rolls t).
  (** eval_var_args.go:77-97, 102-119: the threshold and the rolls of the list at [a] *)
  Definition h_var_args_list (fuel : nat) (a : nat) : hm unit :=
    let! c := hload a in
    match c with
    | HRRollList rolls th =>
        let! _ := h_var_args_threshold fuel a rolls th in
        h_var_args_rolls fuel rolls
    | _ => htype
    end.
  (** eval_var_args.go:122-139 *)
  Definition h_var_args_bonus (fuel : nat) (a lst : nat) (bonus : option nat) : hm unit :=
    match bonus with
    | None => hret tt
    | Some b =>
        let! c := hload b in
        match c with
        | HInfix op l r =>
            let! o := h_infix (h_eval mr fuel) op l r in
            let! v := hpure (obj_int o) in
            if v =? 0 then hstore a (HURollExpr lst None)
            else if 0 <? v then
              let! x := halloc (HInt 0) in let! y := halloc (HInt v) in
              let! b' := halloc (HInfix OpAdd x y) in hstore a (HURollExpr lst (Some b'))
            else
              let! x := halloc (HInt 0) in let! y := halloc (HInt (wrap64 (- v))) in
              let! b' := halloc (HInfix OpSub x y) in hstore a (HURollExpr lst (Some b'))
        | _ => htype
        end
    end.
  (** eval_var_args.go:10-31 [EvalVarArgs] and 65-218 *)
  Fixpoint h_eval_var_args (fuel : nat) (a : nat) : hm unit :=
    match fuel with
    | O => overflow
    | S f =>
        let child (c : nat) : hm unit :=
          let! x := hload c in
          if cell_primary x then (if cell_variable x then h_var_args_of f c else hret tt)
          else h_eval_var_args f c in
        let! c := hload a in
        match c with
        | HBRollList rolls => h_var_args_rolls f rolls
        | HRRollList _ _ => h_var_args_list f a
        | HURollExpr lst bonus => let! _ := h_var_args_list f lst in h_var_args_bonus f a lst bonus
        | HCommand _ e => child e
        | HNeg r => child r
        | HInfix (OpCmp _) l r =>
            let! _ := h_eval_var_args f l in
            let! ro := h_eval mr f r in
            let! x := int_node ro in
            set_right a x
        | HInfix _ l r => let! _ := child l in child r
        | _ => herr ("EvalVarArgs not implemented: " ++ cell_type c)%string
        end
    end.

  (** determine_values.go:22-52 [determineValueOfVariableExpr], [determineValueOfDRoll]: the new node *)
  Definition h_determine_d_roll (a : nat) : hm nat :=
    let! c := hload a in
    match c with
    | HInfix (OpVar KD) l r =>
        let! cl := hload l in
        match cl with
        | HInt num =>
            let! cr := hload r in
            match cr with
            | HInt sides => let! ds := hpure (CRoll num sides CRet) in halloc (HSumRoll ds)
            | _ => herr ("sides is not Int: " ++ cell_type cr)%string
            end
        | _ => herr ("num is not Int: " ++ cell_type cl)%string
        end
    | _ => herr ("determineValueOfVariableExpr not implemented: " ++ cell_type c)%string
    end.
  (** determine_values.go:9-20, 56-115 [DetermineValues], [replaceVariablePrimaryExpr]; [set] is the setter *)
  Fixpoint h_determine_values (fuel : nat) (a : nat) : hm unit :=
    match fuel with
    | O => overflow
    | S f =>
        let child (c : nat) (set : nat -> hm unit) : hm unit :=
          let! x := hload c in
          if cell_primary x then (if cell_variable x then let! n := h_determine_d_roll c in set n else hret tt)
          else h_determine_values f c in
        let! c := hload a in
        match c with
        | HCommand t e => child e (fun n => hstore a (HCommand t n))
        | HNeg r => child r (set_right a)
        | HInfix _ l r => let! _ := child l (set_left a) in child r (set_right a)
        | _ => herr ("DetermineValues not implemented: " ++ cell_type c)%string
        end
    end.
  (** partial_eval_of_compare.go:9-18 [EvalCompareLeft] *)
  Definition h_eval_compare_left (fuel : nat) (a : nat) : hm obj :=
    let! c := hload a in
    match c with
    | HInfix _ l _ =>
        let! o := h_eval mr fuel l in
        let! x := int_node o in
        let! _ := set_left a x in
        hret o
    | _ => htype
    end.
  (** reroll_threshold.go:10-27 [SetRerollThreshold] *)
  Definition h_set_reroll_threshold (fuel : nat) (a : nat) : hm unit :=
    let! c := hload a in
    match c with
    | HCommand _ e =>
        let! (_, l, r) := h_basic e in
        let! cl := hload l in
        match cl with
        | HRRollList rolls th =>
            let! b := h_is_nil th in
            if (b : bool) then
              let! o := h_eval mr fuel r in let! t := int_node o in hstore l (HRRollList rolls t)
            else hret tt
        | _ => htype
        end
    | _ => htype
    end.
  (** The caller inspects the error *)
  Definition htry {A} (m : hm A) : hm (A + string) := fun h s =>
    match m h s with
    | (Ok a, hs) => (Ok (inl a), hs)
    | (Err e, hs) => (Ok (inr e), hs)
    | (Panic p, hs) => (Panic p, hs)
    end.
  (** reroll_threshold.go:30-62 [CheckRRollThreshold], [CheckURollThreshold], [checkRollThreshold] on the list at [a];
      [missing] is the message for a missing threshold *)
  Definition h_check_threshold (fuel : nat) (missing : string) (a : nat) : hm (option string) :=
    let! c := hload a in
    match c with
    | HRRollList _ th =>
        let! b := h_is_nil th in
        if (b : bool) then hret (Some missing)
        else
          let! r := htry (h_eval mr fuel th) in
          match r with
          | inr e => hret (Some ("閾値評価エラー: " ++ e)%string)
          | inl (OInt t) => hret (if t <? 2 then Some "振り足し目標値として2以上の整数を指定してください"%string else None)
          | inl _ => htype
          end
    | _ => htype
    end.
End InPlace.

(** ** notation.go *)
Section HNotation.
  Variable nt : nat -> bool -> hm string.
  (** notation.go:201-221 [infixNotationOfPrefixExpression]; [r] is the right side *)
  Definition h_notation_prefix (r : nat) (w : bool) : hm string :=
    let! c := hload r in
    if cell_primary c then let! s := nt r w in hret ("-" ++ s)%string
    else let! s := nt r true in hret ("-" ++ parenthesize s)%string.
  (** notation.go:223-275 [parenthesizeChildOfInfixExpression] *)
  Definition h_paren_child (parent : infixop) (child : nat) (assoc w : bool) : hm string :=
    let! x := hload child in
    match x with
    | HNeg _ => let! s := nt child w in hret (parenthesize s)
    | HInfix c _ _ =>
        if (op_prec c <? op_prec parent) || ((op_prec c =? op_prec parent) && negb assoc)
        then let! s := nt child true in hret (parenthesize s)
        else nt child w
    | _ => nt child w
    end.
  (** notation.go:283-308, 311-345 [infixNotationOfInfixExpression], [infixNotationOfDivide], [infixNotationsOfInfixExpressionChildren] *)
  Definition h_notation_infix (op : infixop) (l r : nat) (w : bool) : hm string :=
    let! cl := hload l in
    let! ls := match cl with
               | HNeg lr => if w && op_lassoc op then h_notation_prefix lr w else h_paren_child op l (op_lassoc op) w
               | _ => h_paren_child op l (op_lassoc op) w
               end in
    let! rs := h_paren_child op r (op_rassoc op) false in
    hret (notation_infix_text op ls rs).
  (** notation.go:97-105, 114-122 *)
  Fixpoint h_notations (rolls : list nat) : hm (list string) :=
    match rolls with
    | [] => hret []
    | a :: rest => let! s := nt a true in let! ss := h_notations rest in hret (s :: ss)
    end.
End HNotation.
(** notation.go:31-361 [InfixNotation] *)
Fixpoint h_notation (fuel : nat) (a : nat) (w : bool) : hm string :=
  match fuel with
  | O => overflow
  | S f =>
      let nt := h_notation f in
      let! c := hload a in
      match c with
      | HBRollList rolls => let! ss := h_notations nt rolls in hret (join "+" ss)
      | HRRollList rolls th =>                                              (* 111-138 *)
          let! ss := h_notations nt rolls in
          let! b := h_is_nil th in
          if (b : bool) then hret (join "+" ss)
          else let! t := nt th true in hret (join "+" ss ++ "[" ++ t ++ "]")%string
      | HURollExpr lst None => nt lst true                                  (* 142-150 *)
      | HURollExpr lst (Some b) =>                                          (* 152-166: a copy of the bonus node *)
          let! cb := hload b in
          match cb with
          | HInfix op _ _ =>
              if is_basic_op op then
                let! copy := halloc cb in
                let! _ := set_left copy lst in
                nt copy true
              else htype
          | _ => htype
          end
      | HChoice items => hret (notation_choice items)
      | HCommand CCalc e => let! s := nt e true in hret ("C(" ++ s ++ ")")%string
      | HCommand _ e => nt e w
      | HNeg r => h_notation_prefix nt r w
      | HInfix (OpCmp s) l r => let! ls := nt l true in let! rs := nt r true in hret (ls ++ s ++ rs)%string
      | HInfix (OpVar KRand) l r => let! s := h_notation_infix nt (OpVar KRand) l r true in hret ("[" ++ s ++ "]")%string
      | HInfix op l r => h_notation_infix nt op l r w
      | HInt v => hret (itoa v)
      | HSumRoll ds => hret (notation_sum_roll ds)
      | HNil | HString _ => herr ("infix notation not implemented: " ++ cell_type c)%string
      end
  end.

(** ** The SExp methods of pkg/core/ast (see SExp.v for the lines) *)
Fixpoint h_sexps (sx : nat -> hm string) (rolls : list nat) : hm (list string) :=
  match rolls with
  | [] => hret []
  | a :: rest => let! s := sx a in let! ss := h_sexps sx rest in hret (s :: ss)
  end.
Fixpoint h_sexp (printable : Z -> bool) (fuel : nat) (a : nat) : hm string :=
  match fuel with
  | O => overflow
  | S f =>
      let sx := h_sexp printable f in
      let! c := hload a in
      match c with
      | HNil => hret "nil"%string
      | HInt v => hret (itoa v)
      | HString s => hret (quote printable s)
      | HSumRoll ds => hret ("(SumRollResult " ++ join " " (map die_sexp ds) ++ ")")%string
      | HNeg r => let! s := sx r in hret ("(- " ++ s ++ ")")%string
      | HInfix op l r => let! ls := sx l in let! rs := sx r in hret ("(" ++ op_sexp op ++ " " ++ ls ++ " " ++ rs ++ ")")%string
      | HBRollList rolls => let! ss := h_sexps sx rolls in hret ("(BRollList " ++ join " " ss ++ ")")%string
      | HRRollList rolls th =>
          let! ss := h_sexps sx rolls in
          let! t := sx th in
          hret ("(RRollList " ++ t ++ " " ++ join " " ss ++ ")")%string
      | HURollExpr lst None => let! s := sx lst in hret ("(URollExpr " ++ s ++ ")")%string
      | HURollExpr lst (Some b) =>                                          (* u_roll_expr.go:45-49: a copy of the bonus node *)
          let! cb := hload b in
          match cb with
          | HInfix op _ _ =>
              if is_basic_op op then
                let! copy := halloc cb in
                let! _ := set_left copy lst in
                let! s := sx copy in
                hret ("(URollExpr " ++ s ++ ")")%string
              else htype
          | _ => htype
          end
      | HChoice items => hret ("(Choice" ++ fold_right (fun s acc => " " ++ quote printable s ++ acc) ")" items)%string
      | HCommand t e => let! s := sx e in hret ("(" ++ cmd_type t ++ " " ++ s ++ ")")%string
      end
  end.

(** ** pkg/core/command *)
Section HCommandSec.
  Variable mr : Z.
  Variable game_id : string.
  Variable fuel : nat.
  (** [e.RolledDice()] *)
  Definition h_log : hm (list die) := hpure (CLog CRet).
  Definition h_with_dice (parts : list string) (sc : success_check) : hm result :=
    let! ds := h_log in hret (Result game_id parts ds sc false).
  (** command.go:69-81 [evalVarArgs] *)
  Definition h_var_args_notation (a : nat) : hm string :=
    let! _ := h_eval_var_args mr fuel a in h_notation fuel a true.
  (** execute_calc.go:10-37 *)
  Definition h_execute_calc (a : nat) : hm result :=
    let! s := h_notation fuel a true in
    let! o := h_eval mr fuel a in
    hret (no_dice game_id [s; "計算結果"%string; inspect o]).
  (** execute_d_roll_expr.go:10-61 *)
  Definition h_execute_d_roll_expr (a : nat) : hm result :=
    let! s1 := h_var_args_notation a in
    let! _ := h_determine_values fuel a in
    let! s2 := h_notation fuel a true in
    let! o := h_eval mr fuel a in
    h_with_dice [parenthesize s1; s2; inspect o] Unspecified.
  (** execute_d_roll_comp.go:13-94 *)
  Definition h_execute_d_roll_comp (e : nat) : hm result :=
    let! c := hload e in
    match c with
    | HInfix (OpCmp _) _ _ =>
        let! s1 := h_var_args_notation e in
        let! _ := h_determine_values fuel e in
        let! c2 := hload e in
        match c2 with
        | HInfix _ l _ =>
            let! s2 := h_notation fuel l true in
            let! lo := h_eval_compare_left mr fuel e in
            let! o := h_eval mr fuel e in
            let! ds := h_log in
            match o with
            | OBool b => hret (Result game_id [parenthesize s1; s2; inspect lo; if b then "成功"%string else "失敗"%string]
                                 ds (if b then Success else Failure) false)
            | _ => herr ("DRollComp: result is not a Boolean: " ++ obj_type o)%string
            end
        | _ => htype
        end
    | _ => herr "DRollComp: expression is not a Compare node: DRollComp"
    end.
  (** execute_b_roll_list.go:11-41 *)
  Definition h_execute_b_roll_list (a : nat) : hm result :=
    let! s1 := h_var_args_notation a in
    let! o := h_eval mr fuel a in
    match o with
    | OArray l => h_with_dice [parenthesize s1; joined_elements "," l] Unspecified
    | _ => htype
    end.
  (** execute_b_roll_comp.go:11-44; [a] is the command, [e] its expression *)
  Definition h_execute_b_roll_comp (a e : nat) : hm result :=
    let! _ := h_basic e in
    let! s1 := h_var_args_notation e in
    let! o := h_eval mr fuel a in
    match o with
    | OBRollComp values succ =>
        h_with_dice [parenthesize s1; joined_elements "," values; ("成功数" ++ itoa succ)%string] Unspecified
    | _ => htype
    end.
  Definition missing_r : string := "2R6>=5 あるいは 2R6[5] のように振り足し目標値を指定してください".
  Definition missing_u : string := "2U6[5] のように振り足し目標値を指定してください".
  (** execute_r_roll_list.go:13-50 *)
  Definition h_execute_r_roll_list (a : nat) : hm result :=
    let! s1 := h_var_args_notation a in
    let! bad := h_check_threshold mr fuel missing_r a in
    match bad with
    | Some msg => hret (no_dice game_id [parenthesize s1; msg])
    | None =>
        let! o := h_eval mr fuel a in
        match o with
        | OArray groups =>
            let! ds := h_log in
            let! s2 := hpure (clift (format_r_roll_values groups)) in
            hret (Result game_id [parenthesize s1; s2] ds Unspecified false)
        | _ => htype
        end
    end.
  (** execute_r_roll_comp.go:11-64 *)
  Definition h_execute_r_roll_comp (a e : nat) : hm result :=
    let! _ := h_basic e in
    let! _ := h_eval_var_args mr fuel e in
    let! _ := h_set_reroll_threshold mr fuel a in
    let! s1 := h_notation fuel a true in
    let! (_, l, _) := h_basic e in
    let! bad := h_check_threshold mr fuel missing_r l in
    match bad with
    | Some msg => hret (no_dice game_id [parenthesize s1; msg])
    | None =>
        let! o := h_eval mr fuel a in
        match o with
        | ORRollComp groups succ =>
            let! ds := h_log in
            let! s2 := hpure (clift (format_r_roll_values groups)) in
            hret (Result game_id [parenthesize s1; s2; ("成功数" ++ itoa succ)%string] ds Unspecified false)
        | _ => htype
        end
    end.
  (** execute_u_roll_expr.go:15-56 *)
  Definition h_execute_u_roll_expr (a : nat) : hm result :=
    let! s1 := h_var_args_notation a in
    let! c := hload a in
    match c with
    | HURollExpr lst _ =>
        let! bad := h_check_threshold mr fuel missing_u lst in
        match bad with
        | Some msg => hret (no_dice game_id [parenthesize s1; msg])
        | None =>
            let! o := h_eval mr fuel a in
            match o with
            | OURollExpr groups m =>
                let! ds := h_log in
                let! s2 := hpure (clift (format_u_value_groups groups m)) in
                let! mx := hpure (clift (u_max_value groups m)) in
                let! sm := hpure (clift (u_sum_of_values groups m)) in
                hret (Result game_id [parenthesize s1; s2; (itoa mx ++ "/" ++ itoa sm ++ " (最大/合計)")%string] ds Unspecified false)
            | _ => htype
            end
        end
    | _ => htype
    end.
  (** execute_u_roll_comp.go:11-61 *)
  Definition h_execute_u_roll_comp (a e : nat) : hm result :=
    let! _ := h_basic e in
    let! _ := h_eval_var_args mr fuel e in
    let! s1 := h_notation fuel a true in
    let! (_, l, _) := h_basic e in
    let! c := hload l in
    match c with
    | HURollExpr lst _ =>
        let! bad := h_check_threshold mr fuel missing_u lst in
        match bad with
        | Some msg => hret (no_dice game_id [parenthesize s1; msg])
        | None =>
            let! o := h_eval mr fuel a in
            match o with
            | OURollComp groups m succ =>
                let! ds := h_log in
                let! s2 := hpure (clift (format_u_value_groups groups m)) in
                hret (Result game_id [parenthesize s1; s2; ("成功数" ++ itoa succ)%string] ds Unspecified false)
            | _ => htype
            end
        end
    | _ => htype
    end.
  (** execute_choice.go:11-40 *)
  Definition h_execute_choice (a : nat) : hm result :=
    let! s1 := h_notation fuel a true in
    let! o := h_eval mr fuel a in
    match o with
    | OString s => h_with_dice [parenthesize s1; s] Unspecified
    | _ => htype
    end.
  (** command.go:22-65 [Execute], [executeCommand] *)
  Definition h_execute (a : nat) : hm result :=
    let! c := hload a in
    match c with
    | HCommand CDRollExpr _ => h_execute_d_roll_expr a
    | HCommand CDRollComp e => h_execute_d_roll_comp e
    | HCommand CBRollComp e => h_execute_b_roll_comp a e
    | HCommand CRRollComp e => h_execute_r_roll_comp a e
    | HCommand CURollComp e => h_execute_u_roll_comp a e
    | HCommand CCalc _ => h_execute_calc a
    | HBRollList _ => h_execute_b_roll_list a
    | HRRollList _ _ => h_execute_r_roll_list a
    | HURollExpr _ _ => h_execute_u_roll_expr a
    | HChoice _ => h_execute_choice a
    | _ => herr ("command execution not implemented: " ++ cell_type c)%string
    end.
End HCommandSec.

(** ** The constructors of pkg/core/ast, bottom up: a new node for every node of the tree.  ([NNull], which
    stands for a Go nil, is not built; the value there is arbitrary.) *)
Fixpoint build (t : node) (h : heap) : heap * nat :=
  let infix (op : infixop) (l r : node) (h : heap) : heap * nat :=
    let '(h1, x) := build l h in let '(h2, y) := build r h1 in (h2 ++ [HInfix op x y], length h2) in
  let roll (v : vroll) (h : heap) : heap * nat := match v with VRoll k l r => infix (OpVar k) l r h end in
  let rolls := fix rolls (l : list vroll) (h : heap) : heap * list nat :=
    match l with
    | [] => (h, [])
    | v :: rest => let '(h1, x) := roll v h in let '(h2, xs) := rolls rest h1 in (h2, x :: xs)
    end in
  let rlist (l : list vroll) (th : node) (h : heap) : heap * nat :=
    let '(h1, xs) := rolls l h in let '(h2, t) := build th h1 in (h2 ++ [HRRollList xs t], length h2) in
  match t with
  | NNull => (h, length h)
  | NNil => (h ++ [HNil], length h)
  | NInt v => (h ++ [HInt v], length h)
  | NString s => (h ++ [HString s], length h)
  | NSumRoll ds => (h ++ [HSumRoll ds], length h)
  | NNeg r => let '(h1, x) := build r h in (h1 ++ [HNeg x], length h1)
  | NInfix op l r => infix op l r h
  | NBRollList l => let '(h1, xs) := rolls l h in (h1 ++ [HBRollList xs], length h1)
  | NRRollList l th => rlist l th h
  | NURollExpr l th b =>
      let '(h1, lst) := rlist l th h in
      match b with
      | None => (h1 ++ [HURollExpr lst None], length h1)
      | Some (Bonus op bl br) => let '(h2, x) := infix op bl br h1 in (h2 ++ [HURollExpr lst (Some x)], length h2)
      end
  | NChoice items => (h ++ [HChoice items], length h)
  | NCommand c e => let '(h1, x) := build e h in (h1 ++ [HCommand c x], length h1)
  end.
