(** pkg/core/command: execution of commands. *)
From Verif Require Export Notation.
Open Scope list_scope.
Open Scope Z_scope.
Open Scope comp_scope.

(** command/result.go:9-18 [SuccessCheckResultType] *)
Inductive success_check := Unspecified | Success | Failure.

(** command/result.go:37-48 [Result] *)
Record result := Result {
  r_game_id : string;
  r_parts : list string;
  r_dice : list die;
  r_success : success_check;
  r_secret : bool
}.

(** command/result.go:51-58 [JoinedMessageParts], [Message] *)
Definition joined_message_parts (r : result) : string := join " ＞ " (r_parts r).
Definition message (r : result) : string := (r_game_id r ++ " : " ++ joined_message_parts r)%string.

Section CommandSec.
  Variable mr : Z.
  Variable game_id : string.

  (** A result whose parts are [parts]; [e.RolledDice()] supplies the dice
      (assignment [result.RolledDice = evaluator.RolledDice()]). *)
  Definition with_dice (parts : list string) (sc : success_check) : comp result :=
    CLog (fun ds => CRet (Result game_id parts ds sc false)).
  (** A result with no dice assigned. *)
  Definition no_dice (parts : list string) : result := Result game_id parts [] Unspecified false.

  (** command.go:69-81 [evalVarArgs]: the updated node and its notation *)
  Definition eval_var_args_notation (n : node) : comp (node * string) :=
    n' <- eval_var_args mr n ;;
    s <- clift (infix_notation n' true) ;;
    CRet (n', s).

  (** execute_calc.go:10-37 [executeCalc] *)
  Definition execute_calc (e : node) : comp result :=
    s <- clift (infix_notation (NCommand CCalc e) true) ;;
    o <- eval mr (NCommand CCalc e) ;;
    CRet (no_dice [s; "計算結果"%string; inspect o]).

  (** execute_d_roll_expr.go:10-61 [executeDRollExpr], [determineValues] *)
  Definition execute_d_roll_expr (e : node) : comp result :=
    '(n1, s1) <- eval_var_args_notation (NCommand CDRollExpr e) ;;
    n2 <- determine_values n1 ;;
    s2 <- clift (infix_notation n2 true) ;;
    o <- eval mr n2 ;;
    with_dice [parenthesize s1; s2; inspect o] Unspecified.

  (** execute_d_roll_comp.go:13-94 [executeDRollComp], [determineCompareValues] *)
  Definition execute_d_roll_comp (e : node) : comp result :=
    match e with
    | NNull => panic_nil
    | NInfix (OpCmp _) _ _ =>
        '(n1, s1) <- eval_var_args_notation e ;;
        n2 <- determine_values n1 ;;
        match n2 with
        | NInfix op l r =>
            s2 <- clift (infix_notation l true) ;;
            v <- eval_compare_left mr l ;;
            o <- eval mr (NInfix op (NInt v) r) ;;
            CLog (fun ds =>
              match o with
              | OBool b =>
                  CRet (Result game_id
                          [parenthesize s1; s2; itoa v; if b then "成功"%string else "失敗"%string]
                          ds (if b then Success else Failure) false)
              | _ => CErr ("DRollComp: result is not a Boolean: " ++ obj_type o)%string
              end)
        | _ => panic_type      (* not reachable: determine_values keeps the shape *)
        end
    | _ => CErr "DRollComp: expression is not a Compare node: DRollComp"
    end.

  (** execute_b_roll_list.go:11-41 [executeBRollList] *)
  Definition execute_b_roll_list (n : node) : comp result :=
    '(n1, s1) <- eval_var_args_notation n ;;
    o <- eval mr n1 ;;
    match o with
    | OArray l => with_dice [parenthesize s1; joined_elements "," l] Unspecified
    | _ => panic_type
    end.

  (** execute_b_roll_comp.go:11-44 [executeBRollComp] *)
  Definition execute_b_roll_comp (e : node) : comp result :=
    match e with
    | NInfix op _ _ =>
        if is_basic_op op then
          '(e1, s1) <- eval_var_args_notation e ;;
          o <- eval mr (NCommand CBRollComp e1) ;;
          match o with
          | OBRollComp values succ =>
              with_dice [parenthesize s1; joined_elements "," values; ("成功数" ++ itoa succ)%string] Unspecified
          | _ => panic_type
          end
        else panic_type
    | _ => panic_type
    end.

  (** execute_r_roll_list.go:53-61 [formatRRollValues] *)
  Fixpoint format_r_groups (groups : list obj) : outcome (list string) :=
    match groups with
    | [] => Ok []
    | OArray l :: rest => ss <~ format_r_groups rest ;; Ok (joined_elements "," l :: ss)
    | _ :: _ => Panic "interface conversion"
    end.
  Definition format_r_roll_values (groups : list obj) : outcome string :=
    ss <~ format_r_groups groups ;; Ok (join " + " ss).

  (** execute_r_roll_list.go:13-50 [executeRRollList] *)
  Definition execute_r_roll_list (n : node) : comp result :=
    '(n1, s1) <- eval_var_args_notation n ;;
    match n1 with
    | NRRollList _ th =>
        bad <- check_r_roll_threshold mr th ;;
        match bad with
        | Some msg => CRet (no_dice [parenthesize s1; msg])
        | None =>
            o <- eval mr n1 ;;
            match o with
            | OArray groups =>
                CLog (fun ds =>
                  s2 <- clift (format_r_roll_values groups) ;;
                  CRet (Result game_id [parenthesize s1; s2] ds Unspecified false))
            | _ => panic_type
            end
        end
    | _ => panic_type
    end.

  (** execute_r_roll_comp.go:11-64 [executeRRollComp] *)
  Definition execute_r_roll_comp (e : node) : comp result :=
    match e with
    | NInfix op _ _ =>
        if is_basic_op op then
          e1 <- eval_var_args mr e ;;
          match e1 with
          | NInfix op1 (NRRollList rolls th) r =>
              th' <- set_reroll_threshold mr th r ;;
              let e2 := NInfix op1 (NRRollList rolls th') r in
              s1 <- clift (infix_notation (NCommand CRRollComp e2) true) ;;
              bad <- check_r_roll_threshold mr th' ;;
              match bad with
              | Some msg => CRet (no_dice [parenthesize s1; msg])
              | None =>
                  o <- eval mr (NCommand CRRollComp e2) ;;
                  match o with
                  | ORRollComp groups succ =>
                      CLog (fun ds =>
                        s2 <- clift (format_r_roll_values groups) ;;
                        CRet (Result game_id [parenthesize s1; s2; ("成功数" ++ itoa succ)%string] ds Unspecified false))
                  | _ => panic_type
                  end
              end
          | _ => panic_type
          end
        else panic_type
    | _ => panic_type
    end.

  (** execute_u_roll_expr.go:65-76: the loop of [formatURollExprValueGroupsAndModifier] *)
  Fixpoint format_u_groups (groups : list obj) (sums : list Z) : outcome (list string) :=
    match groups with
    | [] => Ok []
    | OArray l :: rest =>
        match sums with
        | s :: sums' =>
            ss <~ format_u_groups rest sums' ;;
            Ok ((itoa s ++ (if (1 <? Z.of_nat (length l))%Z then inspect_without_spaces (OArray l) else ""))%string :: ss)
        | [] => Panic "index out of range"
        end
    | _ :: _ => Panic "interface conversion"
    end.
  (** execute_u_roll_expr.go:59-83 *)
  Definition format_u_value_groups (groups : list obj) (m : Z) : outcome string :=
    sums <~ sum_of_groups groups ;;
    ss <~ format_u_groups groups sums ;;
    Ok (join "," ss ++ format_modifier m)%string.

  (** object/u_roll_expr_result.go:70-81 [MaxValue], [SumOfValues] *)
  Definition u_max_value (groups : list obj) (m : Z) : outcome Z :=
    sums <~ sum_of_groups groups ;;
    match max_integer (map OInt sums) with
    | Some v => Ok (wrap64 (v + m))
    | None => onil
    end.
  Definition u_sum_of_values (groups : list obj) (m : Z) : outcome Z :=
    sums <~ sum_of_groups groups ;;
    match sum_of_integers (map OInt sums) with
    | Some v => Ok (wrap64 (v + m))
    | None => onil
    end.

  (** execute_u_roll_expr.go:15-56 [executeURollExpr] *)
  Definition execute_u_roll_expr (n : node) : comp result :=
    '(n1, s1) <- eval_var_args_notation n ;;
    match n1 with
    | NURollExpr _ th _ =>
        bad <- check_u_roll_threshold mr th ;;
        match bad with
        | Some msg => CRet (no_dice [parenthesize s1; msg])
        | None =>
            o <- eval mr n1 ;;
            match o with
            | OURollExpr groups m =>
                CLog (fun ds =>
                  s2 <- clift (format_u_value_groups groups m) ;;
                  mx <- clift (u_max_value groups m) ;;
                  sm <- clift (u_sum_of_values groups m) ;;
                  CRet (Result game_id
                          [parenthesize s1; s2; (itoa mx ++ "/" ++ itoa sm ++ " (最大/合計)")%string]
                          ds Unspecified false))
            | _ => panic_type
            end
        end
    | _ => panic_type
    end.

  (** execute_u_roll_comp.go:11-61 [executeURollComp] *)
  Definition execute_u_roll_comp (e : node) : comp result :=
    match e with
    | NInfix op _ _ =>
        if is_basic_op op then
          e1 <- eval_var_args mr e ;;
          s1 <- clift (infix_notation (NCommand CURollComp e1) true) ;;
          match e1 with
          | NInfix _ (NURollExpr _ th _) _ =>
              bad <- check_u_roll_threshold mr th ;;
              match bad with
              | Some msg => CRet (no_dice [parenthesize s1; msg])
              | None =>
                  o <- eval mr (NCommand CURollComp e1) ;;
                  match o with
                  | OURollComp groups m succ =>
                      CLog (fun ds =>
                        s2 <- clift (format_u_value_groups groups m) ;;
                        CRet (Result game_id [parenthesize s1; s2; ("成功数" ++ itoa succ)%string] ds Unspecified false))
                  | _ => panic_type
                  end
              end
          | _ => panic_type
          end
        else panic_type
    | _ => panic_type
    end.

  (** execute_choice.go:11-40 [executeChoice] *)
  Definition execute_choice (items : list string) : comp result :=
    s1 <- clift (infix_notation (NChoice items) true) ;;
    o <- eval mr (NChoice items) ;;
    match o with
    | OString s => with_dice [parenthesize s1; s] Unspecified
    | _ => panic_type
    end.

  (** command.go:22-65 [Execute], [executeCommand] *)
  Definition execute (n : node) : comp result :=
    match n with
    | NNull => panic_nil
    | NCommand CDRollExpr e => execute_d_roll_expr e
    | NCommand CDRollComp e => execute_d_roll_comp e
    | NCommand CBRollComp e => execute_b_roll_comp e
    | NCommand CRRollComp e => execute_r_roll_comp e
    | NCommand CURollComp e => execute_u_roll_comp e
    | NCommand CCalc e => execute_calc e
    | NBRollList _ => execute_b_roll_list n
    | NRRollList _ _ => execute_r_roll_list n
    | NURollExpr _ _ _ => execute_u_roll_expr n
    | NChoice items => execute_choice items
    | _ => CErr ("command execution not implemented: " ++ node_type n)%string
    end.
End CommandSec.

(** Execution on a fresh environment (bcdice.go:115-118: NewEnvironment, NewEvaluator, Execute). *)
Definition run_command (game_id : string) (n : node) (f : feeder) : outcome result * feeder :=
  let '(o, s) := run (execute default_max_rerolls game_id n) (EState f []) in (o, es_feeder s).
