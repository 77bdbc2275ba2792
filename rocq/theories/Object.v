(** pkg/core/object: evaluation results. *)
From Verif Require Export GoBase.
From Verif Require Quote.
Open Scope list_scope.
Open Scope Z_scope.

(** object/object.go:18-43 and the struct types.  The arrays inside the roll results are
    [*object.Array]; here the list of their elements. *)
Inductive obj :=
| OInt (v : Z)                                         (* integer.go:8-11 *)
| OBool (b : bool)                                     (* boolean.go:8-11 *)
| OString (s : string)                                 (* string.go:8-11 *)
| OArray (l : list obj)                                (* array.go:9-12 *)
| OBRollComp (values : list obj) (succ : Z)            (* b_roll_comp_result.go:8-13 *)
| ORRollComp (groups : list obj) (succ : Z)            (* r_roll_comp_result.go:8-13 *)
| OURollExpr (groups : list obj) (modifier : Z)        (* u_roll_expr_result.go:10-18 *)
| OURollComp (groups : list obj) (modifier : Z) (succ : Z). (* u_roll_comp_result.go:8-13 *)

(** object/object.go:32-43 *)
Definition obj_type (o : obj) : string :=
  match o with
  | OInt _ => "INTEGER" | OBool _ => "BOOLEAN" | OString _ => "STRING" | OArray _ => "ARRAY"
  | OBRollComp _ _ => "B_ROLL_COMP_RESULT" | ORRollComp _ _ => "R_ROLL_COMP_RESULT"
  | OURollExpr _ _ => "U_ROLL_EXPR_RESULT" | OURollComp _ _ _ => "U_ROLL_COMP_RESULT"
  end.

(** [Inspect()]: integer.go:24-26, boolean.go:24-26, array.go:41-49 and 73-80,
    b_roll_comp_result.go:29-39, r_roll_comp_result.go:29-39, u_roll_expr_result.go:37-47,
    u_roll_comp_result.go:29-39.  string.go:24-26 prints with %q. *)
Fixpoint inspect (o : obj) : string :=
  match o with
  | OInt v => itoa v
  | OBool b => if b then "true" else "false"
  | OString s => Quote.quote Quote.is_print s
  | OArray l => "[" ++ join ", " (map inspect l) ++ "]"
  | OBRollComp l n => "<BRollCompResult Values=[" ++ join ", " (map inspect l) ++ "], NumOfSuccesses=" ++ itoa n ++ ">"
  | ORRollComp l n => "<RRollCompResult ValueGroups=[" ++ join ", " (map inspect l) ++ "], NumOfSuccesses=" ++ itoa n ++ ">"
  | OURollExpr l m => "<URollExprResult ValueGroups=[" ++ join ", " (map inspect l) ++ "], Modifier=" ++ itoa m ++ ">"
  | OURollComp l m n => "<URollCompResult RollResult=<URollExprResult ValueGroups=[" ++ join ", " (map inspect l)
       ++ "], Modifier=" ++ itoa m ++ ">, NumOfSuccesses=" ++ itoa n ++ ">"
  end%string.

(** array.go:73-80 [JoinedElements] *)
Definition joined_elements (sep : string) (l : list obj) : string := join sep (map inspect l).

(** array.go:52-60, 84-96 [InspectWithoutSpaces], [JoinedElementsWithoutSpaces] *)
Fixpoint inspect_without_spaces (o : obj) : string :=
  match o with
  | OArray l => "[" ++ join "," (map inspect_without_spaces l) ++ "]"
  | _ => inspect o
  end%string.

(** array.go:115-124: the loop of [MaxInteger] *)
Fixpoint max_loop (m : Z) (l : list obj) : option Z :=
  match l with
  | [] => Some m
  | OInt v :: l' => max_loop (if m <? v then v else m) l'
  | _ :: _ => None
  end.
(** array.go:103-127 [MaxInteger]; [None] is [(nil, false)] *)
Definition max_integer (l : list obj) : option Z :=
  match l with
  | [] => Some 0
  | OInt v :: l' => max_loop v l'
  | _ :: _ => None
  end.

(** array.go:133-149 [SumOfIntegers] *)
Fixpoint sum_loop (acc : Z) (l : list obj) : option Z :=
  match l with
  | [] => Some acc
  | OInt v :: l' => sum_loop (wrap64 (acc + v)) l'
  | _ :: _ => None
  end.
Definition sum_of_integers (l : list obj) : option Z := sum_loop 0 l.

(** u_roll_expr_result.go:84-99 [calculateSumOfGroups]; the sums as integers.
    (The lazily filled cache sumOfGroups, :60-67, is not modelled: it is only ever set to this value.) *)
Fixpoint sum_of_groups (groups : list obj) : outcome (list Z) :=
  match groups with
  | [] => Ok []
  | OArray l :: rest =>
      match sum_of_integers l with
      | None => Panic "valueGroups contain non-Integer elements"
      | Some s =>
          match sum_of_groups rest with
          | Ok ss => Ok (s :: ss)
          | Err e => Err e
          | Panic p => Panic p
          end
      end
  | _ :: _ => Panic "interface conversion: object is not *object.Array"
  end.
