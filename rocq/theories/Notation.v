(** pkg/core/notation/notation.go: infix notation of syntax trees. *)
From Verif Require Export Eval.
Open Scope list_scope.
Open Scope Z_scope.

(** Sequencing of pure Go calls. *)
Definition obind {A B} (m : outcome A) (f : A -> outcome B) : outcome B :=
  match m with Ok a => f a | Err e => Err e | Panic p => Panic p end.
Notation "x <~ m ;; f" := (obind m (fun x => f))
  (at level 61, m at next level, right associativity).

(** notation.go:278-280 [Parenthesize] *)
Definition parenthesize (s : string) : string := ("(" ++ s ++ ")")%string.

(** notation.go:375-385 [FormatModifier] *)
Definition format_modifier (m : Z) : string :=
  if m =? 0 then "" else if 0 <? m then ("+" ++ itoa m)%string else itoa m.

(** notation.go:364-372 [infixNotationOfSumRollResult] *)
Definition notation_sum_roll (ds : list die) : string :=
  (itoa (sum_roll_value ds) ++ "[" ++ join "," (map (fun d => itoa (die_value d)) ds) ++ "]")%string.

(** notation.go:169-183 [infixNotationOfChoice] *)
Definition notation_choice (items : list string) : string :=
  ("CHOICE[" ++ join "," items ++ "]")%string.

Definition onil {A} : outcome A := Panic "invalid memory address or nil pointer dereference".

(** A loop that collects the notations of the elements, notation.go:97-105, 114-122 *)
Fixpoint collect {A} (l : list (outcome A)) : outcome (list A) :=
  match l with
  | [] => Ok []
  | o :: rest => x <~ o ;; xs <~ collect rest ;; Ok (x :: xs)
  end.

(** notation.go:223-275 [parenthesizeChildOfInfixExpression], given the notation of the child when
    walking to the left ([nl]) and with the flag passed on ([nw]).
    (Go computes only the one it needs; both are pure.) *)
Definition paren_child (parent : infixop) (child : node) (assoc : bool)
    (nl nw : outcome string) : outcome string :=
  match child with
  | NNeg _ => s <~ nw ;; Ok (parenthesize s)
  | NInfix c _ _ =>
      if (op_prec c <? op_prec parent) || ((op_prec c =? op_prec parent) && negb assoc)
      then s <~ nl ;; Ok (parenthesize s)
      else nw
  | _ => nw
  end.

(** notation.go:294-308 and 283-290: how left and right are put together *)
Definition notation_infix_text (op : infixop) (l r : string) : string :=
  match op with
  | OpDiv m => (l ++ "/" ++ r ++ rounding_string m)%string
  | _ => (l ++ op_string op ++ r)%string
  end.

(** notation.go:31-361 [InfixNotation] *)
Fixpoint infix_notation (n : node) (walking_left : bool) : outcome string :=
  (* infixNotationOfPrefixExpression, notation.go:201-221 *)
  let prefix (r : node) (w : bool) : outcome string :=
    if is_null r then onil
    else if is_primary r then s <~ infix_notation r w ;; Ok ("-" ++ s)%string
    else s <~ infix_notation r true ;; Ok ("-" ++ parenthesize s)%string in
  (* infixNotationsOfInfixExpressionChildren, notation.go:311-345, and its callers *)
  let infix (op : infixop) (l r : node) (w : bool) : outcome string :=
    if is_null l then onil
    else
      ls <~ match l with
            | NNeg lr =>
                if w && op_lassoc op then
                  (if is_null lr then onil
                   else if is_primary lr then s <~ infix_notation lr w ;; Ok ("-" ++ s)%string
                   else s <~ infix_notation lr true ;; Ok ("-" ++ parenthesize s)%string)
                else paren_child op l (op_lassoc op) (infix_notation l true) (infix_notation l w)
            | _ => paren_child op l (op_lassoc op) (infix_notation l true) (infix_notation l w)
            end ;;
      rs <~ paren_child op r (op_rassoc op) (infix_notation r true) (infix_notation r false) ;;
      Ok (notation_infix_text op ls rs) in
  (* the loop of infixNotationOfBRollList and infixNotationOfRRollList; a roll is an infix expression *)
  let roll (v : vroll) : outcome string :=
    match v with
    | VRoll KRand l r => s <~ infix (OpVar KRand) l r true ;; Ok ("[" ++ s ++ "]")%string
    | VRoll k l r => infix (OpVar k) l r true
    end in
  (* infixNotationOfRRollList, notation.go:111-138 *)
  let rlist (rolls : list vroll) (th : node) : outcome string :=
    ss <~ collect (map roll rolls) ;;
    if is_null th then onil
    else if is_nil th then Ok (join "+" ss)
    else t <~ infix_notation th true ;; Ok (join "+" ss ++ "[" ++ t ++ "]")%string in
  match n with
  | NNull => onil
  | NBRollList rolls => ss <~ collect (map roll rolls) ;; Ok (join "+" ss)   (* 96-108 *)
  | NRRollList rolls th => rlist rolls th
  | NURollExpr rolls th b =>                                                 (* 141-167 *)
      match b with
      | None => rlist rolls th
      | Some (Bonus op _ r) =>
          if is_basic_op op then
            ls <~ rlist rolls th ;;
            match op with
            | OpCmp s =>                                                     (* 186-198 *)
                rs <~ infix_notation r true ;; Ok (ls ++ s ++ rs)%string
            | _ =>
                rs <~ paren_child op r (op_rassoc op) (infix_notation r true) (infix_notation r false) ;;
                Ok (notation_infix_text op ls rs)
            end
          else Panic "interface conversion"                                  (* 155 *)
      end
  | NChoice items => Ok (notation_choice items)
  | NCommand CCalc e => s <~ infix_notation e true ;; Ok ("C(" ++ s ++ ")")%string   (* 86-93 *)
  | NCommand _ e => infix_notation e walking_left                            (* 76-83 *)
  | NNeg r => prefix r walking_left
  | NInfix (OpCmp s) l r =>                                                  (* 186-198 *)
      ls <~ infix_notation l true ;;
      rs <~ infix_notation r true ;;
      Ok (ls ++ s ++ rs)%string
  | NInfix (OpVar KRand) l r =>                                              (* 348-361 *)
      s <~ infix (OpVar KRand) l r true ;; Ok ("[" ++ s ++ "]")%string
  | NInfix op l r => infix op l r walking_left
  | NInt v => Ok (itoa v)
  | NSumRoll ds => Ok (notation_sum_roll ds)
  | NNil | NString _ => Err ("infix notation not implemented: " ++ node_type n)%string
  end.
