(** The grammar pkg/core/parser/parser.pigeon and its actions; the table in parser.go:88-2358 is generated
    from it.  (pigeon stores literals matched with "i" in lower case.) *)
From Verif Require Export Peg.
Open Scope list_scope.
Open Scope Z_scope.

(** The rules in the order of parser.pigeon *)
Inductive rule :=
| Command | CommandWithExpression | Choice | ChoiceItems | ChoiceItem | ChoiceItemChars | Calc
| DRollExprCommand | DRollCompCommand | BRollList | BRollComp | RRollList | RRollComp | URollComp
| URollExpr | URollList | IntExpr | IntExprAdditive | IntExprMultitive | IntExprPrimary
| ParenthesizedIntExpr | IntExprUnaryPlus | IntExprUnaryMinus | DRollComp | DRollExpr
| DRollExprAdditive | DRollExprMultitive | DRollExprPrimary | ParenthesizedDRollExpr
| DRollExprUnaryPlus | DRollExprUnaryMinus | IntRandExpr | IntRandExprAdditive
| IntRandExprMultitive | IntRandExprPrimary | ParenthesizedIntRandExpr | IntRandExprUnaryPlus
| IntRandExprUnaryMinus | DRoll | BRoll | RRoll | URoll | RollOperand | RandomNumber
| RandomNumberOperand | ResetRandCount | IncRandCount | Integer | CompareOp | EOT.

(** ** Helpers of the actions, parser.pigeon:12-68 *)

(** Results of the Go code inside an action (sequencing = [ares]) *)
Definition abind {A} (m : A + string) (f : A -> ares) : ares :=
  match m with inl a => f a | inr p => APanic p end.
Notation "x <-! m ; f" := (abind m (fun x => f)) (at level 61, m at next level, right associativity).

(** [v.(ast.Node)], e.g. parser.pigeon:22, 107 *)
Definition as_node (v : val) : node + string :=
  match v with VNode n => inl n | _ => inr "interface conversion: not ast.Node"%string end.
(** [v.([]byte)] converted to string, e.g. parser.pigeon:25, 142 *)
Definition as_bytes (v : val) : string + string :=
  match v with VBytes s => inl s | _ => inr "interface conversion: not []uint8"%string end.
(** parser.pigeon:13-18 [toIfaceSlice]; [None] is a nil slice *)
Definition to_iface_slice (v : val) : option (list val) + string :=
  match v with
  | VNil => inl None
  | VSlice l => inl (Some l)
  | _ => inr "interface conversion: not []interface {}"%string
  end.
(** ranging over or indexing a possibly nil slice, parser.pigeon:23-26 *)
Definition slice_elems (o : option (list val)) : list val := match o with Some l => l | None => [] end.
Definition index (l : list val) (i : nat) : val + string :=
  match nth_error l i with Some v => inl v | None => inr "index out of range"%string end.
(** [v.( *ast.VariableInfixExpression)], parser.pigeon:127, 131, 156, 160 *)
Definition as_vroll (v : val) : vroll + string :=
  match v with
  | VNode (NInfix (OpVar k) l r) => inl (VRoll k l r)
  | _ => inr "interface conversion: not *ast.VariableInfixExpression"%string
  end.
(** [v.( *ast.String)], parser.pigeon:85, 90 *)
Definition as_string_node (v : val) : string + string :=
  match v with
  | VNode (NString s) => inl s
  | _ => inr "interface conversion: not *ast.String"%string
  end.

(** parser.pigeon:21-37 [leftAssociativeAdditive]: the loop *)
Fixpoint additive_loop (last : node) (rest : list val) : ares :=
  match rest with
  | [] => AVal (VNode last)
  | r :: rest' =>
      rs <-! to_iface_slice r ;
      o <-! index (slice_elems rs) 0 ;
      op <-! as_bytes o ;
      v <-! index (slice_elems rs) 1 ;
      right <-! as_node v ;
      additive_loop (if String.eqb op "+" then NInfix OpAdd last right
                     else if String.eqb op "-" then NInfix OpSub last right
                     else last) rest'
  end.
Definition left_assoc_additive (first rest : val) : ares :=
  n <-! as_node first ;
  l <-! to_iface_slice rest ;
  additive_loop n (slice_elems l).

(** strings.ToUpper on the one-character texts matched by [ur]i.  (U+017F and others that upper-case to ASCII are not
    matched by the class.) *)
Definition to_upper_ur (s : string) : string :=
  if String.eqb s "u" then "U" else if String.eqb s "r" then "R" else s.

(** parser.pigeon:40-68 [leftAssociativeMultitive]: the loop *)
Fixpoint multitive_loop (last : node) (rest : list val) : ares :=
  match rest with
  | [] => AVal (VNode last)
  | r :: rest' =>
      rs <-! to_iface_slice r ;
      o <-! index (slice_elems rs) 0 ;
      op <-! as_bytes o ;
      v <-! index (slice_elems rs) 1 ;
      right <-! as_node v ;
      m <-! (match nth_error (slice_elems rs) 2 with
             | Some b => match as_bytes b with inl s => inl (to_upper_ur s) | inr p => inr p end
             | None => inl ""%string
             end) ;
      multitive_loop
        (if String.eqb op "*" then NInfix OpMul last right
         else if String.eqb op "/" then
           (if String.eqb m "U" then NInfix (OpDiv RoundUp) last right
            else if String.eqb m "R" then NInfix (OpDiv RoundHalf) last right
            else if String.eqb m "" then NInfix (OpDiv RoundDown) last right
            else last)
         else last) rest'
  end.
Definition left_assoc_multitive (first rest : val) : ares :=
  n <-! as_node first ;
  l <-! to_iface_slice rest ;
  multitive_loop n (slice_elems l).

(** ** The actions *)
(** type of an action: labels, c.text, c.state (parser.go:2575-2579) *)
Definition action := env -> list gochar -> gstate -> ares.

(** [return x, nil] for a label, parser.pigeon:73, 77, 81, 99 *)
Definition act_label (l : string) : action := fun e _ _ => AVal (lookup l e).
(** [return x.(ast.Node), nil], parser.pigeon:240, 244, 272, 276, 296, 300 *)
Definition act_node (l : string) : action := fun e _ _ => n <-! as_node (lookup l e) ; AVal (VNode n).
(** parser.pigeon:247-249, 279-281, 303-305 *)
Definition act_unary_minus (l : string) : action := fun e _ _ => n <-! as_node (lookup l e) ; AVal (VNode (NNeg n)).

(** parser.pigeon:88-93: the loop over the further items *)
Fixpoint items_loop (items : list string) (rest : list val) : ares :=
  match rest with
  | [] => AVal (VNode (NChoice items))
  | r :: rest' =>
      rs <-! to_iface_slice r ;
      v <-! index (slice_elems rs) 1 ;
      s <-! as_string_node v ;
      items_loop (items ++ [s]) rest'
  end.
(** parser.pigeon:84-96 *)
Definition act_choice_items : action := fun e _ _ =>
  s <-! as_string_node (lookup "first" e) ;
  l <-! to_iface_slice (lookup "rest" e) ;
  items_loop [s] (slice_elems l).
(** parser.pigeon:102-104 *)
Definition act_choice_chars : action := fun _ text _ => AVal (VNode (NString (raw_text (trim_space text)))).
(** parser.pigeon:106-108 *)
Definition act_calc : action := fun e _ _ => n <-! as_node (lookup "expr" e) ; AVal (VNode (NCommand CCalc n)).
(** parser.pigeon:110-116, 118-124 *)
Definition act_d_command (t : cmdtype) : action := fun e _ st =>
  match st with
  | None => APanic "interface conversion: interface {} is nil, not int"
  | Some k =>
      if k <? 1 then AErr "random element not found"
      else n <-! as_node (lookup "expr" e) ; AVal (VNode (NCommand t n))
  end.
(** parser.pigeon:129-133, 158-162, 218-222: the loop over the further rolls *)
Fixpoint rolls_loop (k : list vroll -> node) (rolls : list vroll) (rest : list val) : ares :=
  match rest with
  | [] => AVal (VNode (k rolls))
  | r :: rest' =>
      rs <-! to_iface_slice r ;
      v <-! index (slice_elems rs) 1 ;
      b <-! as_vroll v ;
      rolls_loop k (rolls ++ [b]) rest'
  end.
(** parser.pigeon:126-136 *)
Definition act_b_roll_list : action := fun e _ _ =>
  b <-! as_vroll (lookup "first" e) ;
  l <-! to_iface_slice (lookup "rest" e) ;
  rolls_loop NBRollList [b] (slice_elems l).
(** parser.pigeon:138-146, 167-175, 177-185: a comparison command; 251-257: a plain comparison *)
Definition act_compare (wrap : node -> node) : action := fun e _ _ =>
  l <-! as_node (lookup "left" e) ;
  op <-! as_bytes (lookup "op" e) ;
  r <-! as_node (lookup "right" e) ;
  AVal (VNode (wrap (NInfix (OpCmp op) l r))).
(** parser.pigeon:148-165, 208-225 *)
Definition act_r_roll_list : action := fun e _ _ =>
  ths <-! to_iface_slice (lookup "th" e) ;
  th <-! (match ths with
          | None => inl NNil
          | Some l => match index l 1 with inl v => as_node v | inr p => inr p end
          end) ;
  b <-! as_vroll (lookup "first" e) ;
  l <-! to_iface_slice (lookup "rest" e) ;
  rolls_loop (fun rolls => NRRollList rolls th) [b] (slice_elems l).
(** parser.pigeon:187-206 *)
Definition act_u_roll_expr : action := fun e _ _ =>
  bs <-! to_iface_slice (lookup "bonus" e) ;
  let finish (b : option bonus) : ares :=
    match lookup "uRollList" e with
    | VNode (NRRollList rolls th) => AVal (VNode (NURollExpr rolls th b))
    | _ => APanic "interface conversion: not *ast.RRollList"
    end in
  match bs with
  | None => finish None
  | Some l =>
      o <-! index l 0 ;
      op <-! as_bytes o ;
      v <-! index l 1 ;
      right <-! as_node v ;
      if String.eqb op "+" then finish (Some (Bonus OpAdd (NInt 0) right))
      else if String.eqb op "-" then finish (Some (Bonus OpSub (NInt 0) right))
      else AErr ("unknown operator: " ++ op)
  end.
(** parser.pigeon:307-333, 337-342 *)
Definition act_var (k : vkind) (ll rl : string) : action := fun e _ _ =>
  l <-! as_node (lookup ll e) ;
  r <-! as_node (lookup rl e) ;
  AVal (VNode (NInfix (OpVar k) l r)).
(** parser.pigeon:356-363 *)
Definition act_integer : action := fun _ text _ => AVal (VNode (NInt (atoi_digits text))).
(** parser.pigeon:230, 234, 262, 266, 286, 290 *)
Definition act_first_rest (f : val -> val -> ares) : action := fun e _ _ => f (lookup "first" e) (lookup "rest" e).

(** parser.pigeon:346-349 *)
Definition st_reset (st : gstate) : ares * gstate := (AVal VNil, Some 0).
(** parser.pigeon:351-354 *)
Definition st_inc (st : gstate) : ares * gstate :=
  match st with
  | Some k => (AVal VNil, Some (wrap64 (k + 1)))
  | None => (APanic "interface conversion: interface {} is nil, not int", st)
  end.

(** ** The rule table, parser.pigeon:72-367 *)
(** Literals and character classes as they appear in parser.pigeon:80, 98, 102, 106, 233, 307-328, 356
    (literals as lists of runes) *)
Fixpoint runes (s : string) : list Z :=
  match s with EmptyString => [] | String a s' => Z.of_N (N_of_ascii a) :: runes s' end.
Definition lit (s : string) : expr rule := ELit (runes s) false.
Definition lit_i (s : string) : expr rule := ELit (runes s) true.
Definition cls_Z : expr rule := EClass (CharClass [] [] true false false).
Definition cls_not_item : expr rule := EClass (CharClass (runes "],") [] false false true).
Definition cls_ur : expr rule := EClass (CharClass (runes "ur") [] false true false).
Definition cls_digit : expr rule := EClass (CharClass [] [(48, 57)] false false false).

(** parser.pigeon:229-231, 261-263, 285-287 *)
Definition additive (f : rule) : expr rule :=
  EAction (act_first_rest left_assoc_additive)
    (ESeq [ELabel "first" (ERef f);
           ELabel "rest" (EStar (ESeq [EChoice [lit "+"; lit "-"]; ERef f]))]).
(** parser.pigeon:233-235, 265-267, 289-291 *)
Definition multitive (f : rule) : expr rule :=
  EAction (act_first_rest left_assoc_multitive)
    (ESeq [ELabel "first" (ERef f);
           ELabel "rest" (EStar (EChoice [ESeq [lit "/"; ERef f; cls_ur];
                                          ESeq [EChoice [lit "*"; lit "/"]; ERef f]]))]).
(** parser.pigeon:239-241, 271-273, 295-297 *)
Definition parenthesized (f : rule) : expr rule :=
  EAction (act_node "e") (ESeq [lit "("; ELabel "e" (ERef f); lit ")"]).
(** parser.pigeon:243-245, 275-277, 299-301 *)
Definition unary_plus (f : rule) : expr rule :=
  EAction (act_node "e") (ESeq [lit "+"; ELabel "e" (ERef f)]).
(** parser.pigeon:247-249, 279-281, 303-305 *)
Definition unary_minus (f : rule) : expr rule :=
  EAction (act_unary_minus "e") (ESeq [lit "-"; ELabel "e" (ERef f)]).
(** parser.pigeon:307-333 *)
Definition roll_rule (k : vkind) (letter : string) : expr rule :=
  EAction (act_var k "num" "sides")
    (ESeq [ELabel "num" (ERef RollOperand); lit_i letter; ELabel "sides" (ERef RollOperand); ERef IncRandCount]).
(** parser.pigeon:138-146, 167-175, 177-185, 251-257 *)
Definition compare_rule (wrap : node -> node) (left : rule) : expr rule :=
  EAction (act_compare wrap)
    (ESeq [ELabel "left" (ERef left); ELabel "op" (ERef CompareOp); ELabel "right" (ERef IntExpr)]).
(** parser.pigeon:148-165, 208-225 *)
Definition r_list_rule (f : rule) : expr rule :=
  EAction act_r_roll_list
    (ESeq [ELabel "first" (ERef f);
           ELabel "rest" (EStar (ESeq [lit "+"; ERef f]));
           ELabel "th" (EOpt (ESeq [lit "["; ERef IntExpr; lit "]"]))]).

(** parser.pigeon:72-367; one case per rule, in that order *)
Definition rules (r : rule) : expr rule :=
  match r with
  | Command =>
      EAction (act_label "n")
        (ESeq [ERef ResetRandCount;
               ELabel "n" (EChoice [ERef Choice; ERef Calc; ERef CommandWithExpression])])
  | CommandWithExpression =>
      EAction (act_label "n")
        (ESeq [ELabel "n" (EChoice [ERef BRollComp; ERef BRollList; ERef RRollComp; ERef RRollList;
                                    ERef URollComp; ERef URollExpr; ERef DRollCompCommand; ERef DRollExprCommand]);
               ERef EOT])
  | Choice =>
      EAction (act_label "items")
        (ESeq [lit_i "choice["; ELabel "items" (ERef ChoiceItems);
               EOpt (ESeq [lit ","; EStar cls_Z]); lit "]"])
  | ChoiceItems =>
      EAction act_choice_items
        (ESeq [ELabel "first" (ERef ChoiceItem); ELabel "rest" (EStar (ESeq [lit ","; ERef ChoiceItem]))])
  | ChoiceItem => EAction (act_label "s") (ESeq [EStar cls_Z; ELabel "s" (ERef ChoiceItemChars)])
  | ChoiceItemChars => EAction act_choice_chars (EPlus cls_not_item)
  | Calc => EAction act_calc (ESeq [lit_i "c"; lit "("; ELabel "expr" (ERef IntExpr); lit ")"])
  | DRollExprCommand => EAction (act_d_command CDRollExpr) (ELabel "expr" (ERef DRollExpr))
  | DRollCompCommand => EAction (act_d_command CDRollComp) (ELabel "expr" (ERef DRollComp))
  | BRollList =>
      EAction act_b_roll_list
        (ESeq [ELabel "first" (ERef BRoll); ELabel "rest" (EStar (ESeq [lit "+"; ERef BRoll]))])
  | BRollComp => compare_rule (NCommand CBRollComp) BRollList
  | RRollList => r_list_rule RRoll
  | RRollComp => compare_rule (NCommand CRRollComp) RRollList
  | URollComp => compare_rule (NCommand CURollComp) URollExpr
  | URollExpr =>
      EAction act_u_roll_expr
        (ESeq [ELabel "uRollList" (ERef URollList);
               ELabel "bonus" (EOpt (ESeq [EChoice [lit "+"; lit "-"]; ERef IntExprAdditive]))])
  | URollList => r_list_rule URoll
  | IntExpr => ERef IntExprAdditive
  | IntExprAdditive => additive IntExprMultitive
  | IntExprMultitive => multitive IntExprPrimary
  | IntExprPrimary => EChoice [ERef Integer; ERef IntExprUnaryPlus; ERef IntExprUnaryMinus; ERef ParenthesizedIntExpr]
  | ParenthesizedIntExpr => parenthesized IntExpr
  | IntExprUnaryPlus => unary_plus IntExprPrimary
  | IntExprUnaryMinus => unary_minus IntExprPrimary
  | DRollComp => compare_rule (fun n => n) DRollExprAdditive
  | DRollExpr => ERef DRollExprAdditive
  | DRollExprAdditive => additive DRollExprMultitive
  | DRollExprMultitive => multitive DRollExprPrimary
  | DRollExprPrimary => EChoice [ERef DRoll; ERef RandomNumber; ERef Integer; ERef DRollExprUnaryPlus;
                                 ERef DRollExprUnaryMinus; ERef ParenthesizedDRollExpr]
  | ParenthesizedDRollExpr => parenthesized DRollExpr
  | DRollExprUnaryPlus => unary_plus DRollExprPrimary
  | DRollExprUnaryMinus => unary_minus DRollExprPrimary
  | IntRandExpr => ERef IntRandExprAdditive
  | IntRandExprAdditive => additive IntRandExprMultitive
  | IntRandExprMultitive => multitive IntRandExprPrimary
  | IntRandExprPrimary => EChoice [ERef Integer; ERef RandomNumber; ERef IntRandExprUnaryPlus;
                                   ERef IntRandExprUnaryMinus; ERef ParenthesizedIntRandExpr]
  | ParenthesizedIntRandExpr => parenthesized IntRandExpr
  | IntRandExprUnaryPlus => unary_plus IntRandExprPrimary
  | IntRandExprUnaryMinus => unary_minus IntRandExprPrimary
  | DRoll => roll_rule KD "d"
  | BRoll => roll_rule KB "b"
  | RRoll => roll_rule KR "r"
  | URoll => roll_rule KU "u"
  | RollOperand => EChoice [ERef Integer; ERef RandomNumber; ERef ParenthesizedIntRandExpr]
  | RandomNumber =>
      EAction (act_var KRand "min" "max")
        (ESeq [lit "["; ELabel "min" (ERef RandomNumberOperand); lit "..."; ELabel "max" (ERef RandomNumberOperand);
               lit "]"; ERef IncRandCount])
  | RandomNumberOperand => EChoice [ERef Integer; ERef ParenthesizedIntExpr]
  | ResetRandCount => EState st_reset
  | IncRandCount => EState st_inc
  | Integer => EAction act_integer (EPlus cls_digit)
  | CompareOp => EChoice [lit "="; lit "<>"; lit "<="; lit "<"; lit ">="; lit ">"]
  | EOT => ENot EAny
  end.

(** [parser.Parse("", []byte(input))], parser.go:2529-2531 and 3093-3157: the start rule is the first one.
    Fuel: see [parse_total] in the proofs.  A match whose value is not a node, or no value at all, does not occur
    (proved); [parse_command] covers the type assertion [.(ast.Node)] of basic.go:41 by a panic. *)
Definition parse_fuel (input : string) : nat := 100 * S (String.length input).
Definition parse_val (input : string) : option (outcome val) := parse rules (parse_fuel input) Command input.
Definition parse_command (input : string) : outcome node :=
  match parse_val input with
  | None => Panic "out of fuel"
  | Some (Ok (VNode n)) => Ok n
  | Some (Ok _) => Panic "interface conversion: not ast.Node"
  | Some (Err e) => Err e
  | Some (Panic p) => Panic p
  end.
