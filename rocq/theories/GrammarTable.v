(** The rule table of the generated parser, pkg/core/parser/parser.go:82-1842, translated literally by tools/mkgrammartable.py,
    and the check that the rules of the model (Grammar.v, written after parser.pigeon) have exactly its shape: the same rules in
    the same order under the same names, the same expressions with the same literals, classes and labels, an action or a state
    change at the same places.  (The code of the actions is compared by reading: Grammar.v cites the lines.) *)
From Verif Require Import PegText.
Open Scope string_scope.
Open Scope Z_scope.

Inductive tshape :=
| TAction (run : string) (e : tshape)
| TLabel (l : string) (e : tshape)
| TChoice (alts : list tshape)
| TSeq (es : list tshape)
| TLit (lit : list Z) (ignore_case : bool)
| TClass (text : string) (c : charclass)
| TAny
| TRef (name : string)
| TStar (e : tshape)
| TPlus (e : tshape)
| TOpt (e : tshape)
| TNot (e : tshape)
| TState (run : string).

(** The shape of an expression of the model; no rule has more than one action or state change, which pigeon numbers 1 *)
Fixpoint shape_of (rule_text : string) (e : expr rule) : tshape :=
  match e with
  | EAction _ e => TAction ("callon" ++ rule_text ++ "1") (shape_of rule_text e)
  | ELabel l e => TLabel l (shape_of rule_text e)
  | EChoice alts => TChoice (map (shape_of rule_text) alts)
  | ESeq es => TSeq (map (shape_of rule_text) es)
  | ELit l i => TLit l i
  | EClass c => TClass (class_text c) c
  | EAny => TAny
  | ERef r => TRef (rule_name r)
  | EStar e => TStar (shape_of rule_text e)
  | EPlus e => TPlus (shape_of rule_text e)
  | EOpt e => TOpt (shape_of rule_text e)
  | ENot e => TNot (shape_of rule_text e)
  | EState _ => TState ("callon" ++ rule_text ++ "1")
  end.

(** parser.go:82-1842 *)
Definition table : list (string * tshape) := [
  ("Command",
   TAction "callonCommand1" (TSeq [TRef "ResetRandCount"; TLabel "n" (TChoice [TRef "Choice"; TRef "Calc"; TRef "CommandWithExpression"])]));
  ("CommandWithExpression",
   TAction "callonCommandWithExpression1" (TSeq [TLabel "n" (TChoice [TRef "BRollComp"; TRef "BRollList"; TRef "RRollComp"; TRef "RRollList"; TRef "URollComp"; TRef "URollExpr"; TRef "DRollCompCommand"; TRef "DRollExprCommand"]); TRef "EOT"]));
  ("Choice",
   TAction "callonChoice1" (TSeq [TLit [99; 104; 111; 105; 99; 101; 91] true; TLabel "items" (TRef "ChoiceItems"); TOpt (TSeq [TLit [44] false; TStar (TClass "[\pZ]" (CharClass [] [] true false false))]); TLit [93] false]));
  ("ChoiceItems",
   TAction "callonChoiceItems1" (TSeq [TLabel "first" (TRef "ChoiceItem"); TLabel "rest" (TStar (TSeq [TLit [44] false; TRef "ChoiceItem"]))]));
  ("ChoiceItem",
   TAction "callonChoiceItem1" (TSeq [TStar (TClass "[\pZ]" (CharClass [] [] true false false)); TLabel "s" (TRef "ChoiceItemChars")]));
  ("ChoiceItemChars",
   TAction "callonChoiceItemChars1" (TPlus (TClass "[^\],]" (CharClass [93; 44] [] false false true))));
  ("Calc",
   TAction "callonCalc1" (TSeq [TLit [99] true; TLit [40] false; TLabel "expr" (TRef "IntExpr"); TLit [41] false]));
  ("DRollExprCommand",
   TAction "callonDRollExprCommand1" (TLabel "expr" (TRef "DRollExpr")));
  ("DRollCompCommand",
   TAction "callonDRollCompCommand1" (TLabel "expr" (TRef "DRollComp")));
  ("BRollList",
   TAction "callonBRollList1" (TSeq [TLabel "first" (TRef "BRoll"); TLabel "rest" (TStar (TSeq [TLit [43] false; TRef "BRoll"]))]));
  ("BRollComp",
   TAction "callonBRollComp1" (TSeq [TLabel "left" (TRef "BRollList"); TLabel "op" (TRef "CompareOp"); TLabel "right" (TRef "IntExpr")]));
  ("RRollList",
   TAction "callonRRollList1" (TSeq [TLabel "first" (TRef "RRoll"); TLabel "rest" (TStar (TSeq [TLit [43] false; TRef "RRoll"])); TLabel "th" (TOpt (TSeq [TLit [91] false; TRef "IntExpr"; TLit [93] false]))]));
  ("RRollComp",
   TAction "callonRRollComp1" (TSeq [TLabel "left" (TRef "RRollList"); TLabel "op" (TRef "CompareOp"); TLabel "right" (TRef "IntExpr")]));
  ("URollComp",
   TAction "callonURollComp1" (TSeq [TLabel "left" (TRef "URollExpr"); TLabel "op" (TRef "CompareOp"); TLabel "right" (TRef "IntExpr")]));
  ("URollExpr",
   TAction "callonURollExpr1" (TSeq [TLabel "uRollList" (TRef "URollList"); TLabel "bonus" (TOpt (TSeq [TChoice [TLit [43] false; TLit [45] false]; TRef "IntExprAdditive"]))]));
  ("URollList",
   TAction "callonURollList1" (TSeq [TLabel "first" (TRef "URoll"); TLabel "rest" (TStar (TSeq [TLit [43] false; TRef "URoll"])); TLabel "th" (TOpt (TSeq [TLit [91] false; TRef "IntExpr"; TLit [93] false]))]));
  ("IntExpr",
   TRef "IntExprAdditive");
  ("IntExprAdditive",
   TAction "callonIntExprAdditive1" (TSeq [TLabel "first" (TRef "IntExprMultitive"); TLabel "rest" (TStar (TSeq [TChoice [TLit [43] false; TLit [45] false]; TRef "IntExprMultitive"]))]));
  ("IntExprMultitive",
   TAction "callonIntExprMultitive1" (TSeq [TLabel "first" (TRef "IntExprPrimary"); TLabel "rest" (TStar (TChoice [TSeq [TLit [47] false; TRef "IntExprPrimary"; TClass "[ur]i" (CharClass [117; 114] [] false true false)]; TSeq [TChoice [TLit [42] false; TLit [47] false]; TRef "IntExprPrimary"]]))]));
  ("IntExprPrimary",
   TChoice [TRef "Integer"; TRef "IntExprUnaryPlus"; TRef "IntExprUnaryMinus"; TRef "ParenthesizedIntExpr"]);
  ("ParenthesizedIntExpr",
   TAction "callonParenthesizedIntExpr1" (TSeq [TLit [40] false; TLabel "e" (TRef "IntExpr"); TLit [41] false]));
  ("IntExprUnaryPlus",
   TAction "callonIntExprUnaryPlus1" (TSeq [TLit [43] false; TLabel "e" (TRef "IntExprPrimary")]));
  ("IntExprUnaryMinus",
   TAction "callonIntExprUnaryMinus1" (TSeq [TLit [45] false; TLabel "e" (TRef "IntExprPrimary")]));
  ("DRollComp",
   TAction "callonDRollComp1" (TSeq [TLabel "left" (TRef "DRollExprAdditive"); TLabel "op" (TRef "CompareOp"); TLabel "right" (TRef "IntExpr")]));
  ("DRollExpr",
   TRef "DRollExprAdditive");
  ("DRollExprAdditive",
   TAction "callonDRollExprAdditive1" (TSeq [TLabel "first" (TRef "DRollExprMultitive"); TLabel "rest" (TStar (TSeq [TChoice [TLit [43] false; TLit [45] false]; TRef "DRollExprMultitive"]))]));
  ("DRollExprMultitive",
   TAction "callonDRollExprMultitive1" (TSeq [TLabel "first" (TRef "DRollExprPrimary"); TLabel "rest" (TStar (TChoice [TSeq [TLit [47] false; TRef "DRollExprPrimary"; TClass "[ur]i" (CharClass [117; 114] [] false true false)]; TSeq [TChoice [TLit [42] false; TLit [47] false]; TRef "DRollExprPrimary"]]))]));
  ("DRollExprPrimary",
   TChoice [TRef "DRoll"; TRef "RandomNumber"; TRef "Integer"; TRef "DRollExprUnaryPlus"; TRef "DRollExprUnaryMinus"; TRef "ParenthesizedDRollExpr"]);
  ("ParenthesizedDRollExpr",
   TAction "callonParenthesizedDRollExpr1" (TSeq [TLit [40] false; TLabel "e" (TRef "DRollExpr"); TLit [41] false]));
  ("DRollExprUnaryPlus",
   TAction "callonDRollExprUnaryPlus1" (TSeq [TLit [43] false; TLabel "e" (TRef "DRollExprPrimary")]));
  ("DRollExprUnaryMinus",
   TAction "callonDRollExprUnaryMinus1" (TSeq [TLit [45] false; TLabel "e" (TRef "DRollExprPrimary")]));
  ("IntRandExpr",
   TRef "IntRandExprAdditive");
  ("IntRandExprAdditive",
   TAction "callonIntRandExprAdditive1" (TSeq [TLabel "first" (TRef "IntRandExprMultitive"); TLabel "rest" (TStar (TSeq [TChoice [TLit [43] false; TLit [45] false]; TRef "IntRandExprMultitive"]))]));
  ("IntRandExprMultitive",
   TAction "callonIntRandExprMultitive1" (TSeq [TLabel "first" (TRef "IntRandExprPrimary"); TLabel "rest" (TStar (TChoice [TSeq [TLit [47] false; TRef "IntRandExprPrimary"; TClass "[ur]i" (CharClass [117; 114] [] false true false)]; TSeq [TChoice [TLit [42] false; TLit [47] false]; TRef "IntRandExprPrimary"]]))]));
  ("IntRandExprPrimary",
   TChoice [TRef "Integer"; TRef "RandomNumber"; TRef "IntRandExprUnaryPlus"; TRef "IntRandExprUnaryMinus"; TRef "ParenthesizedIntRandExpr"]);
  ("ParenthesizedIntRandExpr",
   TAction "callonParenthesizedIntRandExpr1" (TSeq [TLit [40] false; TLabel "e" (TRef "IntRandExpr"); TLit [41] false]));
  ("IntRandExprUnaryPlus",
   TAction "callonIntRandExprUnaryPlus1" (TSeq [TLit [43] false; TLabel "e" (TRef "IntRandExprPrimary")]));
  ("IntRandExprUnaryMinus",
   TAction "callonIntRandExprUnaryMinus1" (TSeq [TLit [45] false; TLabel "e" (TRef "IntRandExprPrimary")]));
  ("DRoll",
   TAction "callonDRoll1" (TSeq [TLabel "num" (TRef "RollOperand"); TLit [100] true; TLabel "sides" (TRef "RollOperand"); TRef "IncRandCount"]));
  ("BRoll",
   TAction "callonBRoll1" (TSeq [TLabel "num" (TRef "RollOperand"); TLit [98] true; TLabel "sides" (TRef "RollOperand"); TRef "IncRandCount"]));
  ("RRoll",
   TAction "callonRRoll1" (TSeq [TLabel "num" (TRef "RollOperand"); TLit [114] true; TLabel "sides" (TRef "RollOperand"); TRef "IncRandCount"]));
  ("URoll",
   TAction "callonURoll1" (TSeq [TLabel "num" (TRef "RollOperand"); TLit [117] true; TLabel "sides" (TRef "RollOperand"); TRef "IncRandCount"]));
  ("RollOperand",
   TChoice [TRef "Integer"; TRef "RandomNumber"; TRef "ParenthesizedIntRandExpr"]);
  ("RandomNumber",
   TAction "callonRandomNumber1" (TSeq [TLit [91] false; TLabel "min" (TRef "RandomNumberOperand"); TLit [46; 46; 46] false; TLabel "max" (TRef "RandomNumberOperand"); TLit [93] false; TRef "IncRandCount"]));
  ("RandomNumberOperand",
   TChoice [TRef "Integer"; TRef "ParenthesizedIntExpr"]);
  ("ResetRandCount",
   TState "callonResetRandCount1");
  ("IncRandCount",
   TState "callonIncRandCount1");
  ("Integer",
   TAction "callonInteger1" (TPlus (TClass "[0-9]" (CharClass [] [(48, 57)] false false false))));
  ("CompareOp",
   TChoice [TLit [61] false; TLit [60; 62] false; TLit [60; 61] false; TLit [60] false; TLit [62; 61] false; TLit [62] false]);
  ("EOT",
   TNot (TAny))
].

(** All rules, in the order of their declaration *)
Definition all_rules : list rule :=
  [Command; CommandWithExpression; Choice; ChoiceItems; ChoiceItem; ChoiceItemChars; Calc; DRollExprCommand; DRollCompCommand; BRollList;
   BRollComp; RRollList; RRollComp; URollComp; URollExpr; URollList; IntExpr; IntExprAdditive; IntExprMultitive; IntExprPrimary;
   ParenthesizedIntExpr; IntExprUnaryPlus; IntExprUnaryMinus; DRollComp; DRollExpr; DRollExprAdditive; DRollExprMultitive; DRollExprPrimary;
   ParenthesizedDRollExpr; DRollExprUnaryPlus; DRollExprUnaryMinus; IntRandExpr; IntRandExprAdditive; IntRandExprMultitive;
   IntRandExprPrimary; ParenthesizedIntRandExpr; IntRandExprUnaryPlus; IntRandExprUnaryMinus; DRoll; BRoll; RRoll; URoll; RollOperand;
   RandomNumber; RandomNumberOperand; ResetRandCount; IncRandCount; Integer; CompareOp; EOT].
Lemma all_rules_complete : forall r : rule, In r all_rules.
Proof. destruct r; cbn; tauto. Qed.

(** The rules of the model are those of the table. *)
Theorem grammar_is_the_table : map (fun r => (rule_name r, shape_of (rule_name r) (rules r))) all_rules = table.
Proof. reflexivity. Qed.
