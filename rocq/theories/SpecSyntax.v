(** The commands of the dice bot as typed syntax, and the Go syntax tree ([node]) of each.
    This is the vocabulary of most statements: a command a user can write is a [command]. *)
From Verif Require Import GoBase Ast.
Open Scope list_scope.
Open Scope Z_scope.

(** The four arithmetic operators; a division has one of three roundings. *)
Inductive arith := Plus | Minus | Times | Over (m : rounding).

(** Arithmetic expressions over some kind of leaves. *)
Inductive ae (L : Type) :=
| Leaf (l : L)
| Neg (e : ae L)
| Bin (op : arith) (a b : ae L).
Arguments Leaf {L} l.
Arguments Neg {L} e.
Arguments Bin {L} op a b.

(** Integer expressions: the leaves are integer literals. *)
Definition iexpr := ae Z.
(** Operands of rolls: literals and random numbers [lo...hi]. *)
Inductive rleaf := RInt (v : Z) | RRand (lo hi : iexpr).
Definition rexpr := ae rleaf.
(** Additive roll expressions: literals, random numbers and rolls xDy. *)
Inductive dleaf := DInt (v : Z) | DRand (lo hi : iexpr) | DDice (num sides : rexpr).
Definition dexpr := ae dleaf.

(** x ? y for some roll operator *)
Definition roll := (rexpr * rexpr)%type.

Inductive command :=
| Calculation (e : iexpr)                                             (* C(e) *)
| DExpr (e : dexpr)                                                   (* 2D6+1 *)
| DComp (e : dexpr) (op : string) (target : iexpr)                    (* 2D6+1>=7 *)
| BList (r : roll) (rs : list roll)                                   (* 2B6+1B10 *)
| BComp (r : roll) (rs : list roll) (op : string) (target : iexpr)    (* 2B6>=3 *)
| RList (r : roll) (rs : list roll) (th : option iexpr)               (* 2R6[5] *)
| RComp (r : roll) (rs : list roll) (th : option iexpr) (op : string) (target : iexpr)
| UExpr (r : roll) (rs : list roll) (th : option iexpr) (bonus : option (bool * iexpr))  (* 2U6[5]+1; true is + *)
| UComp (r : roll) (rs : list roll) (th : option iexpr) (bonus : option (bool * iexpr)) (op : string) (target : iexpr)
| Choose (items : list string).                                       (* CHOICE[a,b] *)

(** The six comparison operators *)
Definition is_compare_op (op : string) : Prop := In op ["="; "<>"; "<="; "<"; ">="; ">"]%string.
Definition compares (op : string) (x y : Z) : Prop :=
  (op = "=" /\ x = y \/ op = "<>" /\ x <> y \/ op = "<=" /\ x <= y \/ op = "<" /\ x < y \/
   op = ">=" /\ x >= y \/ op = ">" /\ x > y)%string.

(** ** Syntax trees *)
Definition arith_op (op : arith) : infixop :=
  match op with Plus => OpAdd | Minus => OpSub | Times => OpMul | Over m => OpDiv m end.
Fixpoint tree {L} (leaf : L -> node) (e : ae L) : node :=
  match e with
  | Leaf l => leaf l
  | Neg e => NNeg (tree leaf e)
  | Bin op a b => NInfix (arith_op op) (tree leaf a) (tree leaf b)
  end.
Definition itree : iexpr -> node := tree NInt.
Definition rleaf_tree (l : rleaf) : node :=
  match l with
  | RInt v => NInt v
  | RRand lo hi => NInfix (OpVar KRand) (itree lo) (itree hi)
  end.
Definition rtree : rexpr -> node := tree rleaf_tree.
Definition dleaf_tree (l : dleaf) : node :=
  match l with
  | DInt v => NInt v
  | DRand lo hi => NInfix (OpVar KRand) (itree lo) (itree hi)
  | DDice n s => NInfix (OpVar KD) (rtree n) (rtree s)
  end.
Definition dtree : dexpr -> node := tree dleaf_tree.
Definition roll_tree (k : vkind) (r : roll) : vroll := VRoll k (rtree (fst r)) (rtree (snd r)).
Definition th_tree (th : option iexpr) : node := match th with None => NNil | Some e => itree e end.
Definition bonus_tree (b : option (bool * iexpr)) : option bonus :=
  match b with
  | None => None
  | Some (true, e) => Some (Bonus OpAdd (NInt 0) (itree e))
  | Some (false, e) => Some (Bonus OpSub (NInt 0) (itree e))
  end.
Definition command_tree (c : command) : node :=
  match c with
  | Calculation e => NCommand CCalc (itree e)
  | DExpr e => NCommand CDRollExpr (dtree e)
  | DComp e op t => NCommand CDRollComp (NInfix (OpCmp op) (dtree e) (itree t))
  | BList r rs => NBRollList (map (roll_tree KB) (r :: rs))
  | BComp r rs op t => NCommand CBRollComp (NInfix (OpCmp op) (NBRollList (map (roll_tree KB) (r :: rs))) (itree t))
  | RList r rs th => NRRollList (map (roll_tree KR) (r :: rs)) (th_tree th)
  | RComp r rs th op t =>
      NCommand CRRollComp (NInfix (OpCmp op) (NRRollList (map (roll_tree KR) (r :: rs)) (th_tree th)) (itree t))
  | UExpr r rs th b => NURollExpr (map (roll_tree KU) (r :: rs)) (th_tree th) (bonus_tree b)
  | UComp r rs th b op t =>
      NCommand CURollComp
        (NInfix (OpCmp op) (NURollExpr (map (roll_tree KU) (r :: rs)) (th_tree th) (bonus_tree b)) (itree t))
  | Choose items => NChoice items
  end.

(** ** Well-formedness: literals are Go integers, comparison operators are the six, CHOICE has an item. *)
Fixpoint all_leaves {L} (P : L -> Prop) (e : ae L) : Prop :=
  match e with
  | Leaf l => P l
  | Neg e => all_leaves P e
  | Bin _ a b => all_leaves P a /\ all_leaves P b
  end.
Definition iok : iexpr -> Prop := all_leaves in_int64.
Definition rleaf_ok (l : rleaf) : Prop := match l with RInt v => in_int64 v | RRand lo hi => iok lo /\ iok hi end.
Definition rok : rexpr -> Prop := all_leaves rleaf_ok.
Definition dleaf_ok (l : dleaf) : Prop :=
  match l with DInt v => in_int64 v | DRand lo hi => iok lo /\ iok hi | DDice n s => rok n /\ rok s end.
Definition dok : dexpr -> Prop := all_leaves dleaf_ok.
Definition roll_ok (r : roll) : Prop := rok (fst r) /\ rok (snd r).
Definition th_ok (th : option iexpr) : Prop := match th with None => True | Some e => iok e end.
Definition bonus_ok (b : option (bool * iexpr)) : Prop := match b with None => True | Some (_, e) => iok e end.
Definition command_ok (c : command) : Prop :=
  match c with
  | Calculation e => iok e
  | DExpr e => dok e
  | DComp e op t => dok e /\ is_compare_op op /\ iok t
  | BList r rs => Forall roll_ok (r :: rs)
  | BComp r rs op t => Forall roll_ok (r :: rs) /\ is_compare_op op /\ iok t
  | RList r rs th => Forall roll_ok (r :: rs) /\ th_ok th
  | RComp r rs th op t => Forall roll_ok (r :: rs) /\ th_ok th /\ is_compare_op op /\ iok t
  | UExpr r rs th b => Forall roll_ok (r :: rs) /\ th_ok th /\ bonus_ok b
  | UComp r rs th b op t => Forall roll_ok (r :: rs) /\ th_ok th /\ bonus_ok b /\ is_compare_op op /\ iok t
  | Choose items => items <> []
  end.

(** [part p e]: p is a subexpression of e (or e itself). *)
Inductive part {L} (p : ae L) : ae L -> Prop :=
| part_self : part p p
| part_neg e : part p e -> part p (Neg e)
| part_l op a b : part p a -> part p (Bin op a b)
| part_r op a b : part p b -> part p (Bin op a b).

(** No quotient among the factors of the expression *)
Fixpoint quotient_free (e : iexpr) : Prop :=
  match e with
  | Bin Times a b => quotient_free a /\ quotient_free b
  | Bin (Over _) _ _ => False
  | _ => True
  end.
(** No quotient among the factors of the right operand of a multiplication *)
Fixpoint safe (e : iexpr) : Prop :=
  match e with
  | Leaf _ => True
  | Neg e => safe e
  | Bin Times a b => safe a /\ safe b /\ quotient_free b
  | Bin _ a b => safe a /\ safe b
  end.
