(** Specification for C91: which rolls are never worse with better dice. *)
From Verif Require Import GoBase Dice Ast SpecSyntax SpecArith SpecRoll SpecFair SpecOdds.
Open Scope list_scope.
Open Scope Z_scope.

(** No sign and no subtraction: such a roll is never negative *)
Fixpoint unsigned (e : wexpr) : Prop :=
  match e with
  | Leaf (WInt v) => 0 <= v
  | Leaf (WDice _ _) => True
  | Neg _ => False
  | Bin Plus a b | Bin Times a b => unsigned a /\ unsigned b
  | Bin _ _ _ => False
  end.
(** A written number, possibly with signs *)
Fixpoint number (e : wexpr) : option Z :=
  match e with
  | Leaf (WInt v) => Some v
  | Neg a => option_map Z.opp (number a)
  | _ => None
  end.
(** [helped true e]: the dice of e count upwards, as in 2D6+3, 5-(0-1D6) or 1D6/2; [helped false e]: they count downwards, as in 3-1D6.
    A negative factor or divisor turns them round. *)
Fixpoint helped (up : bool) (e : wexpr) : Prop :=
  match e with
  | Leaf (WInt _) => True
  | Leaf (WDice _ _) => up = true
  | Neg a => helped (negb up) a
  | Bin Plus a b => helped up a /\ helped up b
  | Bin Minus a b => helped up a /\ helped (negb up) b
  | Bin Times a b =>
      match number a, number b with
      | _, Some k => helped (if 0 <=? k then up else negb up) a
      | Some k, None => helped (if 0 <=? k then up else negb up) b
      | None, None => up = true /\ helped true a /\ helped true b /\ unsigned a /\ unsigned b
      end
  | Bin (Over _) a b =>
      match number b with
      | Some k => k <> 0 /\ helped (if 0 <=? k then up else negb up) a
      | None => False
      end
  end.
(** In the direction: upwards or downwards *)
Definition no_less (up : bool) (v v' : Z) : Prop := if up then v <= v' else v' <= v.
(** The comparison operators that hold for all greater (all smaller) numbers when they hold for one *)
Definition asks_for (up : bool) (op : string) : Prop := if up then op = ">="%string \/ op = ">"%string else op = "<="%string \/ op = "<"%string.
(** Each die shows at least as much *)
Definition better (rs rs' : list Z) : Prop := Forall2 Z.le rs rs'.
