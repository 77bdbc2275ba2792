(** The counts of a command's rolls. *)
From Verif Require Import GoBase Dice SpecDice Ast SpecSyntax SpecRoll.
Open Scope list_scope.
Open Scope Z_scope.

(** The rolls a command contains *)
Fixpoint d_rolls (e : dexpr) : list roll :=
  match e with
  | Leaf (DDice n s) => [(n, s)]
  | Leaf _ => []
  | Neg e => d_rolls e
  | Bin _ a b => d_rolls a ++ d_rolls b
  end.
Definition rolls_of (c : command) : list roll :=
  match c with
  | Calculation _ | Choose _ => []
  | DExpr e | DComp e _ _ => d_rolls e
  | BList r rs | BComp r rs _ _ | RList r rs _ | RComp r rs _ _ _ | UExpr r rs _ _ | UComp r rs _ _ _ _ => r :: rs
  end.
(** The number of dice of this roll can come out above the limit of 2^44, with legal dice for the random numbers in it. *)
Definition huge_count (r : roll) : Prop :=
  exists ops x, Forall legal ops /\ operand_value (fst r) ops x /\ x > 2 ^ 44.
