(** Specification for C73: the most dice a command can take. *)
From Verif Require Import Dice SpecDice SpecSyntax SpecRoll SpecLists SpecCounts.
Open Scope list_scope.
Open Scope Z_scope.

(** The random numbers [a...b] in an operand of a roll *)
Fixpoint random_numbers (e : rexpr) : Z :=
  match e with Leaf (RInt _) => 0 | Leaf (RRand _ _) => 1 | Neg e => random_numbers e | Bin _ a b => random_numbers a + random_numbers b end.
Definition random_operands (rs : list roll) : Z := fold_right (fun r n => random_numbers (fst r) + random_numbers (snd r) + n) 0 rs.

(** No roll of the command can come out with more than m dice, with legal dice for the random numbers in its count. *)
Definition counts_at_most (m : Z) (c : command) : Prop :=
  forall r ops x, In r (rolls_of c) -> Forall legal ops -> operand_value (fst r) ops x -> x <= m.

(** What the rolls themselves can take if none has more than m dice *)
Definition roll_dice_limit (c : command) (m : Z) : Z :=
  match c with
  | Calculation _ => 0
  | Choose _ => 1
  | DExpr _ | DComp _ _ _ | BList _ _ | BComp _ _ _ _ => Z.of_nat (length (rolls_of c)) * m
  | RList _ _ _ | RComp _ _ _ _ _ => 10000 * m
  | UExpr _ _ _ _ | UComp _ _ _ _ _ _ => 10000 * (Z.of_nat (length (rolls_of c)) * m)
  end.
Definition dice_limit (c : command) (m : Z) : Z := random_operands (rolls_of c) + roll_dice_limit c m.
