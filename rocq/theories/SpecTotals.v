(** Which totals an additive roll can show, without dice: every roll is replaced by some number in its range. *)
From Verif Require Import GoBase Dice Ast Command SpecSyntax SpecRoll.
Open Scope list_scope.
Open Scope Z_scope.

(** Replace each leaf by something it allows. *)
Inductive instance {L M} (leaf : L -> M -> Prop) : ae L -> ae M -> Prop :=
| instance_leaf l m : leaf l m -> instance leaf (Leaf l) (Leaf m)
| instance_neg e e' : instance leaf e e' -> instance leaf (Neg e) (Neg e')
| instance_bin op a b a' b' : instance leaf a a' -> instance leaf b b' -> instance leaf (Bin op a b) (Bin op a' b').

(** The number for a leaf of a roll operand: a random number [lo...hi] lies between its bounds. *)
Definition operand_choice (l : rleaf) (v : Z) : Prop :=
  match l with
  | RInt w => v = w
  | RRand lo hi => exists a b, has_value lo a /\ has_value hi b /\ a < b /\ b - a + 1 <= max_int /\ a <= v <= b
  end.
Definition possible_operand (e : rexpr) (v : Z) : Prop := exists ie, instance operand_choice e ie /\ has_value ie v.

(** The number for a leaf of the expression: a roll xDy can come to anything from x to x*y (as an int64).  A random number outside
    a roll has none (C19). *)
Definition roll_choice (l : dleaf) (v : Z) : Prop :=
  match l with
  | DInt w => v = w
  | DRand _ _ => False
  | DDice n s => exists x y t, possible_operand n x /\ possible_operand s y /\ 1 <= x <= max_alloc_16 /\ 1 <= y /\
                   x <= t <= x * y /\ v = wrap64 t
  end.
Definition possible_total (e : dexpr) (v : Z) : Prop := exists ie, instance roll_choice e ie /\ has_value ie v.
