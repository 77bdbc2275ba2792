(** Specification for C92: rolls written differently that are the same roll. *)
From Verif Require Import GoBase Dice Ast SpecSyntax SpecArith SpecRoll SpecFair SpecOdds.
Open Scope list_scope.
Open Scope Z_scope.

(** [alike e e']: e' is e rearranged by the laws of addition and multiplication, with rolls of equal dice put together or taken apart
    (1D6+1D6 and 2D6), and with dice read from the other side (the opposite sides of a die with s sides add up to s+1: -1D6 is 1D6-7).
    Not among the laws is x*(y+z) = x*y+x*z: twice one die is not two dice. *)
Inductive alike : wexpr -> wexpr -> Prop :=
| alike_refl e : alike e e
| alike_sym e f : alike e f -> alike f e
| alike_trans e f g : alike e f -> alike f g -> alike e g
| alike_neg e f : alike e f -> alike (Neg e) (Neg f)
| alike_bin op a b a' b' : alike a a' -> alike b b' -> alike (Bin op a b) (Bin op a' b')
| alike_plus_comm a b : alike (Bin Plus a b) (Bin Plus b a)
| alike_plus_assoc a b c : alike (Bin Plus (Bin Plus a b) c) (Bin Plus a (Bin Plus b c))
| alike_times_comm a b : alike (Bin Times a b) (Bin Times b a)
| alike_times_assoc a b c : alike (Bin Times (Bin Times a b) c) (Bin Times a (Bin Times b c))
| alike_minus a b : alike (Bin Minus a b) (Bin Plus a (Neg b))
| alike_neg_neg a : alike (Neg (Neg a)) a
| alike_neg_plus a b : alike (Neg (Bin Plus a b)) (Bin Plus (Neg a) (Neg b))
| alike_neg_int v : alike (Neg (Leaf (WInt v))) (Leaf (WInt (- v)))
| alike_ints v w : alike (Bin Plus (Leaf (WInt v)) (Leaf (WInt w))) (Leaf (WInt (v + w)))
| alike_together n m s : alike (Bin Plus (Leaf (WDice n s)) (Leaf (WDice m s))) (Leaf (WDice (n + m) s))
| alike_opposite n s : alike (Neg (Leaf (WDice n s))) (Bin Minus (Leaf (WDice n s)) (Leaf (WInt (Z.of_nat n * (s + 1))))).
(** The comparison that holds exactly when the given one does not *)
Definition opposites : list (string * string) := [("=", "<>"); ("<>", "="); ("<", ">="); (">=", "<"); (">", "<="); ("<=", ">")]%string.
