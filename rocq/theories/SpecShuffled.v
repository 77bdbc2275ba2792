(** Specification for C94: the order in which the dice of a roll fall. *)
From Coq Require Import Permutation.
From Verif Require Import GoBase Dice Ast SpecSyntax SpecArith SpecRoll SpecFair SpecOdds.
Open Scope list_scope.
Open Scope Z_scope.

(** [same_sums e rs rs']: in rs and in rs' the dice of each single roll nDs of e have the same sum *)
Inductive same_sums : wexpr -> list Z -> list Z -> Prop :=
| sums_number v : same_sums (Leaf (WInt v)) [] []
| sums_dice n s rs rs' : length rs = n -> length rs' = n -> fold_right Z.add 0 rs = fold_right Z.add 0 rs' -> same_sums (Leaf (WDice n s)) rs rs'
| sums_neg e rs rs' : same_sums e rs rs' -> same_sums (Neg e) rs rs'
| sums_bin op a b r1 r2 r1' r2' : same_sums a r1 r1' -> same_sums b r2 r2' -> same_sums (Bin op a b) (r1 ++ r2) (r1' ++ r2').
(** [shuffled e rs rs']: the dice of each single roll nDs of e fall in another order *)
Inductive shuffled : wexpr -> list Z -> list Z -> Prop :=
| shuffled_number v : shuffled (Leaf (WInt v)) [] []
| shuffled_dice n s rs rs' : length rs = n -> Permutation rs rs' -> shuffled (Leaf (WDice n s)) rs rs'
| shuffled_neg e rs rs' : shuffled e rs rs' -> shuffled (Neg e) rs rs'
| shuffled_bin op a b r1 r2 r1' r2' : shuffled a r1 r1' -> shuffled b r2 r2' -> shuffled (Bin op a b) (r1 ++ r2) (r1' ++ r2').
