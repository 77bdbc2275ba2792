(** Specification for C85: the odds of any additive roll with written numbers. *)
From Coq Require Import QArith.
From Verif Require Import GoBase Dice Ast SpecSyntax SpecArith SpecRoll SpecFair.
Open Scope list_scope.
Open Scope Z_scope.

(** Arithmetic over written numbers and rolls nDs with written n and s, such as 2D6+1D10*2-3 *)
Inductive wleaf := WInt (v : Z) | WDice (n : nat) (s : Z).
Definition wexpr := ae wleaf.
Definition written : wexpr -> dexpr :=
  ae_map (fun l => match l with WInt v => DInt v | WDice n s => DDice (Leaf (RInt (Z.of_nat n))) (Leaf (RInt s)) end).
(** at least one die with at least one side; not more dice than fit into memory; the sum of the dice is an int *)
Definition rollable : wexpr -> Prop := all_leaves (fun l =>
  match l with
  | WInt v => in_int64 v
  | WDice n s => (1 <= n)%nat /\ Z.of_nat n <= max_alloc_16 /\ 1 <= s /\ Z.of_nat n * s <= max_int
  end).

(** The sides of its dice, from left to right *)
Fixpoint asked (e : wexpr) : list Z :=
  match e with
  | Leaf (WInt _) => []
  | Leaf (WDice n s) => repeat s n
  | Neg e => asked e
  | Bin _ a b => asked a ++ asked b
  end.
(** All the ways to answer a list of questions, each for a number below one of the given numbers: a fair source gives each of these lists
    equally often. *)
Fixpoint all_lists (sides : list Z) : list (list Z) :=
  match sides with
  | [] => [[]]
  | s :: l => flat_map (fun a => map (cons a) (all_lists l)) (below s)
  end.

(** Combinations of two lists: every element of the first with every element of the second *)
Definition combine_all {A B C} (f : A -> B -> C) (l1 : list A) (l2 : list B) : list C := flat_map (fun x => map (f x) l2) l1.
(** The sums of n dice with the faces 1, ..., s, one for each way they can fall *)
Fixpoint sums (n : nat) (s : Z) : list Z :=
  match n with
  | O => [0]
  | S n' => combine_all (fun a t => (a + 1) + t) (below s) (sums n' s)
  end.
(** The calculations an additive roll can become, one for each way the dice can fall *)
Fixpoint instances (e : wexpr) : list iexpr :=
  match e with
  | Leaf (WInt v) => [Leaf v]
  | Leaf (WDice n s) => map Leaf (sums n s)
  | Neg e => map Neg (instances e)
  | Bin op a b => combine_all (Bin op) (instances a) (instances b)
  end.
(** Its totals, one for each way the dice can fall, in ordinary arithmetic; None for a division by zero *)
Fixpoint outcomes (e : wexpr) : list (option Z) :=
  match e with
  | Leaf (WInt v) => [Some v]
  | Leaf (WDice n s) => map Some (sums n s)
  | Neg e => map (option_map Z.opp) (outcomes e)
  | Bin op a b => combine_all (fun x y => match x, y with Some x, Some y => math_op op x y | _, _ => None end) (outcomes a) (outcomes b)
  end.
(** A bound for all numbers that occur in the computation.  Up to 2^52 the arithmetic of the program is the ordinary one. *)
Fixpoint size (e : wexpr) : Z :=
  match e with
  | Leaf (WInt v) => Z.max 1 (Z.abs v)
  | Leaf (WDice n s) => Z.of_nat n * s
  | Neg e => size e
  | Bin Times a b => size a * size b
  | Bin _ a b => size a + size b
  end.

(** No division *)
Fixpoint undivided (e : wexpr) : Prop :=
  match e with
  | Leaf _ => True
  | Neg e => undivided e
  | Bin (Over _) _ _ => False
  | Bin _ a b => undivided a /\ undivided b
  end.
(** The average: (s+1)/2 for each die *)
Fixpoint average (e : wexpr) : Q :=
  match e with
  | Leaf (WInt v) => inject_Z v
  | Leaf (WDice n s) => inject_Z (Z.of_nat n) * (inject_Z s + 1) / 2
  | Neg e => - average e
  | Bin Plus a b => average a + average b
  | Bin Minus a b => average a - average b
  | Bin Times a b => average a * average b
  | Bin (Over _) _ _ => 0      (* not used *)
  end.

(** ** Basic rolls n1Bs1+n2Bs2+... with written numbers *)
Definition b_roll (p : nat * Z) : roll := (Leaf (RInt (Z.of_nat (fst p))), Leaf (RInt (snd p))).
Definition b_sides (ps : list (nat * Z)) : list Z := flat_map (fun p => repeat (snd p) (fst p)) ps.
Definition b_rollable (p : nat * Z) : Prop := (1 <= fst p)%nat /\ Z.of_nat (fst p) <= max_alloc_16 /\ 1 <= snd p <= max_int.
(** How many of the faces 1, ..., s of a die hold *)
Definition good_faces (holds : Z -> bool) (s : Z) : nat := count (fun a => holds (a + 1)) (below s).
(** In how many ways exactly k of the dice can show a face that holds *)
Fixpoint success_ways (holds : Z -> bool) (sides : list Z) (k : nat) : nat :=
  match sides with
  | [] => match k with O => 1 | S _ => 0 end
  | s :: l =>
      match k with O => 0 | S k' => good_faces holds s * success_ways holds l k' end +
      (Z.to_nat s - good_faces holds s) * success_ways holds l k
  end.
