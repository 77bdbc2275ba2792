(** What calculations mean: ordinary integer arithmetic, independent of the evaluator. *)
From Coq Require Import Reals.
From Flocq Require Import Core.
From Verif Require Import GoBase Ast SpecSyntax.
Open Scope Z_scope.

(** The exact quotient, a real number. *)
Definition quotient (l r : Z) : R := (IZR l / IZR r)%R.

(** Rounding half away from zero: x >= 0 goes to floor (x + 1/2), negative numbers symmetrically. *)
Definition half_away (x : R) : Z :=
  if Rlt_dec x 0 then - Zfloor (- x + / 2) else Zfloor (x + / 2).

(** The three divisions: towards zero, half away from zero, upwards. *)
Definition divided (m : rounding) (l r : Z) : Z :=
  match m with
  | RoundDown => Ztrunc (quotient l r)
  | RoundHalf => half_away (quotient l r)
  | RoundUp => Zceil (quotient l r)
  end.

(** The mathematical result of an operator; none for a division by zero. *)
Definition math_op (op : arith) (x y : Z) : option Z :=
  match op with
  | Plus => Some (x + y)
  | Minus => Some (x - y)
  | Times => Some (x * y)
  | Over m => if y =? 0 then None else Some (divided m x y)
  end.

(** The mathematical value of an expression, if no divisor is zero. *)
Fixpoint math_value (e : iexpr) : option Z :=
  match e with
  | Leaf v => Some v
  | Neg e => match math_value e with Some x => Some (- x) | None => None end
  | Bin op a b => match math_value a, math_value b with Some x, Some y => math_op op x y | _, _ => None end
  end.

(** Every mathematical intermediate value is an int64, and the dividends of the rounding divisions are
    small enough for float64: below 2^53 for /U, below 2^52 for /R. *)
Definition value_in (P : Z -> Prop) (e : iexpr) : Prop :=
  match math_value e with Some v => P v | None => True end.
Definition dividend_ok (op : arith) (x : Z) : Prop :=
  match op with
  | Over RoundHalf => Z.abs x < 2 ^ 52
  | Over RoundUp => Z.abs x < 2 ^ 53
  | _ => True
  end.
Fixpoint ordinary (e : iexpr) : Prop :=
  value_in in_int64 e /\
  match e with
  | Leaf _ => True
  | Neg e => ordinary e
  | Bin op a b => ordinary a /\ ordinary b /\ value_in (dividend_ok op) a
  end.

(** Ring expressions: no division; their value. *)
Fixpoint no_division (e : iexpr) : Prop :=
  match e with
  | Leaf _ => True
  | Neg e => no_division e
  | Bin (Over _) _ _ => False
  | Bin _ a b => no_division a /\ no_division b
  end.

(** ** The value for every expression, also where numbers are too large to be exact *)
(** The float64 nearest to a real number, ties to even (IEEE 754 binary64; no overflow occurs here) *)
Definition nearest64 (x : R) : R := round radix2 (FLT_exp (-1074) 53) ZnearestE x.
(** The quotient as float64 computes it *)
Definition float_quotient64 (l r : Z) : R := nearest64 (nearest64 (IZR l) / nearest64 (IZR r)).
(** Conversion to int: numbers outside int64 become the smallest int (amd64) *)
Definition to_int64 (z : Z) : Z := if (min_int <=? z) && (z <=? max_int) then z else min_int.
Definition divided64 (m : rounding) (l r : Z) : Z :=
  match m with
  | RoundDown => wrap64 (Ztrunc (quotient l r))
  | RoundHalf => to_int64 (half_away (float_quotient64 l r))
  | RoundUp => to_int64 (Zceil (float_quotient64 l r))
  end.
(** [calculates e v]: the value of e in 64-bit arithmetic *)
Inductive calculates : iexpr -> Z -> Prop :=
| calc_number v : calculates (Leaf v) v
| calc_neg e x : calculates e x -> calculates (Neg e) (wrap64 (- x))
| calc_plus a b x y : calculates a x -> calculates b y -> calculates (Bin Plus a b) (wrap64 (x + y))
| calc_minus a b x y : calculates a x -> calculates b y -> calculates (Bin Minus a b) (wrap64 (x - y))
| calc_times a b x y : calculates a x -> calculates b y -> calculates (Bin Times a b) (wrap64 (x * y))
| calc_over m a b x y : calculates a x -> calculates b y -> y <> 0 -> calculates (Bin (Over m) a b) (divided64 m x y).
