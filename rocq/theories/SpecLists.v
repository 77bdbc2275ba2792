(** What B, R, U and CHOICE commands do, in terms of the dice they take. *)
From Verif Require Import GoBase Dice Ast SpecSyntax SpecRoll.
Open Scope list_scope.
Open Scope Z_scope.

(** x op y as a boolean (see [compares] in SpecSyntax; compareb_spec proves that they agree) *)
Definition compareb (op : string) (x y : Z) : bool :=
  if String.eqb op "=" then x =? y
  else if String.eqb op "<>" then negb (x =? y)
  else if String.eqb op "<=" then x <=? y
  else if String.eqb op "<" then x <? y
  else if String.eqb op ">=" then y <=? x
  else y <? x.
(** How many of the values satisfy [v op target] *)
Definition matching (op : string) (target : Z) (vs : list Z) : Z :=
  Z.of_nat (length (filter (fun v => compareb op v target) vs)).

(** The rolls of a list, with their counts and sides computed: operands are evaluated roll by roll, the count first. *)
Inductive settle_rolls : list roll -> list die -> list (Z * Z) -> Prop :=
| settle_nil : settle_rolls [] [] []
| settle_cons n s rs d1 d2 d3 x y ps :
    operand_value n d1 x -> operand_value s d2 y -> settle_rolls rs d3 ps ->
    settle_rolls ((n, s) :: rs) (d1 ++ d2 ++ d3) ((x, y) :: ps).

(** [x]B[y]+... with the computed numbers *)
Definition roll_word (letter : string) (p : Z * Z) : string := (itoa (fst p) ++ letter ++ itoa (snd p))%string.
Definition rolls_words (letter : string) (ps : list (Z * Z)) : string := join "+" (map (roll_word letter) ps).

Definition values (ds : list die) : list Z := map die_value ds.
Definition values_word (ds : list die) : string := join "," (map itoa (values ds)).

(** Each roll (x, y) took its own group of dice. *)
Definition rolled_each (ps : list (Z * Z)) (groups : list (list die)) : Prop :=
  Forall2 (fun p g => rolled (fst p) (snd p) g) ps groups.

(** ** Re-rolls *)
(** Number of dice at or above the threshold *)
Definition at_least (t : Z) (ds : list die) : Z := Z.of_nat (length (filter (fun v => t <=? v) (values ds))).
(** [rerolls t n queue groups]: working off the queue of pending rolls, first in first out, at most n rolls, each roll
    with k > 0 values at or above t appends one roll of k dice with the same sides. *)
Inductive rerolls (t : Z) : nat -> list (Z * Z) -> list (list die) -> Prop :=
| rerolls_cap q : rerolls t 0 q []
| rerolls_done n : rerolls t n [] []
| rerolls_none n x y q g gs :
    rolled x y g -> at_least t g = 0 -> rerolls t n q gs -> rerolls t (S n) ((x, y) :: q) (g :: gs)
| rerolls_more n x y q g gs :
    rolled x y g -> at_least t g > 0 -> rerolls t n (q ++ [(at_least t g, y)]) gs -> rerolls t (S n) ((x, y) :: q) (g :: gs).

(** ** Exploding dice *)
(** A chain of at most n y-sided dice: all but the last at or above t; the last below it unless the chain has n dice. *)
Definition chain (t y : Z) (n : nat) (g : list die) : Prop :=
  Forall (fun d => die_sides d = y) g /\
  exists init last, g = init ++ [last] /\ Forall (fun d => die_value d >= t) init /\ (length g <= n)%nat /\
    (die_value last < t \/ length g = n).
(** x chains of y-sided dice for each roll (x, y) *)
Definition chains_each (t : Z) (n : nat) (ps : list (Z * Z)) (groups : list (list (list die))) : Prop :=
  Forall2 (fun p gs => 1 <= fst p <= max_alloc_16 /\ 1 <= snd p /\ Z.of_nat (length gs) = fst p /\
                       Forall (chain t (snd p) n) gs) ps groups.

(** The cap on re-rolls *)
Definition cap : nat := Z.to_nat 10000.

(** ** Sums *)
Definition total_of (ds : list die) : Z := fold_right Z.add 0 (values ds).
(** as Go computes it: modulo 2^64 *)
Definition group_sum (g : list die) : Z := wrap64 (total_of g).
Definition is_max (m : Z) (l : list Z) : Prop := In m l /\ forall x, In x l -> x <= m.

Definition group_word (g : list die) : string :=
  (itoa (group_sum g) ++ if (1 <? Z.of_nat (length g))%Z then "[" ++ values_word g ++ "]" else "")%string.
Definition modifier_word (m : Z) : string :=
  if m =? 0 then "" else if 0 <? m then ("+" ++ itoa m)%string else itoa m.
(** the bonus as printed in the command; -m is |m| except for -2^63 *)
Definition bonus_word (m : Z) : string :=
  if m =? 0 then "" else if 0 <? m then ("+" ++ itoa m)%string else ("-" ++ itoa (wrap64 (- m)))%string.

(** The value of a bonus: no bonus is 0 *)
Definition bonus_value (b : option (bool * iexpr)) (m : Z) : Prop :=
  match b with
  | None => m = 0
  | Some (true, e) => has_value e m
  | Some (false, e) => exists v, has_value e v /\ m = wrap64 (- v)
  end.
(** The value of a threshold, if any *)
Definition threshold_value (th : option iexpr) (t : option Z) : Prop :=
  match th, t with
  | None, None => True
  | Some e, Some v => has_value e v
  | _, _ => False
  end.
Definition threshold_word (t : option Z) : string :=
  match t with None => ""%string | Some v => ("[" ++ itoa v ++ "]")%string end.

(** The hints of the documentation *)
Definition hint_r : string := "2R6>=5 あるいは 2R6[5] のように振り足し目標値を指定してください".
Definition hint_u : string := "2U6[5] のように振り足し目標値を指定してください".
Definition hint_small : string := "振り足し目標値として2以上の整数を指定してください".
(** What is shown for a missing threshold or one below 2; none if the threshold is fine. *)
Definition hint (missing : string) (t : option Z) : option string :=
  match t with
  | None => Some missing
  | Some v => if v <? 2 then Some hint_small else None
  end.

(** The third part of a U expression: the largest group sum and the total, both plus the bonus, in 64-bit arithmetic *)
Definition max_and_total (groups : list (list die)) (m : Z) (s : string) : Prop :=
  exists mx, is_max mx (map group_sum groups) /\
    s = (itoa (wrap64 (mx + m)) ++ "/" ++ itoa (wrap64 (total_of (concat groups) + m)) ++ " (最大/合計)")%string.
