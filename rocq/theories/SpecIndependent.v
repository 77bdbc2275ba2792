(** Specification for C93: successive commands are independent. *)
From Verif Require Import GoBase Dice Ast BCDice Prop_exec SpecSyntax SpecArith SpecRoll SpecFair SpecOdds SpecTyped.
Open Scope list_scope.
Open Scope Z_scope.

(** [fixed_dice c sides]: whatever the dice show, c succeeds and asks for dice of these numbers of sides, in this order. *)
Inductive fixed_dice : command -> list Z -> Prop :=
| fixed_calculation e v : has_value e v -> fixed_dice (Calculation e) []
| fixed_sum e : rollable e -> size e < 2 ^ 52 -> ~ In None (outcomes e) -> fixed_dice (DExpr (written e)) (asked e)
| fixed_comparison e op t w : rollable e -> size e < 2 ^ 52 -> ~ In None (outcomes e) -> comparable (written e) -> is_compare_op op -> iok t -> has_value t w ->
    fixed_dice (DComp (written e) op t) (asked e)
| fixed_list p ps : Forall b_rollable (p :: ps) -> fixed_dice (BList (b_roll p) (map b_roll ps)) (b_sides (p :: ps))
| fixed_successes p ps op t w : Forall b_rollable (p :: ps) -> is_compare_op op -> has_value t w ->
    fixed_dice (BComp (b_roll p) (map b_roll ps) op t) (b_sides (p :: ps))
| fixed_choice items : items <> [] -> Z.of_nat (length items) <= max_int -> fixed_dice (Choose items) [Z.of_nat (length items)].

(** An input with something that may or may not come of it: the total is 7, the second die shows a 3, the comparison fails... *)
Record attempt := Attempt { a_input : string; a_command : command; a_secret : bool; a_sides : list Z; a_event : result -> bool }.
Definition attempt_ok (a : attempt) : Prop := moderate (a_input a) /\ typed (a_input a) (a_command a) (a_secret a) /\ fixed_dice (a_command a) (a_sides a).
(** It happened *)
Definition happened (event : result -> bool) (o : outcome result) : bool := match o with Ok r => event r | _ => false end.
(** All of them happened, each in its turn *)
Fixpoint all_happened (events : list (result -> bool)) (os : list (outcome result)) : bool :=
  match events, os with
  | [], [] => true
  | event :: events', o :: os' => happened event o && all_happened events' os'
  | _, _ => false
  end.
