(** Specification for C82: when re-rolls and exploding dice come to an end. *)
From Verif Require Import GoBase Dice SpecSyntax SpecRoll SpecLists.
Open Scope list_scope.
Open Scope Z_scope.

(** the number of dice below t *)
Definition misses (t : Z) (ds : list die) : nat := length (filter (fun v => v <? t) (values ds)).
(** [until_miss t n ds]: the last die of ds is below t, and it is the n-th that is *)
Definition until_miss (t : Z) (n : nat) (ds : list die) : Prop :=
  exists init last, ds = init ++ [last] /\ die_value last < t /\ (misses t init + 1 = n)%nat.

(** A list of rolls n1Rs+n2Rs+... (or U) with written numbers, of n dice with s sides in all.  (The limit is that of memory
    allocation.) *)
Definition dice_of (s : Z) (n : nat) : roll := (Leaf (RInt (Z.of_nat n)), Leaf (RInt s)).
Definition begins (s : Z) (n : nat) (r : roll) (rs : list roll) : Prop :=
  exists n1 ns, r = dice_of s n1 /\ rs = map (dice_of s) ns /\ (n1 + list_sum ns = n)%nat /\
    Forall (fun n => 1 <= Z.of_nat n <= max_alloc_16) (n1 :: ns).
(** The commands that go on as long as dice reach the threshold t, which begin with n dice of s sides: R and U rolls.  The
    threshold of an R comparison is its target if none is given. *)
Inductive repeating (s t : Z) (n : nat) : command -> Prop :=
| rep_r r rs th : begins s n r rs -> has_value th t -> repeating s t n (RList r rs (Some th))
| rep_r_given r rs th op e w : begins s n r rs -> has_value th t -> is_compare_op op -> has_value e w ->
    repeating s t n (RComp r rs (Some th) op e)
| rep_r_target r rs op e : begins s n r rs -> is_compare_op op -> has_value e t -> repeating s t n (RComp r rs None op e)
| rep_u r rs th b m : begins s n r rs -> has_value th t -> bonus_ok b -> bonus_value b m ->
    repeating s t n (UExpr r rs (Some th) b)
| rep_u_comp r rs th b m op e w : begins s n r rs -> has_value th t -> bonus_ok b -> bonus_value b m ->
    is_compare_op op -> has_value e w -> repeating s t n (UComp r rs (Some th) b op e).
