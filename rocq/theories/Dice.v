(** pkg/core/dice, pkg/core/dice/feeder, pkg/core/dice/roller *)
From Verif Require Export GoBase.
Open Scope list_scope.
Open Scope Z_scope.

(** pkg/core/dice/die.go:12-17 [Die] *)
Record die := Die { die_value : Z; die_sides : Z }.

(** pkg/core/dice/die.go:31-39 [FormatDice], 44-52 [FormatDiceWithoutSpaces] *)
Definition die_text (d : die) : string :=
  (itoa (die_value d) ++ "/" ++ itoa (die_sides d))%string.
Definition format_dice (ds : list die) : string := join ", " (map die_text ds).
Definition format_dice_without_spaces (ds : list die) : string := join "," (map die_text ds).

(** pkg/core/dice/die.go:25-27 [Die.SExp] *)
Definition die_sexp (d : die) : string :=
  ("(Die " ++ itoa (die_value d) ++ " " ++ itoa (die_sides d) ++ ")")%string.

(** ** Die feeders

    pkg/core/dice/feeder/feeder.go:15-23: the interface has two
    implementations.  [Queue] (queue.go:9-11) holds the list of dice still to be
    served.  [MT19937] (mt19937.go:12-15) draws from a [*rand.Rand].  The generator is
    modelled by an oracle: [intn k n] is what the [k]-th call of
    [rng.Intn], made with argument [n], returns; the record keeps the number of calls
    made so far. *)
Inductive feeder :=
| FQueue (q : list die)
| FRandom (intn : nat -> Z -> Z) (calls : nat).

(** feeder/queue.go:33-35, mt19937.go:39-41 [CanSpecifyDie] *)
Definition can_specify_die (f : feeder) : bool :=
  match f with FQueue _ => true | FRandom _ _ => false end.

(** feeder/queue.go:47-57 [Queue.Next]; mt19937.go:51-57 [MT19937.Next]
    ([rand.Intn] panics for a bound <= 0). *)
Definition feeder_next (f : feeder) (sides : Z) : outcome die * feeder :=
  match f with
  | FQueue [] => (Err "取り出せるダイスがありません", f)
  | FQueue (d :: q) => (Ok d, FQueue q)
  | FRandom intn k =>
      if sides <=? 0 then (Panic "invalid argument to Intn", f)
      else (Ok (Die (wrap64 (1 + intn k sides)) sides), FRandom intn (S k))
  end.

(** ** The queue operations, feeder/queue.go.  A mutating method returns the new queue. *)
(** queue.go:60-62 *)
Definition queue_push (q : list die) (d : die) : list die := q ++ [d].
(** queue.go:65-69: the loop of pushes *)
Definition queue_append (q : list die) (ds : list die) : list die := fold_left queue_push ds q.
(** queue.go:19-24 *)
Definition new_queue (ds : list die) : list die := queue_append [] ds.
(** queue.go:72-74 *)
Definition queue_clear (q : list die) : list die := [].
(** queue.go:77-80: make + copy *)
Definition queue_set (q : list die) (ds : list die) : list die := ds.
(** queue.go:38-43 *)
Definition queue_dice (q : list die) : list die := q.
(** queue.go:83-85 *)
Definition queue_remaining (q : list die) : Z := Z.of_nat (length q).
(** queue.go:88-90 *)
Definition queue_is_empty (q : list die) : bool := queue_remaining q =? 0.

(** ** The roller *)

(** Largest capacity for which [make([]T, 0, n)] with 16-byte elements does not panic
    ("makeslice: cap out of range") on linux/amd64: [n*16 > 1<<48] panics.  An allocation
    below this limit is assumed to succeed (physical memory is not modelled). *)
Definition max_alloc_16 : Z := 17592186044416.

(** pkg/core/dice/roller/roller.go:57-74: the loop of [RollDice], [n] iterations left. *)
Fixpoint roll_loop (n : nat) (num sides : Z) (acc : list die) (f : feeder)
  : outcome (list die) * feeder :=
  match n with
  | O => (Ok acc, f)
  | S n' =>
      match feeder_next f sides with
      | (Ok d, f') =>
          if die_sides d =? sides then roll_loop n' num sides (acc ++ [d]) f'
          else (Err ("RollDice(num: " ++ itoa num ++ ", sides: " ++ itoa sides ++ ") -> "
                     ++ itoa (die_value d) ++ "/" ++ itoa (die_sides d)
                     ++ ": ダイスの面数が指定と一致しません")%string, f')
      | (Err e, f') => (Err e, f')
      | (Panic p, f') => (Panic p, f')
      end
  end.

(** pkg/core/dice/roller/roller.go:37-77 [DiceRoller.RollDice] *)
Definition roll_dice (num sides : Z) (f : feeder) : outcome (list die) * feeder :=
  if sides <? 1 then
    (Err ("RollDice(num: " ++ itoa num ++ ", sides: " ++ itoa sides
          ++ "): ダイスの面数が少なすぎます")%string, f)
  else if num <? 1 then
    (Err ("RollDice(num: " ++ itoa num ++ ", sides: " ++ itoa sides
          ++ "): 振るダイス数が少なすぎます")%string, f)
  else if max_alloc_16 <? num then
    (Panic "makeslice: cap out of range", f)
  else roll_loop (Z.to_nat num) num sides [] f.
