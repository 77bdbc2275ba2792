(** Specifications about dice, feeders and the roller.  Only the data types and the feeder's [Next] of the model are used. *)
From Verif Require Import Dice.
Open Scope list_scope.
Open Scope Z_scope.

(** [supplies f sides ds f']: successive calls of the feeder's Next(sides) on [f] return exactly the dice [ds], in this
    order, and leave the feeder in state [f']. *)
Inductive supplies (sides : Z) : feeder -> list die -> feeder -> Prop :=
| supplies_nil f : supplies sides f [] f
| supplies_cons f d f1 ds f2 :
    feeder_next f sides = (Ok d, f1) -> supplies sides f1 ds f2 -> supplies sides f (d :: ds) f2.

(** [draws f ds f']: the dice [ds] were taken from [f], one after the other, each by one call of Next with some number of
    sides, leaving [f']. *)
Inductive draws : feeder -> list die -> feeder -> Prop :=
| draws_nil f : draws f [] f
| draws_cons f sides d f1 ds f2 :
    feeder_next f sides = (Ok d, f1) -> draws f1 ds f2 -> draws f (d :: ds) f2.

(** A die as a real die can show it *)
Definition legal (d : die) : Prop := 1 <= die_value d <= die_sides d.

(** The contract of math/rand's Intn on every call: for a positive int [n] the result is in [0,n).  (The model's oracle is
    defined on all of Z; Go calls it with an int only, for which [Z.min n max_int] is [n].) *)
Definition intn_contract (intn : nat -> Z -> Z) : Prop :=
  forall k n, 1 <= n -> 0 <= intn k n < Z.min n max_int.

(** ** An abstract first-in-first-out queue: everything ever put in since the last reset, and how many were taken. *)
Record fifo := Fifo { put : list die; taken : nat }.

Inductive qop :=
| QPush (d : die) | QAppend (ds : list die) | QSet (ds : list die) | QClear
| QNext (sides : Z) | QDice | QRemaining | QIsEmpty.
(** What the caller sees *)
Inductive qout := OutNone | OutDie (d : die) | OutError | OutDice (ds : list die) | OutInt (n : Z) | OutBool (b : bool).

Definition fifo_step (s : fifo) (o : qop) : fifo * qout :=
  match o with
  | QPush d => (Fifo (put s ++ [d]) (taken s), OutNone)
  | QAppend ds => (Fifo (put s ++ ds) (taken s), OutNone)
  | QSet ds => (Fifo ds 0, OutNone)
  | QClear => (Fifo [] 0, OutNone)
  | QNext _ =>
      match nth_error (put s) (taken s) with
      | Some d => (Fifo (put s) (S (taken s)), OutDie d)
      | None => (s, OutError)
      end
  | QDice => (s, OutDice (skipn (taken s) (put s)))
  | QRemaining => (s, OutInt (Z.of_nat (length (put s)) - Z.of_nat (taken s)))
  | QIsEmpty => (s, OutBool (Nat.eqb (length (put s)) (taken s)))
  end.

(** The outputs of a sequence of operations *)
Fixpoint outputs {S} (step : S -> qop -> S * qout) (s : S) (ops : list qop) : list qout :=
  match ops with
  | [] => []
  | o :: ops' => let '(s', out) := step s o in out :: outputs step s' ops'
  end.

(** The same interface on the modelled queue *)
Definition queue_step (q : list die) (o : qop) : list die * qout :=
  match o with
  | QPush d => (queue_push q d, OutNone)
  | QAppend ds => (queue_append q ds, OutNone)
  | QSet ds => (queue_set q ds, OutNone)
  | QClear => (queue_clear q, OutNone)
  | QNext sides =>
      match feeder_next (FQueue q) sides with
      | (Ok d, FQueue q') => (q', OutDie d)
      | (_, FQueue q') => (q', OutError)
      | _ => (q, OutError)
      end
  | QDice => (q, OutDice (queue_dice q))
  | QRemaining => (q, OutInt (queue_remaining q))
  | QIsEmpty => (q, OutBool (queue_is_empty q))
  end.

(** ** The ways RollDice can fail on a queue of dice: the message and what is left in the queue *)
Definition roll_call (num sides : Z) : string := ("RollDice(num: " ++ itoa num ++ ", sides: " ++ itoa sides ++ ")")%string.
Inductive roll_fails (num sides : Z) (q : list die) : string -> list die -> Prop :=
| few_sides : sides < 1 -> roll_fails num sides q (roll_call num sides ++ ": ダイスの面数が少なすぎます")%string q
| few_dice : 1 <= sides -> num < 1 -> roll_fails num sides q (roll_call num sides ++ ": 振るダイス数が少なすぎます")%string q
| wrong_die good d left : 1 <= sides -> Z.of_nat (length good) < num -> q = good ++ d :: left ->
    Forall (fun d => die_sides d = sides) good -> die_sides d <> sides ->
    roll_fails num sides q (roll_call num sides ++ " -> " ++ itoa (die_value d) ++ "/" ++ itoa (die_sides d) ++ ": ダイスの面数が指定と一致しません")%string left
| queue_short : 1 <= sides -> Z.of_nat (length q) < num -> Forall (fun d => die_sides d = sides) q ->
    roll_fails num sides q "取り出せるダイスがありません" [].
