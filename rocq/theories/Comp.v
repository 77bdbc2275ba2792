(** Evaluator computations.

    The Go evaluator (pkg/core/evaluator/evaluator.go:25-43) interacts with the outside in exactly
    two ways: it asks the dice roller for dice and records them in its environment
    ([Evaluator.RollDice], evaluator.go:93-102), and the command package reads the recorded dice
    ([Evaluator.RolledDice], evaluator.go:46-48).  A computation is therefore modelled as a tree
    whose inner nodes are these two requests; [run] interprets it against a feeder and an
    environment. *)
From Verif Require Export Dice.
Open Scope list_scope.
Open Scope Z_scope.

Inductive comp (A : Type) : Type :=
| CRet (a : A)
| CErr (msg : string)                                  (* return an error *)
| CPanic (msg : string)                                (* panic *)
| CRoll (num sides : Z) (k : list die -> comp A)       (* e.RollDice(num, sides); an error is returned at once *)
| CLog (k : list die -> comp A).                       (* e.RolledDice() *)
Arguments CRet {A} a.
Arguments CErr {A} msg.
Arguments CPanic {A} msg.
Arguments CRoll {A} num sides k.
Arguments CLog {A} k.

(** Go statement sequencing with the idiom [if err != nil { return err }]. *)
Fixpoint cbind {A B} (m : comp A) (f : A -> comp B) : comp B :=
  match m with
  | CRet a => f a
  | CErr e => CErr e
  | CPanic p => CPanic p
  | CRoll n s k => CRoll n s (fun ds => cbind (k ds) f)
  | CLog k => CLog (fun ds => cbind (k ds) f)
  end.

Declare Scope comp_scope.
Delimit Scope comp_scope with comp.
Notation "x <- m ;; f" := (cbind m (fun x => f))
  (at level 61, m at next level, right associativity) : comp_scope.
Notation "' p <- m ;; f" := (cbind m (fun p => f))
  (at level 61, p pattern, m at next level, right associativity) : comp_scope.
Open Scope comp_scope.

(** A pure function returning a value, an error or panicking. *)
Definition clift {A} (o : outcome A) : comp A :=
  match o with Ok a => CRet a | Err e => CErr e | Panic p => CPanic p end.

(** Use an error as a value: the Go caller inspects [err] instead of returning it.
    (A failing [RollDice] inside [m] is not caught by the model; the only user,
    reroll_threshold.go, applies it to computations that roll no dice, see there.) *)
Fixpoint ctry {A} (m : comp A) : comp (A + string) :=
  match m with
  | CRet a => CRet (inl a)
  | CErr e => CRet (inr e)
  | CPanic p => CPanic p
  | CRoll n s k => CRoll n s (fun ds => ctry (k ds))
  | CLog k => CLog (fun ds => ctry (k ds))
  end.

(** pkg/core/evaluator/environment.go:8-10 together with the feeder of the dice roller. *)
Record estate := EState { es_feeder : feeder; es_log : list die }.

(** evaluator.go:93-102 [RollDice] (environment.go:34-38 appends die by die) and evaluator.go:46-48 *)
Fixpoint run {A} (c : comp A) (s : estate) : outcome A * estate :=
  match c with
  | CRet a => (Ok a, s)
  | CErr e => (Err e, s)
  | CPanic p => (Panic p, s)
  | CRoll num sides k =>
      match roll_dice num sides (es_feeder s) with
      | (Ok ds, f') => run (k ds) (EState f' (es_log s ++ ds))
      | (Err e, f') => (Err e, EState f' (es_log s))
      | (Panic p, f') => (Panic p, EState f' (es_log s))
      end
  | CLog k => run (k (es_log s)) s
  end.
