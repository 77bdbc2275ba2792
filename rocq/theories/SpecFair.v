(** Counting the answers of a fair source of random numbers. *)
From Verif Require Import GoBase.
Open Scope list_scope.
Open Scope Z_scope.

(** The numbers 0, ..., s-1, and all the ways to answer n questions for a number below s: a fair source gives each of these s^n lists of answers
    equally often. *)
Definition below (s : Z) : list Z := map Z.of_nat (seq 0 (Z.to_nat s)).
Fixpoint all_answers (n : nat) (s : Z) : list (list Z) :=
  match n with
  | O => [[]]
  | S n' => flat_map (fun a => map (cons a) (all_answers n' s)) (below s)
  end.
Definition count {A} (p : A -> bool) (l : list A) : nat := length (filter p l).
(** In how many ways n dice with the faces 1, ..., s can show the sum v *)
Fixpoint ways (n : nat) (s v : Z) : nat :=
  match n with
  | O => if v =? 0 then 1%nat else 0%nat
  | S n' => list_sum (map (fun a => ways n' s (v - (a + 1))) (below s))
  end.
(** Binomial coefficients *)
Fixpoint binomial (n k : nat) : nat :=
  match k, n with
  | O, _ => 1%nat
  | S _, O => 0%nat
  | S k', S n' => (binomial n' k' + binomial n' k)%nat
  end.
(** A source of random numbers that gives the answers rs (and then 0) *)
Definition source (rs : list Z) : nat -> Z -> Z := fun i _ => nth i rs 0.
