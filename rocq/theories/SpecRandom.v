(** Vocabulary about sources of random numbers. *)
From Verif Require Import GoBase SpecFair.
Open Scope list_scope.
Open Scope Z_scope.

(** A source keeps Int63's contract: every number is in [0, 2^63). *)
Definition int63_contract {S} (int63 : S -> Z * S) : Prop := forall s, 0 <= fst (int63 s) < 2 ^ 63.
(** The source that gives the numbers of a list, one after the other, and then 0 (numbers that are not in [0, 2^63) are reduced) *)
Definition listed (xs : list Z) : Z * list Z := match xs with [] => (0, []) | x :: xs' => (x mod 2 ^ 63, xs') end.
(** How many of the [2^63] numbers lead to each of the results 0, ..., n-1 at once *)
Definition share (n : Z) : Z := if n <=? 2 ^ 31 - 1 then 2 ^ 32 * (2 ^ 31 / n) else 2 ^ 63 / n.

(** The published definition of MT19937-64 (Nishimura 2000) as one sequence of words: 312 words from the seed, then the recurrence.  [high x] are the 33 upper bits,
    [low x] the 31 lower bits of a 64-bit word. *)
Definition high (x : Z) : Z := x - x mod 2 ^ 31.
Definition low (x : Z) : Z := x mod 2 ^ 31.
Definition times_a (y : Z) : Z := Z.lxor (y / 2) (if Z.odd y then 13043109905998158313 else 0).
Definition mt_sequence (seed : Z) (w : nat -> Z) : Prop :=
  w 0%nat = seed mod 2 ^ 64 /\
  (forall i, (0 < i < 312)%nat -> w i = (6364136223846793005 * Z.lxor (w (i - 1)%nat) (w (i - 1)%nat / 2 ^ 62) + Z.of_nat i) mod 2 ^ 64) /\
  (forall k, w (k + 312)%nat = Z.lxor (w (k + 156)%nat) (times_a (high (w k) + low (w (k + 1)%nat)))).
(** The output transformation *)
Definition tempered (x : Z) : Z :=
  let x := Z.lxor x (Z.land (x / 2 ^ 29) 6148914691236517205) in
  let x := Z.lxor x (Z.land (x * 2 ^ 17 mod 2 ^ 64) 8202884508482404352) in
  let x := Z.lxor x (Z.land (x * 2 ^ 37 mod 2 ^ 64) 18444473444759240704) in
  Z.lxor x (x / 2 ^ 43).
