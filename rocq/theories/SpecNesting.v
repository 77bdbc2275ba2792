(** Specification for C81: how deeply the brackets of a text are nested. *)
From Coq Require Import String Ascii Arith.

(** the greatest number of brackets open at once in [s] when [d] are open before it: "(" and "[" open one, ")" and "]"
    close one (if any is open) *)
Fixpoint nesting_from (d : nat) (s : string) : nat :=
  match s with
  | EmptyString => d
  | String "(" s' | String "[" s' => nesting_from (S d) s'
  | String ")" s' | String "]" s' => Nat.max d (nesting_from (Nat.pred d) s')
  | String _ s' => nesting_from d s'
  end.
Definition nesting (s : string) : nat := nesting_from 0 s.
Example nesting_examples : nesting "2D6+1" = 0 /\ nesting "(1+2)*(3)" = 1 /\ nesting "((1))+[1...(2)]D6" = 2 /\ nesting ")))((" = 2.
Proof. repeat split. Qed.
