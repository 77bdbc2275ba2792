(** Vocabulary for statements about executed commands. *)
From Verif Require Import Dice Ast Command.
Open Scope list_scope.
Open Scope Z_scope.

Definition is_calc (n : node) : Prop := exists e, n = NCommand CCalc e.

(** The hints shown instead of rolling when an R or U command has no usable re-roll threshold *)
Definition hint_r : string := "2R6>=5 あるいは 2R6[5] のように振り足し目標値を指定してください".
Definition hint_u : string := "2U6[5] のように振り足し目標値を指定してください".
Definition hint_low : string := "振り足し目標値として2以上の整数を指定してください".
Definition is_hint (msg : string) : Prop := msg = hint_r \/ msg = hint_u \/ msg = hint_low.
(** The result consists of the echoed command and a hint, nothing else. *)
Definition hint_result (r : result) : Prop :=
  exists s msg, r_parts r = [s; msg] /\ is_hint msg /\ r_success r = Unspecified.
(** Commands that can end with a hint *)
Definition is_reroll_command (n : node) : Prop :=
  (exists rolls th, n = NRRollList rolls th) \/ (exists rolls th b, n = NURollExpr rolls th b) \/
  (exists e, n = NCommand CRRollComp e) \/ (exists e, n = NCommand CURollComp e).
