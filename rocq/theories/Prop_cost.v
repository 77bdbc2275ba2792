(** Property C45: the cost of parsing. *)
From Coq Require Import NArith Nnat PeanoNat.
From Verif Require Import Grammar ProofBase SpecText SpecSyntax SpecGrammar PegTotal NotationText NumberText CostProofs Prop_parse Prop_notation.
Open Scope list_scope.
Open Scope Z_scope.

Lemma nested_length n : String.length (nested n) = (4 * n + 1)%nat.
Proof. induction n as [|n IH]; [reflexivity|]. cbn [nested]. rewrite !length_append, IH. cbn [String.length]. lia. Qed.
Lemma nested_input_length n : String.length (nested_input n) = (4 * n + 4)%nat.
Proof. unfold nested_input. rewrite !length_append, nested_length. cbn [String.length]. lia. Qed.

(** C45: n nested divisions "C(1)", "C((1/1))", "C((1/(1/1)))", ... are commands of 4n+4 bytes on which the parser
    finishes, having tried at least 2^n expressions. *)
Theorem C45_exponential n :
  let input := nested_input n in
  String.length input = (4 * n + 4)%nat /\
  exists k, expr_cnt rules (parse_fuel input) Command input = Some k /\ (2 ^ N.of_nat n <= k)%N.
Proof. split; [apply nested_input_length|apply nested_input_cost]. Qed.
Print Assumptions C45_exponential.
(** These commands are all accepted: *)
Theorem C45_accepted n : fits (nested_input n) -> parse_command (nested_input n) = Ok (command_tree (Calculation (nested_expr n))).
Proof. intros H. apply calc_parses; [apply nested_ascii|exact H|apply sp_add_mul, sp_mul_prim, nested_sp]. Qed.
Print Assumptions C45_accepted.

Lemma pow_gt j : (j + 1 <= 2 ^ j)%nat.
Proof. induction j as [|j IH]; cbn [Nat.pow]; lia. Qed.
Lemma exp_beats_poly c d : exists n, (c * (4 * n + 4) ^ d < 2 ^ n)%nat.
Proof.
  set (j := (c + 3 * d + 3)%nat). exists (2 ^ (j + j))%nat.
  assert (4 * 2 ^ (j + j) + 4 <= 2 ^ (j + j + 3))%nat as H1.
  { rewrite (Nat.pow_add_r 2 (j + j) 3). change (2 ^ 3)%nat with 8%nat. pose proof (pow_gt (j + j)). lia. }
  apply Nat.le_lt_trans with (c * (2 ^ (j + j + 3)) ^ d)%nat; [apply Nat.mul_le_mono_l, Nat.pow_le_mono_l, H1|].
  rewrite <- Nat.pow_mul_r. apply Nat.lt_le_trans with (2 ^ c * 2 ^ ((j + j + 3) * d))%nat.
  - apply Nat.mul_lt_mono_pos_r; [pose proof (pow_gt ((j + j + 3) * d)); lia|pose proof (pow_gt c); lia].
  - rewrite <- Nat.pow_add_r. apply Nat.pow_le_mono_r; [lia|]. rewrite Nat.pow_add_r. pose proof (pow_gt j) as Hj.
    apply Nat.le_trans with ((j + 1) * (j + 1))%nat; [subst j; nia|apply Nat.mul_le_mono; exact Hj].
Qed.
(** C45: hence no polynomial in the length of the input bounds the number of expressions tried. *)
Theorem C45_no_polynomial_bound c d :
  exists input k, expr_cnt rules (parse_fuel input) Command input = Some k /\ (N.of_nat (c * String.length input ^ d) < k)%N.
Proof.
  destruct (exp_beats_poly c d) as (n & Hn). destruct (C45_exponential n) as (Hl & k & Hk & Hb). exists (nested_input n), k. split; [exact Hk|]. rewrite Hl.
  apply N.lt_le_trans with (N.of_nat (2 ^ n)); [lia|]. rewrite Nat2N.inj_pow. exact Hb.
Qed.
Print Assumptions C45_no_polynomial_bound.
Example C45_example : nested_input 3 = "C((1/(1/(1/1))))"%string /\ expr_cnt rules (parse_fuel (nested_input 3)) Command (nested_input 3) = Some 510%N /\
  expr_cnt rules (parse_fuel (nested_input 7)) Command (nested_input 7) = Some 8430%N.
Proof. vconj. Qed.
