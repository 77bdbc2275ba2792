(** Properties C09-C12, C14: calculations C(...). *)
From Coq Require Import Reals Lra.
From Flocq Require Import Core.
From Verif Require Import ProofBase Float FloatProofs Ast Eval Notation NotationProofs SpecSyntax SpecArith ArithProofs
  Comp CompProofs Command BCDice.
Open Scope list_scope.
Open Scope Z_scope.

(** Executing a calculation is evaluating its expression: feeder untouched, no dice. *)
Lemma run_calculation gid e f :
  exists s, infix_notation (command_tree (Calculation e)) true = Ok s /\
    run_command gid (command_tree (Calculation e)) f =
      (v <~ mach e ;; Ok (Result gid [s; "計算結果"%string; itoa v] [] Unspecified false), f).
Proof.
  destruct (notates_command_tree (Calculation e) true) as (s & Hs). exists s. split; [exact Hs|].
  unfold run_command. cbn [command_tree execute]. unfold execute_calc.
  cbn [command_tree] in Hs. rewrite Hs. cbn [clift cbind]. cbn [eval]. rewrite eval_itree.
  destruct (mach e); reflexivity.
Qed.

(** C09: for ordinary expressions C(e) reports the mathematical value. *)
Theorem C09_calculation_value gid e v f :
  ordinary e -> math_value e = Some v ->
  exists s, infix_notation (command_tree (Calculation e)) true = Ok s /\
    run_command gid (command_tree (Calculation e)) f =
      (Ok (Result gid [s; "計算結果"%string; itoa v] [] Unspecified false), f).
Proof.
  intros Ho Hv. destruct (run_calculation gid e f) as (s & Hs & Hr). exists s. split; [exact Hs|].
  rewrite Hr. pose proof (mach_math e Ho) as H. rewrite Hv in H. destruct H as (-> & _). reflexivity.
Qed.
Print Assumptions C09_calculation_value.
(** C09, the evaluator itself *)
Theorem C09_eval_value mr e v : ordinary e -> math_value e = Some v -> eval mr (itree e) = CRet (OInt v).
Proof. intros Ho Hv. pose proof (mach_math e Ho) as H. rewrite Hv in H. destruct H as (H & _). rewrite eval_itree, H. reflexivity. Qed.
Print Assumptions C09_eval_value.
(** (7 - -3*5) /U 4 = 22 /U 4 = 6 *)
Lemma ceil_22_4 : divided RoundUp 22 4 = 6.
Proof. unfold divided, quotient. apply Zceil_imp. change (IZR (6 - 1)) with 5%R. lra. Qed.
Example C09_example :
  let e := Bin (Over RoundUp) (Bin Minus (Leaf 7) (Bin Times (Neg (Leaf 3)) (Leaf 5))) (Leaf 4) in
  ordinary e /\ math_value e = Some 6.
Proof.
  cbv zeta.
  assert (math_value (Bin (Over RoundUp) (Bin Minus (Leaf 7) (Bin Times (Neg (Leaf 3)) (Leaf 5))) (Leaf 4)) = Some 6) as H.
  { cbn -[divided]. change (7 - - (3) * 5) with 22. change (4 =? 0) with false. cbv iota. rewrite ceil_22_4. reflexivity. }
  split; [|exact H]. cbn [ordinary]. unfold value_in at 1. rewrite H.
  unfold value_in, in_int64, min_int, max_int, two63. cbn. lia.
Qed.

(** C10: a zero divisor anywhere makes the calculation end with the division-by-zero error. *)
Theorem C10_division_by_zero gid mr m a b e f :
  part (Bin (Over m) a b) e -> eval mr (itree b) = CRet (OInt 0) ->
  exists l, run_command gid (command_tree (Calculation e)) f = (Err (itoa l ++ " divided by zero")%string, f).
Proof.
  intros Hp Hb. rewrite eval_itree in Hb.
  assert (mach b = Ok 0) as Hb0 by (destruct (mach b); cbn in Hb; congruence).
  destruct (mach_div_zero m a b e Hp Hb0) as (l & Hl). exists l.
  destruct (run_calculation gid e f) as (s & _ & ->). rewrite Hl. reflexivity.
Qed.
Print Assumptions C10_division_by_zero.
(** C10, mathematically: an ordinary expression with no mathematical value (a zero divisor) ends with that error. *)
Theorem C10_division_by_zero_math gid e f :
  ordinary e -> math_value e = None ->
  exists l, run_command gid (command_tree (Calculation e)) f = (Err (itoa l ++ " divided by zero")%string, f).
Proof.
  intros Ho Hv. pose proof (mach_math e Ho) as H. rewrite Hv in H. destruct H as (l & Hl). exists l.
  destruct (run_calculation gid e f) as (s & _ & ->). rewrite Hl. reflexivity.
Qed.
Print Assumptions C10_division_by_zero_math.
(** C10, converse: no other error exists. *)
Theorem C10_only_division_by_zero gid mr e f msg f' :
  run_command gid (command_tree (Calculation e)) f = (Err msg, f') ->
  exists m a b, part (Bin (Over m) a b) e /\ eval mr (itree b) = CRet (OInt 0).
Proof.
  destruct (run_calculation gid e f) as (s & _ & ->). intros H.
  destruct (mach e) as [v|m|p] eqn:E; try discriminate.
  destruct (mach_err_div_zero e m E) as (m' & a & b & Hp & Hz). exists m', a, b. split; [exact Hp|].
  rewrite eval_itree, Hz. reflexivity.
Qed.
Print Assumptions C10_only_division_by_zero.
Example C10_example :
  let e := Bin Plus (Leaf 1) (Bin (Over RoundHalf) (Leaf 5) (Bin Minus (Leaf 3) (Leaf 3))) in
  part (Bin (Over RoundHalf) (Leaf 5) (Bin Minus (Leaf 3) (Leaf 3))) e /\
  eval 10000 (itree (Bin Minus (Leaf 3) (Leaf 3))) = CRet (OInt 0) /\
  parse_command "C(1+5/(3-3)R)" = Ok (command_tree (Calculation e)).
Proof. cbv zeta. split; [apply part_r, part_self|]. split; vm_compute; reflexivity. Qed.

(** C11: through float64 the rounding divisions are exact for dividends below 2^53 (/U) and 2^52 (/R), for every int64 divisor. *)
Theorem C11_ceiling_exact mr l r :
  Z.abs l < 2 ^ 53 -> in_int64 r -> r <> 0 ->
  eval mr (itree (Bin (Over RoundUp) (Leaf l) (Leaf r))) = CRet (OInt (Zceil (IZR l / IZR r))).
Proof.
  intros Hl Hi Hr. rewrite eval_itree. cbn [mach obind mach_op].
  replace (r =? 0) with false by lia. rewrite (div_ceil_exact l r Hl Hi Hr). reflexivity.
Qed.
Print Assumptions C11_ceiling_exact.
Theorem C11_rounding_exact mr l r :
  Z.abs l < 2 ^ 52 -> in_int64 r -> r <> 0 ->
  eval mr (itree (Bin (Over RoundHalf) (Leaf l) (Leaf r))) = CRet (OInt (half_away (IZR l / IZR r))).
Proof.
  intros Hl Hi Hr. rewrite eval_itree. cbn [mach obind mach_op].
  replace (r =? 0) with false by lia. rewrite (div_round_exact l r Hl Hi Hr). reflexivity.
Qed.
Print Assumptions C11_rounding_exact.
(** Truncating division is exact for all int64 operands, except that min_int / -1 wraps. *)
Theorem C11_truncation_exact mr l r :
  in_int64 l -> in_int64 r -> r <> 0 ->
  eval mr (itree (Bin (Over RoundDown) (Leaf l) (Leaf r))) = CRet (OInt (wrap64 (Ztrunc (IZR l / IZR r)))).
Proof.
  intros Hl Hi Hr. rewrite eval_itree. cbn [mach obind mach_op].
  replace (r =? 0) with false by lia. rewrite (quot_exact l r Hr). reflexivity.
Qed.
Print Assumptions C11_truncation_exact.
(** C11, the bounds cannot be improved: at 2^53 and 2^52 there are wrong results. *)
Theorem C11_ceiling_beyond_refuted mr :
  eval mr (itree (Bin (Over RoundUp) (Leaf (- 2 ^ 53)) (Leaf (2 ^ 53 + 1)))) = CRet (OInt (-1)) /\
  Zceil (IZR (- 2 ^ 53) / IZR (2 ^ 53 + 1)) = 0.
Proof.
  split; [rewrite eval_itree; vm_compute; reflexivity|].
  apply Zceil_imp. change (- 2 ^ 53) with (-9007199254740992). change (2 ^ 53 + 1) with 9007199254740993.
  change (IZR (0 - 1)) with (-1)%R. lra.
Qed.
Print Assumptions C11_ceiling_beyond_refuted.
Theorem C11_rounding_beyond_refuted mr :
  eval mr (itree (Bin (Over RoundHalf) (Leaf (2 ^ 52)) (Leaf (2 ^ 53 + 1)))) = CRet (OInt 1) /\
  half_away (IZR (2 ^ 52) / IZR (2 ^ 53 + 1)) = 0.
Proof.
  split; [rewrite eval_itree; vm_compute; reflexivity|].
  apply half_away_imp; change (2 ^ 52) with 4503599627370496; change (2 ^ 53 + 1) with 9007199254740993; lra.
Qed.
Print Assumptions C11_rounding_beyond_refuted.
(** Even dividing by 1 can change the number. *)
Theorem C11_division_by_one_refuted mr :
  eval mr (itree (Bin (Over RoundUp) (Leaf (2 ^ 53 + 1)) (Leaf 1))) = CRet (OInt (2 ^ 53)).
Proof. rewrite eval_itree. vm_compute. reflexivity. Qed.
Print Assumptions C11_division_by_one_refuted.
Example C11_example : Z.abs (-7) < 2 ^ 52 /\ in_int64 2 /\ half_away (IZR (-7) / IZR 2) = -4.
Proof.
  split; [reflexivity|]. split; [unfold in_int64, min_int, max_int, two63; lia|].
  apply half_away_imp; lra.
Qed.

(** C12: without divisions the value is the int64 congruent to the mathematical value modulo 2^64. *)
Theorem C12_wraps_modulo gid e f :
  iok e -> no_division e ->
  exists s v z, run_command gid (command_tree (Calculation e)) f = (Ok (Result gid [s; "計算結果"%string; itoa v] [] Unspecified false), f) /\
    math_value e = Some z /\ in_int64 v /\ (2 ^ 64 | v - z).
Proof.
  intros Hok Hn. destruct (mach_ring e Hok Hn) as (v & z & H1 & H2 & H3 & H4).
  destruct (run_calculation gid e f) as (s & _ & Hr). exists s, v, z. rewrite Hr, H1.
  split; [reflexivity|]. split; [exact H2|]. split; [exact H3|].
  apply Z.mod_divide; [discriminate|]. change (2 ^ 64) with two64.
  rewrite Zminus_mod, H4, <- Zminus_mod, Z.sub_diag. reflexivity.
Qed.
Print Assumptions C12_wraps_modulo.
Example C12_example :
  let e := Bin Plus (Leaf max_int) (Leaf 1) in
  iok e /\ no_division e /\ eval 10000 (itree e) = CRet (OInt min_int) /\ math_value e = Some (max_int + 1).
Proof.
  cbv zeta. split; [cbn; unfold in_int64, min_int, max_int, two63; lia|].
  split; [cbn; tauto|]. split; vm_compute; reflexivity.
Qed.

(** C14: a calculation takes no die, never panics, and ends in an int64 value or the division-by-zero error. *)
Theorem C14_pure_and_total gid e f :
  iok e ->
  exists o, run_command gid (command_tree (Calculation e)) f = (o, f) /\
    ((exists s v, o = Ok (Result gid [s; "計算結果"%string; itoa v] [] Unspecified false) /\ in_int64 v) \/
     (exists l, o = Err (itoa l ++ " divided by zero")%string)).
Proof.
  intros Hok. destruct (run_calculation gid e f) as (s & _ & Hr). rewrite Hr. eexists. split; [reflexivity|].
  destruct (mach_total e) as [(v & E)|(l & E)]; rewrite E.
  - left. exists s, v. split; [reflexivity|]. exact (mach_range e v Hok E).
  - right. exists l. reflexivity.
Qed.
Print Assumptions C14_pure_and_total.
Example C14_example : iok (Bin (Over RoundDown) (Leaf 1) (Leaf 0)).
Proof. cbn. unfold in_int64, min_int, max_int, two63. lia. Qed.
