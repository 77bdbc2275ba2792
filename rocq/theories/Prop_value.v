(** Properties C09, C10, C11 for all expressions: the value in 64-bit arithmetic. *)
From Coq Require Import Reals Lra Psatz.
From Flocq Require Import Core BinarySingleNaN.
From Verif Require Import ProofBase Float FloatProofs Ast Eval SpecSyntax SpecArith SpecRoll ArithProofs DRollProofs Comp CompProofs Command BCDice NumberText SpecTyped ParseSound SpecText SpecGrammar Prop_parse Prop_exec Prop_arith Prop_exec2 Prop_typed Prop_complete.
Open Scope list_scope.
Open Scope Z_scope.

Lemma nearest_rnd x : nearest64 x = rnd64 x.
Proof. reflexivity. Qed.
Lemma int_of_nearby_any md f : is_finite f = true -> int_of_float64 (Bnearbyint md f) = to_int64 (round_mode md (B2R f)).
Proof.
  intros Hf. destruct (Bnearbyint_correct prec64 emax64 prec64_lt_emax md f) as (H1 & H2 & _). rewrite round_FIX_IZR in H1. set (v := round_mode md (B2R f)) in *. rewrite Hf in H2.
  pose proof (Btrunc_correct prec64 emax64 prec64_lt_emax (Bnearbyint md f)) as H3. rewrite H1, round_FIX_IZR, Ztrunc_IZR in H3. apply eq_IZR in H3.
  destruct (Bnearbyint md f) as [s|s| |s m e b]; try discriminate; cbn [int_of_float64].
  - cbn [B2R] in H1. apply (eq_IZR 0) in H1. rewrite <- H1. reflexivity.
  - cbv zeta. rewrite H3. reflexivity.
Qed.
Open Scope R_scope.
Lemma int64_abs z : in_int64 z -> Rabs (IZR z) <= bpow radix2 63.
Proof. intros Hz. rewrite <- abs_IZR. change (bpow radix2 63) with (IZR 9223372036854775808). apply IZR_le. unfold in_int64, min_int, max_int, two63 in Hz. lia. Qed.
Lemma fmt_bpow63 : fmt64 (bpow radix2 63).
Proof. apply generic_format_bpow. discriminate. Qed.
Lemma quotient_any l r : in_int64 l -> in_int64 r -> r <> 0%Z ->
  let q := float64_div (float64_of_int l) (float64_of_int r) in is_finite q = true /\ B2R q = float_quotient64 l r.
Proof.
  intros Hl Hr Hr0 q. destruct (float64_of_int_spec l Hl) as (Hl1 & Hl2). destruct (float64_of_int_spec r Hr) as (Hr1 & Hr2).
  assert (1 <= Rabs (rnd64 (IZR r))) as Hy.
  { destruct (Z_lt_le_dec r 0).
    - assert (rnd64 (IZR r) <= -1) by (apply rnd_sign_neg, (IZR_le r (-1)); lia). rewrite Rabs_left1; lra.
    - assert (1 <= rnd64 (IZR r)) by (apply rnd_sign_pos, (IZR_le 1 r); lia). rewrite Rabs_pos_eq; lra. }
  assert (rnd64 (IZR r) <> 0) as Hy0 by (intros E; rewrite E, Rabs_R0 in Hy; lra).
  assert (Rabs (rnd64 (IZR l)) <= bpow radix2 63) as Hx by (apply rnd_abs_le; [apply fmt_bpow63|apply int64_abs, Hl]).
  pose proof (Bdiv_correct prec64 emax64 prec64_gt_0 prec64_lt_emax mode_NE (float64_of_int l) (float64_of_int r)) as H. rewrite Hl1, Hr1 in H. specialize (H Hy0). rewrite Rlt_bool_true in H.
  - destruct H as (H1 & H2 & _). split; [unfold q, float64_div; rewrite H2; exact Hl2|exact H1].
  - apply Rle_lt_trans with (bpow radix2 63); [|apply bpow_lt; reflexivity]. apply rnd_abs_le; [apply fmt_bpow63|]. unfold Rdiv. rewrite Rabs_mult, Rabs_inv.
    rewrite <- (Rmult_1_r (bpow radix2 63)). apply Rmult_le_compat; try apply Rabs_pos; try assumption.
    + left. apply Rinv_0_lt_compat. lra.
    + rewrite <- Rinv_1. apply Rinv_le; lra.
Qed.
Open Scope Z_scope.
Lemma half_away_NA x : round_mode mode_NA x = half_away x.
Proof. apply nearest_away. Qed.
Lemma mach_over m x y : in_int64 x -> in_int64 y -> y <> 0 -> mach_op (Over m) x y = Ok (divided64 m x y).
Proof.
  intros Hx Hy H0. cbn [mach_op]. replace (y =? 0) with false by lia. f_equal. destruct (quotient_any x y Hx Hy H0) as (Hf & Hq). destruct m; cbn [divided64].
  - rewrite (quot_exact x y H0). reflexivity.
  - unfold div_round, math_round. rewrite int_of_nearby_any by exact Hf. rewrite Hq, half_away_NA. reflexivity.
  - unfold div_ceil, math_ceil. rewrite int_of_nearby_any by exact Hf. rewrite Hq. reflexivity.
Qed.
Lemma to_int64_range z : in_int64 (to_int64 z).
Proof. unfold to_int64, in_int64, min_int, max_int, two63. destruct ((- (9223372036854775808) <=? z) && (z <=? 9223372036854775808 - 1)) eqn:E; lia. Qed.
Lemma divided64_range m x y : in_int64 (divided64 m x y).
Proof. destruct m; cbn [divided64]; [apply wrap64_range|apply to_int64_range|apply to_int64_range]. Qed.
Lemma calculates_range e v : iok e -> calculates e v -> in_int64 v.
Proof. intros H. destruct 1; try apply wrap64_range; [exact H|apply divided64_range]. Qed.
Lemma calculates_mach e : iok e -> forall v, calculates e v <-> mach e = Ok v.
Proof.
  induction e as [w|e IH|op a IHa b IHb]; intros Hn v; unfold iok in Hn; cbn [all_leaves] in Hn; fold iok in Hn.
  - cbn [mach]. split; [intros H; inversion H; reflexivity|intros H; injection H as <-; apply calc_number].
  - cbn [mach]. split.
    + intros H. inversion H as [|e' x Hx Ee Ev| | | |]. apply (IH Hn) in Hx. rewrite Hx. reflexivity.
    + destruct (mach e) as [x|m|p] eqn:E; cbn [obind]; try discriminate. intros [= <-]. constructor. apply IH; auto.
  - destruct Hn as (Ha & Hb). specialize (IHa Ha). specialize (IHb Hb). cbn [mach]. split.
    + intros H. inversion H as [| |a' b' x y Hx Hy|a' b' x y Hx Hy|a' b' x y Hx Hy|m a' b' x y Hx Hy H0]; subst; pose proof Hx as Hx'; pose proof Hy as Hy'; apply IHa in Hx'; apply IHb in Hy'; rewrite Hx', Hy'; cbn [obind]; try reflexivity.
      apply mach_over; [exact (calculates_range _ _ Ha Hx)|exact (calculates_range _ _ Hb Hy)|exact H0].
    + destruct (mach a) as [x|m|p] eqn:Ea; cbn [obind]; try discriminate. destruct (mach b) as [y|m|p] eqn:Eb; cbn [obind]; try discriminate. pose proof (proj2 (IHa x) eq_refl) as Hx. pose proof (proj2 (IHb y) eq_refl) as Hy.
      destruct op as [| | |m]; cbn [mach_op]; try (intros [= <-]; constructor; assumption). intros H. destruct (Z.eq_dec y 0) as [->|H0]; [discriminate H|].
      change (mach_op (Over m) x y = Ok v) in H. rewrite mach_over in H; [|exact (calculates_range _ _ Ha Hx)|exact (calculates_range _ _ Hb Hy)|exact H0]. injection H as <-. constructor; assumption.
Qed.
Lemma mach_no_panic e : forall p, mach e <> Panic p.
Proof.
  induction e as [w|e IH|op a IHa b IHb]; intros p; cbn [mach]; [discriminate| |].
  - destruct (mach e) as [|?|q]; cbn [obind]; try discriminate. intros _. exact (IH q eq_refl).
  - destruct (mach a) as [|?|q]; cbn [obind]; try discriminate; [|intros _; exact (IHa q eq_refl)]. destruct (mach b) as [|?|q]; cbn [obind]; try discriminate; [|intros _; exact (IHb q eq_refl)]. destruct op as [| | |m]; cbn [mach_op]; try discriminate. destruct (_ =? 0); discriminate.
Qed.
(** C09, C11: the value of any calculation, in 64-bit arithmetic, also beyond the range in which it is exact. *)
Theorem C09_every_expression gid e v f : iok e ->
  ((exists s f', run_command gid (command_tree (Calculation e)) f = (Ok (Result gid [s; "計算結果"%string; itoa v] [] Unspecified false), f')) <-> calculates e v).
Proof.
  intros Hn. rewrite (calculates_mach e Hn). destruct (run_calculation gid e f) as (s & _ & ->). split.
  - intros (s' & f' & H). destruct (mach e) as [w|m|p]; cbn [obind] in H; try discriminate. injection H as _ Hv _. apply itoa_inj in Hv. congruence.
  - intros ->. exists s, f. reflexivity.
Qed.
Print Assumptions C09_every_expression.
(** C10: and it fails exactly if there is no such value, that is, if some divisor is zero. *)
Theorem C10_every_expression gid e f : iok e ->
  ((exists msg f', run_command gid (command_tree (Calculation e)) f = (Err msg, f')) <-> ~ exists v, calculates e v).
Proof.
  intros Hn. destruct (run_calculation gid e f) as (s & _ & ->). split.
  - intros (msg & f' & H) (v & Hv). apply (calculates_mach e Hn) in Hv. rewrite Hv in H. discriminate.
  - intros H. destruct (mach e) as [w|m|p] eqn:E; cbn [obind].
    + exfalso. apply H. exists w. apply (calculates_mach e Hn). exact E.
    + eauto.
    + exfalso. exact (mach_no_panic e p E).
Qed.
Print Assumptions C10_every_expression.
(** (iok: all numbers of the expression are int64, which is true of every text, C13.)  The values in the replies of C44 and C79 *)
Theorem C79_values e v : iok e -> (has_value e v <-> calculates e v).
Proof. intros Hn. rewrite has_value_mach, (calculates_mach e Hn). reflexivity. Qed.
Print Assumptions C79_values.
(** C79: a typed calculation *)
Theorem C79_calculation bot input e secret v f : moderate input -> typed input (Calculation e) secret ->
  ((exists r f', execute_command_with bot input f = (Ok r, f') /\ nth_error (r_parts r) 2 = Some (itoa v)) <-> calculates e v) /\
  ((exists m f', execute_command_with bot input f = (Err m, f')) <-> ~ exists v, calculates e v).
Proof.
  intros Hl Ht. pose proof (typed_ok _ _ _ Ht) as Hn. cbn [command_ok] in Hn.
  pose proof (C76_typed_command bot input _ secret f Hl Ht) as K. cbv zeta in K. destruct (run_calculation (db_game_id bot) e f) as (s & _ & E). rewrite E in K. rewrite (calculates_mach e Hn v).
  assert ((exists w, calculates e w) <-> exists w, mach e = Ok w) as Hx. { split; intros (w & Hw); exists w; apply (calculates_mach e Hn); exact Hw. } rewrite Hx. clear Hx.
  destruct (mach e) as [w|m|p] eqn:Em; cbn [obind r_game_id r_parts r_dice r_success] in K.
  - rewrite K. split; split.
    + intros (r & f' & [= <- _] & H). cbn [r_parts nth_error] in H. injection H as H. apply itoa_inj in H. congruence.
    + intros [= ->]. eexists _, _. split; reflexivity.
    + intros (m & f' & H). discriminate.
    + intros H. exfalso. apply H. eauto.
  - assert (exists e0, execute_command_with bot input f = (Err e0, f)) as (e0 & K0). { destruct K as [K|K]; [exact K|]. rewrite E in K. exact K. } rewrite K0. split; split.
    + intros (r & f' & H & _). discriminate.
    + discriminate.
    + intros _ (w & H). discriminate.
    + eauto.
  - exfalso. destruct (mach_no_panic e p Em).
Qed.
Print Assumptions C79_calculation.
(** 2^53 / -(2^53+1) rounded up is -1 in float64 arithmetic *)
Example C09_every_example : iok (Bin (Over RoundUp) (Neg (Leaf (2 ^ 53))) (Leaf (2 ^ 53 + 1))) /\ calculates (Bin (Over RoundUp) (Neg (Leaf (2 ^ 53))) (Leaf (2 ^ 53 + 1))) (-1) /\
  iok (Bin (Over RoundHalf) (Leaf 1) (Bin Minus (Leaf 1) (Leaf 1))) /\ ~ exists v, calculates (Bin (Over RoundHalf) (Leaf 1) (Bin Minus (Leaf 1) (Leaf 1))) v.
Proof.
  assert (iok (Bin (Over RoundUp) (Neg (Leaf (2 ^ 53))) (Leaf (2 ^ 53 + 1)))) as H1 by (vm_compute; repeat split; discriminate).
  assert (iok (Bin (Over RoundHalf) (Leaf 1) (Bin Minus (Leaf 1) (Leaf 1)))) as H2 by (vm_compute; repeat split; discriminate).
  split; [exact H1|]. split; [apply (calculates_mach _ H1); vm_compute; reflexivity|]. split; [exact H2|]. intros (v & Hv). apply (calculates_mach _ H2) in Hv. vm_compute in Hv. discriminate.
Qed.
