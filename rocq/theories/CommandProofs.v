(** Facts about [execute] that do not depend on the kind of command. *)
From Verif Require Import ProofBase Dice SpecDice DiceProofs Comp CompProofs Eval Notation Command SpecCommand.
Open Scope list_scope.
Open Scope Z_scope.

Lemma var_args_threshold_ok mr th s th' s' :
  run (var_args_threshold mr th) s = (Ok th', s') -> th' = NNil \/ exists v, th' = NInt v.
Proof.
  unfold var_args_threshold. intros H.
  destruct (is_null th); [discriminate|].
  destruct th; cbn [is_nil] in H; try (repeat inv_run H; repeat inv_run R0; cbn in *; injection R2 as <- <-; right; eexists; reflexivity).
  cbn in H. injection H as <- <-. left. reflexivity.
Qed.

(** A threshold check that complains does so with one of the hints. *)
Lemma check_r_hint mr th s msg s' :
  (th = NNil \/ exists v, th = NInt v) ->
  run (check_r_roll_threshold mr th) s = (Ok (Some msg), s') -> is_hint msg.
Proof.
  intros [->|[v ->]] H; cbn in H.
  - injection H as <- _. left. reflexivity.
  - destruct (v <? 2); [|discriminate]. injection H as <- _. right. right. reflexivity.
Qed.
Lemma check_u_hint mr th s msg s' :
  (th = NNil \/ exists v, th = NInt v) ->
  run (check_u_roll_threshold mr th) s = (Ok (Some msg), s') -> is_hint msg.
Proof.
  intros [->|[v ->]] H; cbn in H.
  - injection H as <- _. right. left. reflexivity.
  - destruct (v <? 2); [|discriminate]. injection H as <- _. right. right. reflexivity.
Qed.

Definition reported (n : node) (r : result) (s : estate) : Prop :=
  r_dice r = es_log s \/ (r_dice r = [] /\ (is_calc n \/ (is_reroll_command n /\ hint_result r))).

Lemma reported_log n r s : r_dice r = es_log s -> reported n r s.
Proof. left. assumption. Qed.

Lemma eval_var_args_rrlist mr rolls th s n' s' :
  run (eval_var_args mr (NRRollList rolls th)) s = (Ok n', s') ->
  exists rolls' th', n' = NRRollList rolls' th' /\ (th' = NNil \/ exists v, th' = NInt v).
Proof.
  cbn [eval_var_args]. intros H. repeat inv_run H. inv_run R0. cbn in R2. injection R2 as <- <-.
  apply var_args_threshold_ok in R. eauto.
Qed.
Lemma eval_var_args_uexpr mr rolls th b s n' s' :
  run (eval_var_args mr (NURollExpr rolls th b)) s = (Ok n', s') ->
  exists rolls' th' b', n' = NURollExpr rolls' th' b' /\ (th' = NNil \/ exists v, th' = NInt v).
Proof.
  cbn [eval_var_args]. intros H. repeat inv_run H. inv_run R0. inv_run R2. cbn in R3. injection R3 as <- <-.
  apply var_args_threshold_ok in R. eauto 6.
Qed.

Ltac unpair := match goal with p : (_ * _)%type |- _ => destruct p end.

(** The kind of tree never changes *)
Lemma eval_var_args_infix mr op l r s n' s' :
  run (eval_var_args mr (NInfix op l r)) s = (Ok n', s') -> exists l' r', n' = NInfix op l' r'.
Proof.
  intros H. cbn [eval_var_args] in H. destruct op; repeat inv_run H; repeat inv_run R0; repeat inv_run R2;
  cbn in *; match goal with E : (Ok _, _) = (Ok _, _) |- _ => injection E as <- <- end; eauto.
Qed.

Lemma eval_var_args_not_rrlist mr n s rolls th s' :
  run (eval_var_args mr n) s = (Ok (NRRollList rolls th), s') -> th = NNil \/ exists v, th = NInt v.
Proof.
  destruct n; intros H.
  all: try (cbn in H; discriminate H).
  - cbn [eval_var_args] in H. inv_run H. discriminate.
  - apply eval_var_args_infix in H as (? & ? & ?). discriminate.
  - cbn [eval_var_args] in H. inv_run H. discriminate.
  - apply eval_var_args_rrlist in H as (? & ? & H & ?). injection H as -> ->. assumption.
  - apply eval_var_args_uexpr in H as (? & ? & ? & H & ?). discriminate.
  - cbn [eval_var_args] in H. inv_run H. discriminate.
Qed.
Lemma eval_var_args_not_uexpr mr n s rolls th b s' :
  run (eval_var_args mr n) s = (Ok (NURollExpr rolls th b), s') -> th = NNil \/ exists v, th = NInt v.
Proof.
  destruct n; intros H.
  all: try (cbn in H; discriminate H).
  - cbn [eval_var_args] in H. inv_run H. discriminate.
  - apply eval_var_args_infix in H as (? & ? & ?). discriminate.
  - cbn [eval_var_args] in H. inv_run H. discriminate.
  - apply eval_var_args_rrlist in H as (? & ? & H & ?). discriminate.
  - apply eval_var_args_uexpr in H as (? & ? & ? & H & ?). injection H as -> -> ->. assumption.
  - cbn [eval_var_args] in H. inv_run H. discriminate.
Qed.

(** The left side of an infix node after [eval_var_args] *)
Lemma var_args_of_variable_expr_shape mr c s n' s' :
  run (var_args_of_variable_expr mr c) s = (Ok n', s') -> exists k l r, n' = NInfix (OpVar k) l r.
Proof.
  unfold var_args_of_variable_expr. destruct c; try discriminate. destruct op; try discriminate.
  intros H. inv_run H. unpair. injection R0 as <- <-. eauto.
Qed.
Lemma eval_var_args_infix_left mr op l r s rolls th r' s' op' :
  run (eval_var_args mr (NInfix op l r)) s = (Ok (NInfix op' (NRRollList rolls th) r'), s') ->
  th = NNil \/ exists v, th = NInt v.
Proof.
  intros H. cbn [eval_var_args] in H.
  assert (Hc : forall s s1, run (if is_null l then panic_nil
      else if is_primary l then (if is_variable l then var_args_of_variable_expr mr l else CRet l)
      else eval_var_args mr l) s = (Ok (NRRollList rolls th), s1) -> th = NNil \/ exists v, th = NInt v).
  { intros s1 s2 Hl. destruct (is_null l); [discriminate|]. destruct (is_primary l) eqn:P.
    - destruct (is_variable l).
      + apply var_args_of_variable_expr_shape in Hl as (? & ? & ? & ?). discriminate.
      + cbn in Hl. injection Hl as -> _. discriminate.
    - eapply eval_var_args_not_rrlist; eassumption. }
  destruct op; try (inv_run H; inv_run R0; injection R2; intros; subst; eapply Hc; eassumption).
  inv_run H. inv_run R0. inv_run R2. injection R3; intros; subst. eapply eval_var_args_not_rrlist; eassumption.
Qed.
Lemma eval_var_args_infix_left_u mr op l r s rolls th b r' s' op' :
  run (eval_var_args mr (NInfix op l r)) s = (Ok (NInfix op' (NURollExpr rolls th b) r'), s') ->
  th = NNil \/ exists v, th = NInt v.
Proof.
  intros H. cbn [eval_var_args] in H.
  assert (Hc : forall s s1, run (if is_null l then panic_nil
      else if is_primary l then (if is_variable l then var_args_of_variable_expr mr l else CRet l)
      else eval_var_args mr l) s = (Ok (NURollExpr rolls th b), s1) -> th = NNil \/ exists v, th = NInt v).
  { intros s1 s2 Hl. destruct (is_null l); [discriminate|]. destruct (is_primary l) eqn:P.
    - destruct (is_variable l).
      + apply var_args_of_variable_expr_shape in Hl as (? & ? & ? & ?). discriminate.
      + cbn in Hl. injection Hl as -> _. discriminate.
    - eapply eval_var_args_not_uexpr; eassumption. }
  destruct op; try (inv_run H; inv_run R0; injection R2; intros; subst; eapply Hc; eassumption).
  inv_run H. inv_run R0. inv_run R2. injection R3; intros; subst. eapply eval_var_args_not_uexpr; eassumption.
Qed.

Lemma set_reroll_threshold_ok mr th r s th' s' :
  (th = NNil \/ exists v, th = NInt v) ->
  run (set_reroll_threshold mr th r) s = (Ok th', s') -> th' = NNil \/ exists v, th' = NInt v.
Proof.
  intros [->|[v ->]] H; cbn [set_reroll_threshold is_null is_nil] in H.
  - inv_run H. inv_run R0. injection R2 as <- <-. right. eauto.
  - cbn in H. injection H as <- _. right. eauto.
Qed.

Lemma with_dice_reported gid parts sc s r s' n :
  run (with_dice gid parts sc) s = (Ok r, s') -> reported n r s'.
Proof. cbn. intros H. injection H as <- <-. left. reflexivity. Qed.

Lemma no_dice_hint gid n s1 msg r s s' :
  is_hint msg -> is_reroll_command n -> run (CRet (no_dice gid [s1; msg])) s = (Ok r, s') -> reported n r s'.
Proof.
  intros Hm Hn H. cbn in H. injection H as <- <-. right. split; [reflexivity|]. right. split; [assumption|].
  exists s1, msg. repeat split. assumption.
Qed.

Theorem execute_reported mr gid n s r s' :
  run (execute mr gid n) s = (Ok r, s') -> reported n r s'.
Proof.
  unfold execute. destruct n as [| | | | | | |rolls|rolls th|rolls th b|items|t e]; try discriminate.
  - (* B list *) unfold execute_b_roll_list. intros H. bok H [n1 t1] s1 R1 R2. bok R2 o s2 R3 R4.
    destruct o; try discriminate. eapply with_dice_reported; eassumption.
  - (* R list *) unfold execute_r_roll_list. intros H. bok H [n1 t1] s1 R1 R2. unfold eval_var_args_notation in R1.
    bok R1 n2 s2 R3 R4. bok R4 t2 s3 R5 R6. rewrite run_clift in R5. injection R5 as R5 <-. injection R6 as <- <- <-.
    destruct (eval_var_args_rrlist _ _ _ _ _ _ R3) as (rolls' & th' & -> & Hth).
    bok R2 bad s4 R7 R8. destruct bad as [msg|].
    + eapply no_dice_hint; [eapply check_r_hint; eassumption| left; eauto | eassumption].
    + bok R8 o s5 R9 R10. destruct o; try discriminate. cbn [run] in R10.
      rewrite run_bind, run_clift in R10. destruct (format_r_roll_values l); try discriminate.
      cbn in R10. injection R10 as <- <-. left. reflexivity.
  - (* U expr *) unfold execute_u_roll_expr. intros H. bok H [n1 t1] s1 R1 R2. unfold eval_var_args_notation in R1.
    bok R1 n2 s2 R3 R4. bok R4 t2 s3 R5 R6. rewrite run_clift in R5. injection R5 as R5 <-. injection R6 as <- <- <-.
    destruct (eval_var_args_uexpr _ _ _ _ _ _ _ R3) as (rolls' & th' & b' & -> & Hth).
    bok R2 bad s4 R7 R8. destruct bad as [msg|].
    + eapply no_dice_hint; [eapply check_u_hint; eassumption| right; left; eauto | eassumption].
    + bok R8 o s5 R9 R10. destruct o; try discriminate. cbn [run] in R10.
      rewrite run_bind, run_clift in R10. destruct (format_u_value_groups groups modifier); try discriminate.
      rewrite run_bind, run_clift in R10. destruct (u_max_value groups modifier); try discriminate.
      rewrite run_bind, run_clift in R10. destruct (u_sum_of_values groups modifier); try discriminate.
      cbn in R10. injection R10 as <- <-. left. reflexivity.
  - (* choice *) unfold execute_choice. intros H. bok H t1 s1 R1 R2. bok R2 o s2 R3 R4. destruct o; try discriminate.
    eapply with_dice_reported; eassumption.
  - destruct t.
    + (* calc *) unfold execute_calc. intros H. bok H t1 s1 R1 R2. bok R2 o s2 R3 R4. injection R4 as <- <-.
      right. split; [reflexivity|]. left. eexists; reflexivity.
    + unfold execute_d_roll_expr. intros H. bok H [n1 t1] s1 R1 R2. bok R2 n2 s2 R3 R4. bok R4 t2 s3 R5 R6.
      bok R6 o s4 R7 R8. eapply with_dice_reported; eassumption.
    + unfold execute_d_roll_comp. intros H. destruct e; try discriminate. destruct op; try discriminate.
      bok H [n1 t1] s1 R1 R2. bok R2 n2 s2 R3 R4. destruct n2; try discriminate.
      bok R4 t2 s3 R5 R6. bok R6 v s4 R7 R8. bok R8 o s5 R9 R10. cbn [run] in R10. destruct o; try discriminate.
      cbn in R10. injection R10 as <- <-. left. reflexivity.
    + unfold execute_b_roll_comp. intros H. destruct e; try discriminate. destruct (is_basic_op op); [|discriminate].
      bok H [n1 t1] s1 R1 R2. bok R2 o s2 R3 R4. destruct o; try discriminate. eapply with_dice_reported; eassumption.
    + unfold execute_r_roll_comp. intros H. destruct e; try discriminate. destruct (is_basic_op op); [|discriminate].
      bok H ee s1 R1 R2. destruct ee as [| | | | | |op1 l1 r1| | | | |]; try discriminate. destruct l1; try discriminate.
      bok R2 th' s2 R3 R4. bok R4 t1 s3 R5 R6. bok R6 bad s4 R7 R8.
      apply eval_var_args_infix_left in R1. apply (set_reroll_threshold_ok _ _ _ _ _ _ R1) in R3.
      destruct bad as [msg|].
      * eapply no_dice_hint; [eapply check_r_hint; eassumption| right; right; left; eauto | eassumption].
      * bok R8 o s5 R9 R10. destruct o; try discriminate. cbn [run] in R10.
        rewrite run_bind, run_clift in R10. destruct (format_r_roll_values groups); try discriminate.
        cbn in R10. injection R10 as <- <-. left. reflexivity.
    + unfold execute_u_roll_comp. intros H. destruct e; try discriminate. destruct (is_basic_op op); [|discriminate].
      bok H ee s1 R1 R2. bok R2 t1 s2 R3 R4.
      destruct ee as [| | | | | |op1 l1 r1| | | | |]; try discriminate. destruct l1; try discriminate.
      bok R4 bad s3 R5 R6. apply eval_var_args_infix_left_u in R1.
      destruct bad as [msg|].
      * eapply no_dice_hint; [eapply check_u_hint; eassumption| right; right; right; eauto | eassumption].
      * bok R6 o s5 R9 R10. destruct o; try discriminate. cbn [run] in R10.
        rewrite run_bind, run_clift in R10. destruct (format_u_value_groups groups modifier); try discriminate.
        cbn in R10. injection R10 as <- <-. left. reflexivity.
Qed.

(** ** [run_command] *)
Lemma run_command_ok gid n f r f' :
  run_command gid n f = (Ok r, f') ->
  exists ds, run (execute default_max_rerolls gid n) (EState f []) = (Ok r, EState f' ds) /\ draws f ds f'.
Proof.
  unfold run_command. destruct (run (execute default_max_rerolls gid n) (EState f [])) as [o s'] eqn:E.
  intros H. injection H as -> <-.
  destruct (run_ok_draws _ _ _ _ E) as (ds & H1 & H2). cbn [es_log es_feeder app] in *.
  exists (es_log s'). rewrite estate_eta, H1. split; [reflexivity|assumption].
Qed.

Lemma run_command_reported gid n f r f' :
  run_command gid n f = (Ok r, f') ->
  exists ds, draws f ds f' /\
    (r_dice r = ds \/ (r_dice r = [] /\ (is_calc n \/ (is_reroll_command n /\ hint_result r)))).
Proof.
  intros H. apply run_command_ok in H as (ds & H & Hd). exists ds. split; [assumption|].
  apply execute_reported in H. exact H.
Qed.

Lemma run_command_replay_dice gid n f r f' :
  run_command gid n f = (Ok r, f') -> ~ is_calc n -> ~ hint_result r -> forall rest,
  run_command gid n (FQueue (r_dice r ++ rest)) = (Ok r, FQueue rest).
Proof.
  intros H Hc Hh rest. apply run_command_ok in H as (ds & H & Hd).
  assert (r_dice r = ds) as ->.
  { destruct (execute_reported _ _ _ _ _ _ H) as [H1|[_ [H1|[_ H1]]]]; [exact H1|contradiction|contradiction]. }
  pose proof (run_replay _ _ _ _ ds rest H eq_refl) as Hr. cbn [es_log] in Hr.
  unfold run_command. rewrite Hr. reflexivity.
Qed.

Lemma run_command_frame gid n q r q' extra :
  run_command gid n (FQueue q) = (Ok r, FQueue q') ->
  run_command gid n (FQueue (q ++ extra)) = (Ok r, FQueue (q' ++ extra)).
Proof.
  intros H. apply run_command_ok in H as (ds & H & Hd).
  destruct (run_frame _ _ _ _ _ extra H) as (q'' & Hq & Hr). cbn in Hq. injection Hq as <-.
  unfold run_command. rewrite Hr. reflexivity.
Qed.
