From Verif Require Import ProofBase Dice SpecDice DiceProofs Comp CompProofs Command SpecCommand CommandProofs BCDice ErrErase.
Open Scope list_scope.
Open Scope Z_scope.

Lemma with_fresh_env_run_command gid n f :
  with_fresh_env (execute default_max_rerolls gid n) f = run_command gid n f.
Proof. reflexivity. Qed.

(** The dice-bot step does nothing. *)
Lemma execute_command_with_eq bot input f :
  execute_command_with bot input f =
  let '(command, secret) := check_secret input in
  match execute_basic_command bot command f with
  | (Ok r, f2) => (Ok (set_secret r secret), f2)
  | (Panic p, f2) => (Panic p, f2)
  | (Err _, f2) =>
      match execute_basic_command bot (first_part command) f2 with
      | (Ok r, f3) => (Ok (set_secret r secret), f3)
      | (Panic p, f3) => (Panic p, f3)
      | (Err e, f3) => (Err e, f3)
      end
  end.
Proof. unfold execute_command_with. destruct (check_secret input) as [c s]. reflexivity. Qed.

Lemma run_command_draws gid n f o f' : run_command gid n f = (o, f') -> exists ds, draws f ds f'.
Proof.
  unfold run_command. destruct (run (execute default_max_rerolls gid n) (EState f [])) as [o1 s'] eqn:E.
  intros H. injection H as -> <-. apply run_draws in E as (ds & ex & _ & Hd). eexists; exact Hd.
Qed.

(** The text of a syntax error *)
Definition syntax_error (filename c : string) : string := match parse_text filename c with Err m => m | _ => EmptyString end.
Lemma parse_text_eq filename c : parse_text filename c = match parse_command c with Ok n => Ok n | Err _ => Err (syntax_error filename c) | Panic p => Panic p end.
Proof.
  pose proof (parse_text_command filename c) as H. unfold syntax_error. destruct (parse_text filename c), (parse_command c); try (destruct H; fail); congruence.
Qed.
Lemma execute_basic_eq bot c f : execute_basic_command bot c f =
  match parse_command c with Ok n => with_fresh_env (execute default_max_rerolls (db_game_id bot) n) f | Err _ => (Err (syntax_error "input" c), f) | Panic p => (Panic p, f) end.
Proof. unfold execute_basic_command. rewrite parse_text_eq. destruct (parse_command c); reflexivity. Qed.

Lemma execute_basic_draws bot c f o f' : execute_basic_command bot c f = (o, f') -> exists ds, draws f ds f'.
Proof.
  rewrite !execute_basic_eq. destruct (parse_command c).
  - rewrite with_fresh_env_run_command. apply run_command_draws.
  - intros H. injection H as _ <-. exists []. constructor.
  - intros H. injection H as _ <-. exists []. constructor.
Qed.

Lemma execute_basic_reported bot c f r f' :
  execute_basic_command bot c f = (Ok r, f') -> exists ds, draws f ds f' /\ (r_dice r = ds \/ r_dice r = []).
Proof.
  rewrite !execute_basic_eq. destruct (parse_command c); try discriminate.
  rewrite with_fresh_env_run_command. intros H. apply run_command_reported in H as (ds & H1 & [H2|[H2 _]]); eauto.
Qed.

Lemma execute_command_draws bot input f o f' :
  execute_command_with bot input f = (o, f') -> exists ds, draws f ds f'.
Proof.
  rewrite execute_command_with_eq. destruct (check_secret input) as [c s].
  destruct (execute_basic_command bot c f) as [[r|e|p] f2] eqn:E1; intros H;
    destruct (execute_basic_draws _ _ _ _ _ E1) as (ds1 & Hd1).
  - injection H as _ <-. eauto.
  - destruct (execute_basic_command bot (first_part c) f2) as [o3 f3] eqn:E2.
    destruct (execute_basic_draws _ _ _ _ _ E2) as (ds2 & Hd2).
    exists (ds1 ++ ds2). eapply draws_app; [eassumption|].
    destruct o3; injection H as _ <-; assumption.
  - injection H as _ <-. eauto.
Qed.

(** The dice reported by a successful call are the last ones it took (or none are reported). *)
Lemma execute_command_reported bot input f r f' :
  execute_command_with bot input f = (Ok r, f') ->
  exists lost ds, draws f (lost ++ ds) f' /\ (r_dice r = ds \/ r_dice r = []).
Proof.
  rewrite execute_command_with_eq. destruct (check_secret input) as [c s].
  destruct (execute_basic_command bot c f) as [[r1|e|p] f2] eqn:E1; intros H; try discriminate.
  - injection H as <- <-. destruct (execute_basic_reported _ _ _ _ _ E1) as (ds & H1 & H2).
    exists [], ds. split; [assumption|]. exact H2.
  - destruct (execute_basic_draws _ _ _ _ _ E1) as (lost & Hl).
    destruct (execute_basic_command bot (first_part c) f2) as [[r3|e3|p3] f3] eqn:E2; try discriminate.
    injection H as <- <-. destruct (execute_basic_reported _ _ _ _ _ E2) as (ds & H1 & H2).
    exists lost, ds. split; [eapply draws_app; eassumption|]. exact H2.
Qed.

Lemma execute_command_legal bot input f o f' :
  execute_command_with bot input f = (o, f') -> good_feeder f ->
  good_feeder f' /\ forall r, o = Ok r -> Forall legal (r_dice r).
Proof.
  intros H Hg. split.
  - destruct (execute_command_draws _ _ _ _ _ H) as (ds & Hd). apply (draws_legal _ _ _ Hd Hg).
  - intros r ->. destruct (execute_command_reported _ _ _ _ _ H) as (lost & ds & Hd & [->| ->]); [|constructor].
    destruct (draws_legal _ _ _ Hd Hg) as [Hl _]. apply Forall_app in Hl as [_ Hl]. exact Hl.
Qed.

Lemma run_legal {A} (c : comp A) f o s' :
  run c (EState f []) = (o, s') -> good_feeder f -> Forall legal (es_log s').
Proof.
  intros H Hg. destruct (run_draws _ _ _ _ H) as (ds & ex & H1 & H2). cbn in H1, H2. rewrite H1.
  destruct (draws_legal _ _ _ H2 Hg) as [Hl _]. apply Forall_app in Hl as [Hl _]. exact Hl.
Qed.
