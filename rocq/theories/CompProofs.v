(** General facts about evaluator computations. *)
From Verif Require Import ProofBase Dice SpecDice DiceProofs Comp.
Open Scope list_scope.
Open Scope Z_scope.

Lemma run_bind {A B} (m : comp A) (f : A -> comp B) : forall s,
  run (cbind m f) s =
  match run m s with
  | (Ok a, s') => run (f a) s'
  | (Err e, s') => (Err e, s')
  | (Panic p, s') => (Panic p, s')
  end.
Proof.
  induction m as [a|e|p|num sides k IH|k IH]; intros s; cbn [cbind run]; try reflexivity.
  - destruct (roll_dice num sides (es_feeder s)) as [[ds|e|p] f']; [apply IH|reflexivity|reflexivity].
  - apply IH.
Qed.

Lemma run_bind_ok {A B} (m : comp A) (f : A -> comp B) s b s' :
  run (cbind m f) s = (Ok b, s') -> exists a s1, run m s = (Ok a, s1) /\ run (f a) s1 = (Ok b, s').
Proof.
  rewrite run_bind. destruct (run m s) as [[a|e|p] s1]; intros H; try discriminate.
  exists a, s1. split; [reflexivity|assumption].
Qed.

Lemma run_clift {A} (o : outcome A) s : run (clift o) s = (o, s).
Proof. destruct o; reflexivity. Qed.

Lemma run_roll_ok {A} num sides (k : list die -> comp A) s b s' :
  run (CRoll num sides k) s = (Ok b, s') ->
  exists ds f1, roll_dice num sides (es_feeder s) = (Ok ds, f1) /\ run (k ds) (EState f1 (es_log s ++ ds)) = (Ok b, s').
Proof.
  cbn [run]. destruct (roll_dice num sides (es_feeder s)) as [[ds|e|p] f1]; intros H; try discriminate.
  exists ds, f1. split; [reflexivity|assumption].
Qed.

(** The recorded dice of a successful run are those taken from the feeder. *)
Lemma run_ok_draws {A} (c : comp A) : forall s a s',
  run c s = (Ok a, s') -> exists ds, es_log s' = es_log s ++ ds /\ draws (es_feeder s) ds (es_feeder s').
Proof.
  induction c as [a0|e|p|num sides k IH|k IH]; intros s a s' H; cbn [run] in H; try discriminate.
  - injection H as _ <-. exists []. rewrite app_nil_r. split; [reflexivity|constructor].
  - destruct (roll_dice num sides (es_feeder s)) as [[ds|e|p] f'] eqn:E; try discriminate.
    apply IH in H as (ds2 & H1 & H2). cbn [es_log es_feeder] in *.
    exists (ds ++ ds2). rewrite app_assoc. split; [assumption|].
    apply roll_dice_ok in E as (_ & _ & _ & _ & E). apply supplies_draws in E.
    eapply draws_app; eassumption.
  - eapply IH; eassumption.
Qed.

(** Whatever the outcome, what was recorded is an initial part of what was taken. *)
Lemma run_draws {A} (c : comp A) : forall s o s',
  run c s = (o, s') ->
  exists ds extra, es_log s' = es_log s ++ ds /\ draws (es_feeder s) (ds ++ extra) (es_feeder s').
Proof.
  induction c as [a0|e|p|num sides k IH|k IH]; intros s o s' H; cbn [run] in H.
  1-3: injection H as _ <-; exists [], []; rewrite app_nil_r; split; [reflexivity|constructor].
  - destruct (roll_dice num sides (es_feeder s)) as [[ds|e|p] f'] eqn:E.
    + apply IH in H as (ds2 & ex & H1 & H2). cbn [es_log es_feeder] in *.
      exists (ds ++ ds2), ex. rewrite app_assoc. split; [assumption|].
      apply roll_dice_ok in E as (_ & _ & _ & _ & E). apply supplies_draws in E.
      rewrite <- app_assoc. eapply draws_app; eassumption.
    + injection H as _ <-. cbn [es_log es_feeder]. destruct (roll_dice_draws _ _ _ _ _ E) as (ds & Hd).
      exists [], ds. rewrite app_nil_r. split; [reflexivity|assumption].
    + injection H as _ <-. cbn [es_log es_feeder]. destruct (roll_dice_draws _ _ _ _ _ E) as (ds & Hd).
      exists [], ds. rewrite app_nil_r. split; [reflexivity|assumption].
  - eapply IH; eassumption.
Qed.

(** Replaying the recorded dice from a queue. *)
Lemma run_replay {A} (c : comp A) : forall s a s' ds rest,
  run c s = (Ok a, s') -> es_log s' = es_log s ++ ds ->
  run c (EState (FQueue (ds ++ rest)) (es_log s)) = (Ok a, EState (FQueue rest) (es_log s')).
Proof.
  induction c as [a0|e|p|num sides k IH|k IH]; intros s a s' ds rest H Hl; cbn [run] in *; try discriminate.
  - injection H as <- <-. rewrite <- (app_nil_r (es_log s)) in Hl at 1. apply app_inv_head in Hl. subst ds. reflexivity.
  - destruct (roll_dice num sides (es_feeder s)) as [[ds1|e|p] f'] eqn:E; try discriminate.
    destruct (run_ok_draws _ _ _ _ H) as (ds2 & H1 & _). cbn [es_log] in H1.
    assert (ds = ds1 ++ ds2) as ->.
    { rewrite Hl in H1. rewrite <- app_assoc in H1. apply app_inv_head in H1. assumption. }
    cbn [es_feeder es_log]. rewrite <- app_assoc, (roll_dice_replay _ _ _ _ _ (ds2 ++ rest) E).
    apply (IH ds1 _ _ _ ds2 rest H H1).
  - cbn [es_log]. apply (IH (es_log s) _ _ _ ds rest H Hl).
Qed.

(** Extra dice behind those consumed change nothing. *)
Lemma run_frame {A} (c : comp A) q l a s' extra :
  run c (EState (FQueue q) l) = (Ok a, s') ->
  exists q', es_feeder s' = FQueue q' /\
    run c (EState (FQueue (q ++ extra)) l) = (Ok a, EState (FQueue (q' ++ extra)) (es_log s')).
Proof.
  intros H. destruct (run_ok_draws _ _ _ _ H) as (ds & H1 & H2). cbn [es_log es_feeder] in *.
  apply draws_queue in H2 as (q' & H2 & ->). exists q'. split; [assumption|].
  rewrite <- app_assoc. apply (run_replay c _ _ _ ds (q' ++ extra) H H1).
Qed.

(** Success with an initial part of a queue is the only way to succeed with the queue when that part suffices: determinism is
    immediate since [run] is a function. *)

(** Computations that never roll *)
Fixpoint norolls {A} (c : comp A) : Prop :=
  match c with
  | CRet _ | CErr _ | CPanic _ => True
  | CRoll _ _ _ => False
  | CLog k => forall l, norolls (k l)
  end.
Lemma norolls_run {A} (c : comp A) : forall s o s', norolls c -> run c s = (o, s') -> s' = s.
Proof.
  induction c as [a0|e|p|num sides k IH|k IH]; intros s o s' Hn H; cbn in *; try (injection H as _ <-; reflexivity).
  - contradiction.
  - eapply IH; [apply Hn|eassumption].
Qed.

Lemma estate_eta s : EState (es_feeder s) (es_log s) = s.
Proof. destruct s; reflexivity. Qed.

Lemma cbind_ret {A B} (a : A) (f : A -> comp B) : cbind (CRet a) f = f a.
Proof. reflexivity. Qed.
Lemma cbind_clift {A B} (o : outcome A) (f : A -> comp B) s :
  run (cbind (clift o) f) s = match o with Ok a => run (f a) s | Err e => (Err e, s) | Panic p => (Panic p, s) end.
Proof. destruct o; reflexivity. Qed.

(** Case analysis on a successful run of a sequence *)
Ltac inv_run H :=
  match type of H with
  | run (cbind _ _) _ = (Ok _, _) =>
      let a := fresh "a" in let s := fresh "s" in let H1 := fresh "R" in let H2 := fresh "R" in
      apply run_bind_ok in H as (a & s & H1 & H2)
  | run (CRoll _ _ _) _ = (Ok _, _) =>
      let ds := fresh "ds" in let f := fresh "f" in let H1 := fresh "R" in let H2 := fresh "R" in
      apply run_roll_ok in H as (ds & f & H1 & H2)
  end.
Tactic Notation "bok" hyp(H) simple_intropattern(a) ident(s) ident(H1) ident(H2) :=
  apply run_bind_ok in H as (a & s & H1 & H2).
