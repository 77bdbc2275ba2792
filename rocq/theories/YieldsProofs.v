(** Successful runs in terms of the dice taken. *)
From Verif Require Import ProofBase Dice SpecDice DiceProofs Comp CompProofs Command SpecSyntax SpecRoll.
Open Scope list_scope.
Open Scope Z_scope.

(** [yields l c ds a]: starting with log [l], c succeeds with [a] taking exactly [ds] *)
Fixpoint yields {A} (l : list die) (c : comp A) (ds : list die) (a : A) : Prop :=
  match c with
  | CRet x => ds = [] /\ a = x
  | CErr _ | CPanic _ => False
  | CRoll n s k => exists d1 d2, ds = d1 ++ d2 /\ rolled n s d1 /\ yields (l ++ d1) (k d1) d2 a
  | CLog k => yields l (k l) ds a
  end.

Lemma rolled_queue n s ds q : rolled n s ds -> roll_dice n s (FQueue (ds ++ q)) = (Ok ds, FQueue q).
Proof.
  intros (H1 & H2 & H3 & H4). apply roll_dice_queue_iff. repeat split; try assumption; try lia.
  exists q. split; reflexivity.
Qed.

Lemma yields_run {A} (c : comp A) : forall l ds a, yields l c ds a ->
  forall q, run c (EState (FQueue (ds ++ q)) l) = (Ok a, EState (FQueue q) (l ++ ds)).
Proof.
  induction c as [x|e|p|n s k IH|k IH]; intros l ds a H q; cbn [yields] in H; try contradiction.
  - destruct H as (-> & ->). rewrite app_nil_r. reflexivity.
  - destruct H as (d1 & d2 & -> & Hr & Hy). cbn [run es_feeder es_log]. rewrite <- app_assoc, (rolled_queue _ _ _ _ Hr).
    rewrite (IH _ _ _ _ Hy), app_assoc. reflexivity.
  - cbn [run es_log]. apply IH. exact H.
Qed.
Lemma run_yields {A} (c : comp A) : forall l q a s',
  run c (EState (FQueue q) l) = (Ok a, s') ->
  exists ds q', q = ds ++ q' /\ s' = EState (FQueue q') (l ++ ds) /\ yields l c ds a.
Proof.
  induction c as [x|e|p|n s k IH|k IH]; intros l q a s' H; cbn [run es_feeder es_log] in H; try discriminate.
  - injection H as <- <-. exists [], q. rewrite app_nil_r. repeat split.
  - destruct (roll_dice n s (FQueue q)) as [[d1|e|p] f] eqn:E; try discriminate.
    apply roll_dice_queue_iff in E as (H1 & H2 & H3 & H4 & q1 & -> & ->).
    apply IH in H as (d2 & q' & -> & -> & Hy). exists (d1 ++ d2), q'. rewrite !app_assoc.
    split; [reflexivity|]. split; [reflexivity|]. cbn [yields]. exists d1, d2.
    split; [reflexivity|]. split; [repeat split; assumption || lia|assumption].
  - apply IH in H. exact H.
Qed.
Lemma yields_iff {A} (c : comp A) l ds a :
  yields l c ds a <-> forall q, run c (EState (FQueue (ds ++ q)) l) = (Ok a, EState (FQueue q) (l ++ ds)).
Proof.
  split; [apply yields_run|]. intros H. specialize (H []).
  apply run_yields in H as (ds' & q' & H1 & H2 & H3). injection H2 as <- H2. apply app_inv_head in H2. subst ds'. exact H3.
Qed.

Lemma yields_bind {A B} (m : comp A) (f : A -> comp B) : forall l ds b,
  yields l (cbind m f) ds b <->
  exists ds1 ds2 a, ds = ds1 ++ ds2 /\ yields l m ds1 a /\ yields (l ++ ds1) (f a) ds2 b.
Proof.
  induction m as [x|e|p|n s k IH|k IH]; intros l ds b; cbn [cbind yields].
  - split.
    + intros H. exists [], ds, x. rewrite app_nil_r. repeat split. exact H.
    + intros (d1 & d2 & a & -> & (-> & ->) & H). rewrite app_nil_r in H. exact H.
  - split; [contradiction|]. intros (? & ? & ? & ? & ? & ?). contradiction.
  - split; [contradiction|]. intros (? & ? & ? & ? & ? & ?). contradiction.
  - split.
    + intros (d1 & d2 & -> & Hr & H). apply IH in H as (d3 & d4 & a & -> & H1 & H2).
      exists (d1 ++ d3), d4, a. split; [apply app_assoc|]. split; [|rewrite app_assoc; exact H2].
      exists d1, d3. repeat split; try assumption; apply Hr.
    + intros (d1 & d2 & a & -> & (d3 & d4 & -> & Hr & H1) & H2). exists d3, (d4 ++ d2).
      split; [symmetry; apply app_assoc|]. split; [exact Hr|]. apply IH. exists d4, d2, a.
      split; [reflexivity|]. split; [exact H1|]. rewrite <- app_assoc. exact H2.
  - apply IH.
Qed.

Lemma yields_clift {A} l (o : outcome A) ds a : yields l (clift o) ds a <-> ds = [] /\ o = Ok a.
Proof.
  destruct o; cbn; split; try contradiction.
  - intros (-> & ->). split; reflexivity.
  - intros (-> & H). injection H as ->. split; reflexivity.
  - intros (_ & H). discriminate.
  - intros (_ & H). discriminate.
Qed.
(** sequencing after a pure computation *)
Lemma yields_ret_bind {A B} l (x : A) (f : A -> comp B) ds b : yields l (cbind (CRet x) f) ds b <-> yields l (f x) ds b.
Proof. reflexivity. Qed.
Lemma yields_clift_bind {A B} l (o : outcome A) (f : A -> comp B) ds b :
  yields l (cbind (clift o) f) ds b <-> exists a, o = Ok a /\ yields l (f a) ds b.
Proof.
  destruct o; cbn; split.
  - intros H. exists a. split; [reflexivity|exact H].
  - intros (a' & H & Hy). injection H as <-. exact Hy.
  - contradiction.
  - intros (? & H & _). discriminate.
  - contradiction.
  - intros (? & H & _). discriminate.
Qed.

(** any feeder: a success is explained by the dice taken *)
Lemma run_any_yields {A} (c : comp A) s a s' :
  run c s = (Ok a, s') ->
  exists ds, yields (es_log s) c ds a /\ es_log s' = es_log s ++ ds /\ draws (es_feeder s) ds (es_feeder s').
Proof.
  intros H. destruct (run_ok_draws _ _ _ _ H) as (ds & H1 & H2). exists ds. split; [|split; assumption].
  apply yields_iff. intros q. rewrite <- H1. apply (run_replay c s a s' ds q H H1).
Qed.

Lemma gives_yields gid n ds r : gives gid n ds r <-> yields [] (execute default_max_rerolls gid n) ds r.
Proof.
  unfold gives, run_command. split.
  - intros H. specialize (H []).
    destruct (run (execute default_max_rerolls gid n) (EState (FQueue (ds ++ [])) [])) as [o s] eqn:E. injection H as -> Hf.
    apply run_yields in E as (ds' & q' & H1 & -> & H2). cbn in Hf. injection Hf as ->. apply app_inv_tail in H1. subst ds'. exact H2.
  - intros H q. rewrite (yields_run _ _ _ _ H). reflexivity.
Qed.
Lemma run_command_gives gid n f r f' :
  run_command gid n f = (Ok r, f') -> exists ds, draws f ds f' /\ gives gid n ds r.
Proof.
  unfold run_command. destruct (run _ _) as [o s] eqn:E. intros H. injection H as -> <-.
  apply run_any_yields in E as (ds & H1 & H2 & H3). exists ds. split; [exact H3|]. apply gives_yields. exact H1.
Qed.
Lemma run_command_queue gid n q r f' :
  run_command gid n (FQueue q) = (Ok r, f') <-> exists ds q', q = ds ++ q' /\ f' = FQueue q' /\ gives gid n ds r.
Proof.
  split.
  - intros H. destruct (run_command_gives _ _ _ _ _ H) as (ds & H1 & H2). apply draws_queue in H1 as (q' & -> & ->).
    exists ds, q'. repeat split. exact H2.
  - intros (ds & q' & -> & -> & H). apply H.
Qed.
