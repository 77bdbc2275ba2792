(** Total correctness of computations: what can come out, which panics are possible. *)
From Verif Require Import ProofBase Dice SpecDice DiceProofs Comp CompProofs SpecRoll.
Open Scope list_scope.
Open Scope Z_scope.

Definition alloc_panic : string := "makeslice: cap out of range".

Section Wp.
  Variable D : die -> Prop.        (* the dice that can be rolled *)
  Variable Q : string -> Prop.     (* the panics that are possible *)

  Fixpoint wp {A} (c : comp A) (P : A -> Prop) : Prop :=
    match c with
    | CRet a => P a
    | CErr _ => True
    | CPanic p => Q p
    | CRoll n s k =>
        (n <= max_alloc_16 \/ Q alloc_panic) /\ forall ds, rolled n s ds -> Forall D ds -> wp (k ds) P
    | CLog k => forall l, wp (k l) P
    end.

  Lemma wp_mono {A} (c : comp A) (P P' : A -> Prop) : wp c P -> (forall a, P a -> P' a) -> wp c P'.
  Proof.
    induction c as [a|e|p|n s k IH|k IH]; cbn [wp]; intros H HP; auto.
    - destruct H as (H1 & H2). split; [exact H1|]. intros. apply IH; auto.
  Qed.
  Lemma wp_bind {A B} (m : comp A) (f : A -> comp B) (P : B -> Prop) : wp m (fun a => wp (f a) P) -> wp (cbind m f) P.
  Proof.
    induction m as [a|e|p|n s k IH|k IH]; cbn [wp cbind]; intros H; auto.
    - destruct H as (H1 & H2). split; [exact H1|]. intros. apply IH; auto.
  Qed.
  Lemma wp_bind_with {A B} (m : comp A) (f : A -> comp B) (R : A -> Prop) (P : B -> Prop) :
    wp m R -> (forall a, R a -> wp (f a) P) -> wp (cbind m f) P.
  Proof. intros H1 H2. apply wp_bind. eapply wp_mono; [exact H1|exact H2]. Qed.
  Lemma wp_clift {A} (o : outcome A) (P : A -> Prop) : (forall a, o = Ok a -> P a) -> (forall p, o = Panic p -> Q p) -> wp (clift o) P.
  Proof. destruct o; cbn; auto. Qed.

  (** every die the feeder will ever give is in D *)
  Inductive feeds : feeder -> Prop :=
  | feeds_queue q : Forall D q -> feeds (FQueue q)
  | feeds_random intn k : (forall j s d f', feeder_next (FRandom intn j) s = (Ok d, f') -> D d) -> feeds (FRandom intn k).

  Lemma feeds_next f s d f' : feeds f -> feeder_next f s = (Ok d, f') -> D d /\ feeds f'.
  Proof.
    intros H E. destruct H as [q Hq|intn k Hr].
    - destruct q as [|x q]; cbn in E; [discriminate|]. injection E as <- <-. inversion Hq; subst. split; [assumption|constructor; assumption].
    - pose proof (Hr _ _ _ _ E). split; [assumption|]. cbn in E. destruct (s <=? 0); [discriminate|]. injection E as <- <-. constructor. exact Hr.
  Qed.
  Lemma feeds_draws f ds f' : feeds f -> draws f ds f' -> Forall D ds /\ feeds f'.
  Proof.
    intros Hf H. induction H as [f|f s d f1 ds f2 Hn H IH]; [split; [constructor|assumption]|].
    destruct (feeds_next _ _ _ _ Hf Hn) as (Hd & Hf1). destruct (IH Hf1). split; [constructor; assumption|assumption].
  Qed.

  Lemma wp_run {A} (c : comp A) (P : A -> Prop) : wp c P -> forall s o s', feeds (es_feeder s) -> run c s = (o, s') ->
    match o with Ok a => P a | Err _ => True | Panic p => Q p end.
  Proof.
    induction c as [a|e|p|n sd k IH|k IH]; cbn [wp]; intros H s o s' Hf Hr; cbn [run] in Hr;
      try (injection Hr as <- <-; exact H || exact I).
    - destruct H as (H1 & H2). destruct (roll_dice n sd (es_feeder s)) as [[ds|e|p] f'] eqn:E.
      + pose proof (roll_dice_ok _ _ _ _ _ E) as (K1 & K2 & K3 & K4 & K5). apply supplies_draws in K5.
        destruct (feeds_draws _ _ _ Hf K5) as (Hd & Hf').
        refine (IH ds (H2 ds _ Hd) _ _ _ _ Hr); [repeat split; assumption || lia|exact Hf'].
      + injection Hr as <- <-. exact I.
      + injection Hr as <- <-. destruct H1 as [H1|H1].
        * exfalso. exact (roll_dice_no_panic _ _ _ _ _ H1 E).
        * destruct (Z_le_gt_dec n max_alloc_16); [exfalso; eapply roll_dice_no_panic; eassumption|].
          unfold roll_dice in E. destruct (sd <? 1); [discriminate|]. destruct (n <? 1); [discriminate|].
          destruct (max_alloc_16 <? n) eqn:E2; [|lia]. injection E as <- _. exact H1.
    - exact (IH _ (H _) _ _ _ Hf Hr).
  Qed.
End Wp.

Lemma feeds_all f : feeds (fun _ => True) f.
Proof. destruct f; constructor; [apply Forall_forall; intros; exact I|intros; exact I]. Qed.
Lemma feeds_legal_random intn k : intn_contract intn -> feeds legal (FRandom intn k).
Proof.
  intros H. constructor. intros j s d f'. cbn. destruct (s <=? 0) eqn:E; [discriminate|]. intros [= <- <-].
  specialize (H j s ltac:(lia)). unfold legal. cbn [die_value die_sides].
  rewrite wrap64_id; [lia|]. unfold in_int64, min_int, max_int, two63 in *. lia.
Qed.
