(** The program with a real source of random numbers behaves like the program with some oracle that keeps Intn's contract. *)
From Verif Require Import Grammar ProofBase Dice SpecDice DiceProofs Comp CompProofs Command CommandProofs BCDice BCDiceProofs SpecFair SpecRandom Random Prop_fair RandomProofs.
Open Scope list_scope.
Open Scope Z_scope.

(** The answers of the source: bound and number *)
Definition asked := (Z * Z)%type.
Definition proper (q : asked) : Prop := 1 <= fst q <= max_int /\ 0 <= snd q < fst q.
Definition repeats (intn : nat -> Z -> Z) (k : nat) (qs : list asked) : Prop := forall i q, nth_error qs i = Some q -> intn (k + i)%nat (fst q) = snd q.
Lemma repeats_app intn k a b : repeats intn k (a ++ b) -> repeats intn k a /\ repeats intn (k + length a) b.
Proof.
  intros H. split; intros i q Hi.
  - apply H. rewrite nth_error_app1; [exact Hi|]. apply nth_error_Some. rewrite Hi. discriminate.
  - rewrite <- Nat.add_assoc. apply H. rewrite nth_error_app2 by lia. replace (length a + i - length a)%nat with i by lia. exact Hi.
Qed.
Definition oracle (qs : list asked) (i : nat) (n : Z) : Z := match nth_error qs i with Some (n', v) => if n =? n' then v else 0 | None => 0 end.
Lemma oracle_contract qs : Forall proper qs -> intn_contract (oracle qs).
Proof.
  intros H k n Hn. unfold oracle. destruct (nth_error qs k) as [[n' v]|] eqn:E; [|unfold max_int, two63; lia]. rewrite Forall_forall in H. destruct (H _ (nth_error_In _ _ E)) as (H1 & H2). cbn in H1, H2.
  destruct (n =? n') eqn:En; [|unfold max_int, two63; lia]. apply Z.eqb_eq in En. subst n'. lia.
Qed.
Lemma oracle_repeats qs : repeats (oracle qs) 0 qs.
Proof. intros i [n v] Hi. unfold oracle. cbn [Nat.add]. rewrite Hi. cbn [fst snd]. rewrite Z.eqb_refl. reflexivity. Qed.

Section Refine.
  Context {S : Type}.
  Variable int63 : S -> Z * S.
  Hypothesis Hc : int63_contract int63.
  Variable tries : nat.

  Lemma next_refine s sides o s' : rand_next int63 tries s sides = Some (o, s') -> exists qs, Forall proper qs /\
    forall intn k, repeats intn k qs -> feeder_next (FRandom intn k) sides = (o, FRandom intn (k + length qs)).
  Proof.
    unfold rand_next. destruct (sides <=? 0) eqn:E0.
    - intros [= <- <-]. exists []. split; [constructor|]. intros intn k _. cbn [feeder_next length]. rewrite E0, Nat.add_0_r. reflexivity.
    - destruct (max_int <? sides) eqn:E1; [discriminate|]. destruct (rand_intn int63 tries sides s) as [[v s1]|] eqn:E; [|discriminate]. intros [= <- <-].
      exists [(sides, v)]. assert (1 <= sides <= max_int) as Hs by lia. split; [constructor; [|constructor]; split; [exact Hs|]; cbn [fst snd]; eapply intn_range; eassumption|].
      intros intn k Hr. cbn [feeder_next length]. rewrite E0. specialize (Hr 0%nat _ eq_refl). cbn [fst snd] in Hr. rewrite Nat.add_0_r in Hr. rewrite Hr. repeat f_equal. lia.
  Qed.
  Lemma loop_refine n num sides : forall acc s o s', rand_roll_loop int63 tries n num sides acc s = Some (o, s') -> exists qs, Forall proper qs /\
    forall intn k, repeats intn k qs -> roll_loop n num sides acc (FRandom intn k) = (o, FRandom intn (k + length qs)).
  Proof.
    induction n as [|n IH]; intros acc s o s' H; cbn [rand_roll_loop] in H.
    - injection H as <- <-. exists []. split; [constructor|]. intros intn k _. cbn. rewrite Nat.add_0_r. reflexivity.
    - destruct (rand_next int63 tries s sides) as [[o1 s1]|] eqn:E; [|discriminate]. destruct (next_refine _ _ _ _ E) as (qs & Hq & Hr). destruct o1 as [d|e|p].
      + destruct (die_sides d =? sides) eqn:Ed.
        * destruct (IH _ _ _ _ H) as (qs2 & Hq2 & Hr2). exists (qs ++ qs2). split; [apply Forall_app; auto|]. intros intn k Ha. apply repeats_app in Ha as (A1 & A2).
          cbn [roll_loop]. rewrite (Hr _ _ A1), Ed, (Hr2 _ _ A2), app_length, Nat.add_assoc. reflexivity.
        * injection H as <- <-. exists qs. split; [exact Hq|]. intros intn k Ha. cbn [roll_loop]. rewrite (Hr _ _ Ha), Ed. reflexivity.
      + injection H as <- <-. exists qs. split; [exact Hq|]. intros intn k Ha. cbn [roll_loop]. rewrite (Hr _ _ Ha). reflexivity.
      + injection H as <- <-. exists qs. split; [exact Hq|]. intros intn k Ha. cbn [roll_loop]. rewrite (Hr _ _ Ha). reflexivity.
  Qed.
  Lemma roll_refine num sides s o s' : rand_roll_dice int63 tries num sides s = Some (o, s') -> exists qs, Forall proper qs /\
    forall intn k, repeats intn k qs -> roll_dice num sides (FRandom intn k) = (o, FRandom intn (k + length qs)).
  Proof.
    unfold rand_roll_dice, roll_dice. destruct (sides <? 1); [|destruct (num <? 1); [|destruct (max_alloc_16 <? num)]].
    4: apply loop_refine.
    all: intros [= <- <-]; exists []; split; [constructor|]; intros intn k _; cbn [length]; rewrite Nat.add_0_r; reflexivity.
  Qed.
  Lemma run_refine {A} (c : comp A) : forall s log o s', rand_run int63 tries c s log = Some (o, s') -> exists qs, Forall proper qs /\
    forall intn k, repeats intn k qs -> exists log', run c (EState (FRandom intn k) log) = (o, EState (FRandom intn (k + length qs)) log').
  Proof.
    induction c as [a|e|p|num sides kk IH|kk IH]; intros s log o s' H; cbn [rand_run] in H.
    1-3: injection H as <- <-; exists []; split; [constructor|]; intros intn k _; exists log; cbn; rewrite Nat.add_0_r; reflexivity.
    - destruct (rand_roll_dice int63 tries num sides s) as [[o1 s1]|] eqn:E; [|discriminate]. destruct (roll_refine _ _ _ _ _ E) as (qs & Hq & Hr). destruct o1 as [ds|e|p].
      + destruct (IH _ _ _ _ _ H) as (qs2 & Hq2 & Hr2). exists (qs ++ qs2). split; [apply Forall_app; auto|]. intros intn k Ha. apply repeats_app in Ha as (A1 & A2).
        destruct (Hr2 _ _ A2) as (log' & Hl). exists log'. cbn [run es_feeder es_log]. rewrite (Hr _ _ A1), Hl, app_length, Nat.add_assoc. reflexivity.
      + injection H as <- <-. exists qs. split; [exact Hq|]. intros intn k Ha. exists log. cbn [run es_feeder es_log]. rewrite (Hr _ _ Ha). reflexivity.
      + injection H as <- <-. exists qs. split; [exact Hq|]. intros intn k Ha. exists log. cbn [run es_feeder es_log]. rewrite (Hr _ _ Ha). reflexivity.
    - destruct (IH _ _ _ _ _ H) as (qs & Hq & Hr). exists qs. split; [exact Hq|]. intros intn k Ha. cbn [run es_log]. apply Hr. exact Ha.
  Qed.
  Lemma fresh_refine {A} (c : comp A) s o s' : rand_run int63 tries c s [] = Some (o, s') -> exists qs, Forall proper qs /\
    forall intn k, repeats intn k qs -> with_fresh_env c (FRandom intn k) = (o, FRandom intn (k + length qs)).
  Proof.
    intros H. destruct (run_refine _ _ _ _ _ H) as (qs & Hq & Hr). exists qs. split; [exact Hq|]. intros intn k Ha. destruct (Hr _ _ Ha) as (log' & Hl). unfold with_fresh_env. rewrite Hl. reflexivity.
  Qed.
  Lemma basic_refine bot c s o s' : rand_basic_command int63 tries bot c s = Some (o, s') -> exists qs, Forall proper qs /\
    forall intn k, repeats intn k qs -> execute_basic_command bot c (FRandom intn k) = (o, FRandom intn (k + length qs)).
  Proof.
    unfold rand_basic_command, execute_basic_command. destruct (parse_text "input" c) as [n|e|p]; [apply fresh_refine| |].
    all: intros [= <- <-]; exists []; split; [constructor|]; intros intn k _; cbn [length]; rewrite Nat.add_0_r; reflexivity.
  Qed.
  Lemma execute_refine bot input s o s' : rand_execute int63 tries bot input s = Some (o, s') -> exists qs, Forall proper qs /\
    forall intn k, repeats intn k qs -> execute_command_with bot input (FRandom intn k) = (o, FRandom intn (k + length qs)).
  Proof.
    unfold rand_execute, execute_command_with. destruct (check_secret input) as [command secret]. unfold dicebot_execute. cbn [rand_run]. unfold execute_dicebot_command, dicebot_execute, with_fresh_env. cbn [run es_feeder].
    destruct (rand_basic_command int63 tries bot command s) as [[o1 s1]|] eqn:E1; [|discriminate]. destruct (basic_refine _ _ _ _ _ E1) as (q1 & P1 & R1). destruct o1 as [r|e|p].
    - intros [= <- <-]. exists q1. split; [exact P1|]. intros intn k Ha. rewrite (R1 _ _ Ha). reflexivity.
    - destruct (rand_basic_command int63 tries bot (first_part command) s1) as [[o2 s2]|] eqn:E2; [|discriminate]. destruct (basic_refine _ _ _ _ _ E2) as (q2 & P2 & R2).
      intros H. exists (q1 ++ q2). split; [apply Forall_app; auto|]. intros intn k Ha. apply repeats_app in Ha as (A1 & A2). rewrite (R1 _ _ A1), (R2 _ _ A2), app_length, Nat.add_assoc.
      destruct o2; injection H as <- <-; reflexivity.
    - intros [= <- <-]. exists q1. split; [exact P1|]. intros intn k Ha. rewrite (R1 _ _ Ha). reflexivity.
  Qed.
End Refine.
