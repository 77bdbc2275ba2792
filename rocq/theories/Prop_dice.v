(** Properties C01-C08: dice, feeders, what a command takes and reports. *)
From Verif Require Import ProofBase Dice SpecDice DiceProofs Comp CompProofs Command SpecCommand CommandProofs
  BCDice BCDiceProofs.
Open Scope list_scope.
Open Scope Z_scope.

(** C01: a successful RollDice returns exactly [num] dice with the requested sides, in the order supplied by the feeder. *)
Theorem C01_roll_exact num sides f ds f' :
  roll_dice num sides f = (Ok ds, f') ->
  Z.of_nat (length ds) = num /\ Forall (fun d => die_sides d = sides) ds /\ supplies sides f ds f'.
Proof. intros H. destruct (roll_dice_ok _ _ _ _ _ H) as (H1 & _ & _ & H2 & H3). auto. Qed.
Print Assumptions C01_roll_exact.

(** C01, queue: it succeeds exactly when the request is valid and the first [num] queued dice have the right sides; it
    then removes exactly these from the front. *)
Theorem C01_roll_queue num sides q ds f' :
  roll_dice num sides (FQueue q) = (Ok ds, f') <->
  1 <= num <= max_alloc_16 /\ 1 <= sides /\ Z.of_nat (length ds) = num /\
  Forall (fun d => die_sides d = sides) ds /\
  exists q', f' = FQueue q' /\ q = ds ++ q'.
Proof. exact (roll_dice_queue_iff num sides q ds f'). Qed.
Print Assumptions C01_roll_queue.

(** C01: a failing call on a queue is an error (no dice returned), except that a count beyond the allocation limit panics; what
    is left in the queue is what was there behind the dice looked at. *)
Theorem C01_roll_queue_failure num sides q :
  num <= max_alloc_16 ->
  ~ (1 <= num /\ 1 <= sides /\ num <= Z.of_nat (length q) /\
     Forall (fun d => die_sides d = sides) (firstn (Z.to_nat num) q)) ->
  exists e seen q', roll_dice num sides (FQueue q) = (Err e, FQueue q') /\ q = seen ++ q'.
Proof.
  intros Hn Hbad. destruct (roll_dice num sides (FQueue q)) as [[ds|e|p] f'] eqn:E.
  - exfalso. apply Hbad. apply roll_dice_queue_iff in E as (H1 & H2 & H3 & H4 & q' & -> & ->).
    rewrite app_length. repeat split; try lia.
    replace (Z.to_nat num) with (length ds) by lia.
    rewrite firstn_app, Nat.sub_diag, firstn_all. cbn. rewrite app_nil_r. assumption.
  - destruct (roll_dice_draws _ _ _ _ _ E) as (seen & Hd). apply draws_queue in Hd as (q' & -> & Hq).
    exists e, seen, q'. split; [reflexivity|assumption].
  - exfalso. exact (roll_dice_no_panic _ _ _ _ _ Hn E).
Qed.
Print Assumptions C01_roll_queue_failure.

(** C01: which error it is, and what is left in the queue. *)
Lemma roll_call_app num sides rest : (roll_call num sides ++ rest = "RollDice(num: " ++ itoa num ++ ", sides: " ++ itoa sides ++ ")" ++ rest)%string.
Proof. unfold roll_call. assert (forall a b c : string, ((a ++ b) ++ c = a ++ b ++ c)%string) as A by (induction a as [|x a IH]; intros b c; cbn; [reflexivity|rewrite IH; reflexivity]). rewrite !A. reflexivity. Qed.
Lemma roll_loop_fails num sides : 1 <= sides -> forall n acc q e q', roll_loop n num sides acc (FQueue q) = (Err e, FQueue q') ->
  (exists good d, (length good < n)%nat /\ q = good ++ d :: q' /\ Forall (fun d => die_sides d = sides) good /\ die_sides d <> sides /\
    e = (roll_call num sides ++ " -> " ++ itoa (die_value d) ++ "/" ++ itoa (die_sides d) ++ ": ダイスの面数が指定と一致しません")%string) \/
  ((length q < n)%nat /\ Forall (fun d => die_sides d = sides) q /\ e = "取り出せるダイスがありません"%string /\ q' = []).
Proof.
  intros Hs. induction n as [|n IH]; intros acc q e q' H; [discriminate H|]. cbn [roll_loop] in H. destruct q as [|d q]; cbn [feeder_next] in H.
  - injection H as <- <-. right. cbn. repeat split; [lia|constructor].
  - destruct (die_sides d =? sides) eqn:E.
    + apply Z.eqb_eq in E. destruct (IH _ _ _ _ H) as [(good & x & H1 & -> & H2 & H3 & H4)|(H1 & H2 & H3 & H4)].
      * left. exists (d :: good), x. cbn. repeat split; auto; lia.
      * right. cbn. repeat split; auto; lia.
    + apply Z.eqb_neq in E. injection H as <- <-. left. exists [], d. rewrite roll_call_app. cbn [length]. repeat split; auto; lia.
Qed.
Theorem C01_roll_errors num sides q e q' : num <= max_alloc_16 ->
  roll_dice num sides (FQueue q) = (Err e, FQueue q') <-> roll_fails num sides q e q'.
Proof.
  intros Hm. assert (forall e q', roll_dice num sides (FQueue q) = (Err e, FQueue q') -> roll_fails num sides q e q') as Hsound.
  { clear e q'. intros e q'. unfold roll_dice. destruct (Z.ltb_spec sides 1) as [H1|H1].
    - intros H. injection H as <- <-. match goal with |- roll_fails _ _ _ ?e _ => replace e with (roll_call num sides ++ ": ダイスの面数が少なすぎます")%string by (rewrite roll_call_app; reflexivity) end. apply few_sides, H1.
    - destruct (Z.ltb_spec num 1) as [H2|H2].
      + intros H. injection H as <- <-. match goal with |- roll_fails _ _ _ ?e _ => replace e with (roll_call num sides ++ ": 振るダイス数が少なすぎます")%string by (rewrite roll_call_app; reflexivity) end. apply few_dice; assumption.
      + destruct (Z.ltb_spec max_alloc_16 num) as [H3|H3]; [lia|]. intros H.
        destruct (roll_loop_fails num sides H1 _ _ _ _ _ H) as [(good & d & G1 & G2 & G3 & G4 & ->)|(G1 & G2 & -> & ->)].
        * eapply wrong_die; eauto; lia.
        * apply queue_short; auto; lia. }
  split; [apply Hsound|]. intros H.
  assert (forall e1 q1 e2 q2, roll_fails num sides q e1 q1 -> roll_fails num sides q e2 q2 -> e1 = e2 /\ q1 = q2) as Hdet.
  { assert (forall (good good' : list die) d d' l l', good ++ d :: l = good' ++ d' :: l' -> Forall (fun d => die_sides d = sides) good -> Forall (fun d => die_sides d = sides) good' -> die_sides d <> sides -> die_sides d' <> sides -> d = d' /\ l = l') as Hfirst.
    { induction good as [|x good IH]; intros [|y good'] d d' l l' E F1 F2 N1 N2; cbn in E; injection E as -> E; [auto|inversion F2; subst; contradiction|inversion F1; subst; contradiction|].
      inversion F1; inversion F2; subst. eapply IH; eauto. }
    assert (forall (good : list die) d l, Forall (fun d => die_sides d = sides) (good ++ d :: l) -> die_sides d = sides) as Hall.
    { intros good d l F. apply Forall_app in F as (_ & F). inversion F; assumption. }
    intros e1 q1 e2 q2 H1 H2. destruct H1, H2; try lia; auto; subst.
    - match goal with E : ?g ++ _ = ?g' ++ _ |- _ => destruct (Hfirst _ _ _ _ _ _ E) as (-> & ->); auto end.
    - exfalso. match goal with F : Forall _ (_ ++ _) |- _ => apply Hall in F; contradiction end.
    - exfalso. match goal with F : Forall _ (_ ++ _) |- _ => apply Hall in F; contradiction end. }
  destruct (roll_dice num sides (FQueue q)) as ([ds|e1|p], f') eqn:E.
  - exfalso. apply roll_dice_queue_iff in E as (K1 & K2 & K3 & K4 & q2 & -> & ->). destruct H as [H|H1 H|good d l H1 H2 H3 H4 H5|H1 H2 H3]; try lia.
    + assert (exists ds2, ds = good ++ d :: ds2) as (ds2 & ->).
      { clear - H2 H3 K3. rewrite <- K3 in H2. clear K3. revert ds H2 H3. induction good as [|x good IH]; intros [|y ds] H2 H3; cbn in *; try lia; injection H3 as <- H3; [exists ds; reflexivity|].
        destruct (IH ds ltac:(lia) H3) as (ds2 & ->). exists ds2. reflexivity. }
      apply Forall_app in K4 as (_ & K4). inversion K4; contradiction.
    + rewrite app_length in H2. lia.
  - assert (exists q2, f' = FQueue q2) as (q2 & ->).
    { destruct (roll_dice_draws _ _ _ _ _ E) as (ds & D). apply draws_queue in D as (q2 & -> & _). eauto. }
    destruct (Hdet _ _ _ _ H (Hsound _ _ eq_refl)) as (<- & <-). reflexivity.
  - exfalso. revert E. unfold roll_dice. destruct (Z.ltb_spec sides 1); [discriminate|]. destruct (Z.ltb_spec num 1); [discriminate|]. destruct (Z.ltb_spec max_alloc_16 num); [lia|].
    generalize (@nil die) at 1. generalize (Z.to_nat num). clear. intros n. revert q. induction n as [|n IH]; intros q acc; [discriminate|]. cbn [roll_loop]. destruct q as [|d q]; cbn [feeder_next]; [discriminate|].
    destruct (die_sides d =? sides); [apply IH|discriminate].
Qed.
Print Assumptions C01_roll_errors.
Example C01_errors_example :
  fst (roll_dice 3 6 (FQueue [Die 2 6; Die 3 10; Die 4 6])) = Err "RollDice(num: 3, sides: 6) -> 3/10: ダイスの面数が指定と一致しません"%string /\
  roll_fails 3 6 [Die 2 6; Die 3 10; Die 4 6] "RollDice(num: 3, sides: 6) -> 3/10: ダイスの面数が指定と一致しません" [Die 4 6] /\
  roll_fails 2 6 [Die 2 6] "取り出せるダイスがありません" [].
Proof.
  split; [vm_compute; reflexivity|]. split; [apply (wrong_die 3 6 [Die 2 6; Die 3 10; Die 4 6] [Die 2 6] (Die 3 10) [Die 4 6])|apply queue_short]; cbn; auto; try lia; discriminate.
Qed.
Example C01_example :
  roll_dice 2 6 (FQueue [Die 3 6; Die 5 6; Die 1 10]) = (Ok [Die 3 6; Die 5 6], FQueue [Die 1 10]) /\
  (exists e, roll_dice 3 6 (FQueue [Die 3 6; Die 5 6; Die 1 10]) = (Err e, FQueue [])).
Proof. split; [reflexivity|]. eexists. reflexivity. Qed.

(** C02 *)
Theorem C02_invalid_request num sides f :
  sides < 1 \/ num < 1 ->
  roll_dice num sides f =
    (Err ("RollDice(num: " ++ itoa num ++ ", sides: " ++ itoa sides ++ "): " ++
          (if (sides <? 1)%Z then "ダイスの面数が少なすぎます" else "振るダイス数が少なすぎます"))%string, f).
Proof.
  intros H. unfold roll_dice. destruct (sides <? 1) eqn:E; [reflexivity|].
  destruct (num <? 1) eqn:E2; [reflexivity|lia].
Qed.
Print Assumptions C02_invalid_request.
(** ... and nothing is recorded: evaluating such a roll leaves feeder and log alone. *)
Theorem C02_nothing_recorded A num sides (k : list die -> comp A) s :
  sides < 1 \/ num < 1 -> exists e, run (CRoll num sides k) s = (Err e, s).
Proof.
  intros H. cbn [run]. rewrite (C02_invalid_request _ _ _ H). rewrite estate_eta. eexists. reflexivity.
Qed.
Print Assumptions C02_nothing_recorded.
Example C02_example : exists e, roll_dice 0 0 (FQueue [Die 1 6]) = (Err e, FQueue [Die 1 6]).
Proof. eexists. reflexivity. Qed.

(** C03: any sequence of operations on a queue made by NewQueue behaves as on the first-in-first-out list. *)
Theorem C03_queue_fifo initial ops :
  outputs queue_step (new_queue initial) ops = outputs fifo_step (Fifo initial 0) ops.
Proof.
  unfold new_queue. rewrite queue_append_app. cbn [app].
  apply (queue_fifo_outputs ops (Fifo initial 0)). cbn. lia.
Qed.
Print Assumptions C03_queue_fifo.
Example C03_example :
  outputs queue_step (new_queue [Die 1 6]) [QPush (Die 2 6); QNext 100; QDice; QNext 6; QNext 6; QIsEmpty]
  = [OutNone; OutDie (Die 1 6); OutDice [Die 2 6]; OutDie (Die 2 6); OutError; OutBool true].
Proof. reflexivity. Qed.

(** C04: with a random generator honouring the contract of Intn, every die recorded during the execution of any command
    (successful or not) is legal, and so is every die of a result of ExecuteCommand. *)
Theorem C04_recorded_legal mr gid n intn k o s' :
  intn_contract intn -> run (execute mr gid n) (EState (FRandom intn k) []) = (o, s') -> Forall legal (es_log s').
Proof. intros Hc H. exact (run_legal _ _ _ _ H Hc). Qed.
Print Assumptions C04_recorded_legal.
Theorem C04_results_legal bot intn k input r b' :
  intn_contract intn -> execute_command (BCDice bot (FRandom intn k)) input = (Ok r, b') -> Forall legal (r_dice r).
Proof.
  unfold execute_command. cbn [bd_bot bd_feeder]. intros Hc H.
  destruct (execute_command_with bot input (FRandom intn k)) as [o f] eqn:E. injection H as -> <-.
  exact (proj2 (execute_command_legal _ _ _ _ _ E Hc) r eq_refl).
Qed.
Print Assumptions C04_results_legal.
Example C04_example :
  let intn := fun (k : nat) (n : Z) => if n <? 2 then 0 else Z.of_nat k mod 2 in
  intn_contract intn /\
  (match fst (execute_command (BCDice basic_bot (FRandom intn 0)) "2D6") with Ok r => r_dice r | _ => [] end)
  = [Die 1 6; Die 2 6].
Proof.
  cbv zeta. split.
  - intros k n Hn. unfold max_int, two63. destruct (n <? 2) eqn:E; lia.
  - vm_compute; reflexivity.
Qed.

(** C05: when command.Execute succeeds, the dice of the result are exactly those taken from the feeder, in order --
    unless the command was a calculation or ended with a threshold hint, when no dice are reported. *)
Theorem C05_rolled_dice_exact gid n f r f' :
  run_command gid n f = (Ok r, f') ->
  exists ds, draws f ds f' /\
    (r_dice r = ds \/ (r_dice r = [] /\ (is_calc n \/ (is_reroll_command n /\ hint_result r)))).
Proof. exact (run_command_reported gid n f r f'). Qed.
Print Assumptions C05_rolled_dice_exact.
(** C05, any evaluation: at a point reached without error the log has grown by exactly the dice consumed. *)
Theorem C05_log_is_consumption A (c : comp A) s a s' :
  run c s = (Ok a, s') -> exists ds, es_log s' = es_log s ++ ds /\ draws (es_feeder s) ds (es_feeder s').
Proof. exact (run_ok_draws c s a s'). Qed.
Print Assumptions C05_log_is_consumption.
(** In the remaining case the report can indeed be incomplete: [1...3]R6 takes a die for its operand, shows a hint and reports no die. *)
Theorem C05_hint_refuted :
  exists n r, parse_command "[1...3]R6" = Ok n /\
    run_command "DiceBot" n (FQueue [Die 2 3]) = (Ok r, FQueue []) /\ r_dice r = [].
Proof. eexists. eexists. vconj. Qed.
Print Assumptions C05_hint_refuted.
Example C05_example :
  exists n r, parse_command "2D6+1" = Ok n /\
    run_command "DiceBot" n (FQueue [Die 3 6; Die 5 6; Die 1 10]) = (Ok r, FQueue [Die 1 10]) /\
    r_dice r = [Die 3 6; Die 5 6].
Proof. eexists. eexists. vconj. Qed.

(** C06 (refuted): ExecuteCommand can succeed having taken two dice while reporting one. *)
Theorem C06_all_dice_reported_refuted :
  exists input q r,
    execute_command (new_bcdice (FQueue q)) input = (Ok r, BCDice basic_bot (FQueue [])) /\
    q = [Die 1 6; Die 2 6] /\ r_dice r = [Die 2 6].
Proof. exists "1/(1D6-1)"%string, [Die 1 6; Die 2 6]. eexists. vconj. Qed.
Print Assumptions C06_all_dice_reported_refuted.
(** C07: replay. *)
Theorem C07_replay gid n f r f' rest :
  run_command gid n f = (Ok r, f') -> ~ is_calc n -> ~ hint_result r ->
  run_command gid n (FQueue (r_dice r ++ rest)) = (Ok r, FQueue rest).
Proof. intros H H1 H2. exact (run_command_replay_dice gid n f r f' H H1 H2 rest). Qed.
Print Assumptions C07_replay.
Example C07_example :
  exists n r, parse_command "2U6[5]" = Ok n /\ ~ is_calc n /\
    run_command "DiceBot" n (FQueue [Die 5 6; Die 2 6; Die 1 6; Die 6 6]) = (Ok r, FQueue [Die 6 6]) /\ ~ hint_result r /\
    run_command "DiceBot" n (FQueue (r_dice r)) = (Ok r, FQueue []).
Proof.
  eexists. eexists. split; [vm_compute; reflexivity|].
  split; [intros [e H]; discriminate|].
  split; [vm_compute; reflexivity|].
  split; [intros (s & msg & H & _); discriminate|].
  vm_compute; reflexivity.
Qed.

(** C08: dice behind those consumed do not matter. *)
Theorem C08_later_dice_irrelevant gid n q r q' extra :
  run_command gid n (FQueue q) = (Ok r, FQueue q') ->
  run_command gid n (FQueue (q ++ extra)) = (Ok r, FQueue (q' ++ extra)).
Proof. exact (run_command_frame gid n q r q' extra). Qed.
Print Assumptions C08_later_dice_irrelevant.
Example C08_example :
  exists n r, parse_command "2B6" = Ok n /\ run_command "DiceBot" n (FQueue [Die 5 6; Die 2 6]) = (Ok r, FQueue []).
Proof. eexists. eexists. vconj. Qed.
