(** Properties C06, C53, C57-C59: ExecuteCommand as a whole; recorded executions as test cases. *)
From Verif Require Import Grammar ProofBase SpecText Dice SpecDice DiceProofs Command SpecCommand BCDice BCDiceProofs TestCase SpecFiles FileProofs
  ParseSound ExecProofs Prop_files.
Open Scope list_scope.
Open Scope Z_scope.

(** Inputs short enough that the command, re-encoded after a secret marker, still fits into memory *)
Definition moderate (s : string) : Prop := Z.of_nat (String.length s) < 2 ^ 61.

(** * C06: the dice reported by a successful ExecuteCommand are exactly those its last attempt took, in order -- unless the result is a threshold hint,
    when none are reported.  Dice are lost only if the input (without its secret marker) is a command whose first execution fails, and then exactly
    the dice of that execution are. *)
Theorem C06_reported bot input f r f' :
  execute_command_with bot input f = (Ok r, f') ->
  exists lost mid ds, draws f lost mid /\ draws mid ds f' /\ (r_dice r = ds \/ r_dice r = [] /\ hint_result r) /\
    (lost = [] \/ exists n e, parse_command (fst (check_secret input)) = Ok n /\ run_command (db_game_id bot) n f = (Err e, mid)).
Proof. exact (execute_command_reported' bot input f r f'). Qed.
Print Assumptions C06_reported.
Example C06_reported_example : exists n r e, parse_command (fst (check_secret "1/(1D6-1)")) = Ok n /\
  run_command "DiceBot" n (FQueue [Die 1 6; Die 2 6]) = (Err e, FQueue [Die 2 6]) /\
  execute_command_with basic_bot "1/(1D6-1)" (FQueue [Die 1 6; Die 2 6]) = (Ok r, FQueue []) /\ r_dice r = [Die 2 6].
Proof. eexists. eexists. eexists. vconj. Qed.

(** * C59: ExecuteCommand executes one parsed command, once, or a second time if it failed -- both readings of the input never differ. *)
Theorem C59_same_command bot input : moderate input ->
  (exists e, forall f, execute_command_with bot input f = (Err e, f)) \/
  exists n, (parse_command (fst (check_secret input)) = Ok n \/ parse_command (first_part (fst (check_secret input))) = Ok n) /\
    forall f,
    let final (x : outcome result * feeder) : Prop :=
      match x with
      | (Ok r, f1) => execute_command_with bot input f = (Ok (Result (r_game_id r) (r_parts r) (r_dice r) (r_success r) (snd (check_secret input))), f1)
      | (Err _, f1) => exists e, execute_command_with bot input f = (Err e, f1)
      | (Panic p, f1) => execute_command_with bot input f = (Panic p, f1)
      end in
    match run_command (db_game_id bot) n f with
    | (Err e, f1) => final (Err e, f1) \/ final (run_command (db_game_id bot) n f1)
    | other => final other
    end.
Proof.
  intros Hl. destruct (exec_has_shape bot input Hl) as [e Hs|n Hw Hn Hs|n e Hn Hs|n Hn Hs].
  - left. exists e. exact Hs.
  - right. exists n. split; [right; exact Hn|]. intros f. rewrite Hs. destruct (run_command (db_game_id bot) n f) as [[r|e|p] f1]; cbn; [reflexivity| |reflexivity]. left. eauto.
  - right. exists n. split; [left; exact Hn|]. intros f. rewrite Hs. destruct (run_command (db_game_id bot) n f) as [[r|e0|p] f1]; cbn; [reflexivity| |reflexivity]. left. eauto.
  - right. exists n. split; [left; exact Hn|]. intros f. rewrite Hs. unfold run_retry. destruct (run_command (db_game_id bot) n f) as [[r|e|p] f1]; cbn; [reflexivity| |reflexivity].
    right. destruct (run_command (db_game_id bot) n f1) as [[r|e'|p] f2]; cbn; [reflexivity| |reflexivity]. eauto.
Qed.
Print Assumptions C59_same_command.
Example C59_example : moderate "2D6+1 comment" /\ exists n, parse_command (first_part (fst (check_secret "2D6+1 comment"))) = Ok n.
Proof. split; [vm_compute; reflexivity|]. eexists. vm_compute. reflexivity. Qed.

(** * C57: replay and locality of ExecuteCommand, dice lost by a failed attempt included. *)
(** If an execution with any feeder succeeds, then a queue of the dice it took, followed by any others, gives the identical result, and exactly the others are left. *)
Theorem C57_replay bot input f r f' : moderate input -> execute_command_with bot input f = (Ok r, f') ->
  exists lost ds, draws f (lost ++ ds) f' /\ (r_dice r = ds \/ r_dice r = [] /\ hint_result r) /\
    forall rest, execute_command_with bot input (FQueue (lost ++ ds ++ rest)) = (Ok r, FQueue rest).
Proof.
  intros Hl H. destruct (execute_command_replay bot input f r f' Hl H) as (ds & Hd & Hr). pose proof (Hr []) as H0. rewrite app_nil_r in H0.
  apply execute_command_reported' in H0 as (lost & mid & ds' & H1 & H2 & H3 & _). apply draws_queue in H1 as (q1 & -> & ->). apply draws_queue in H2 as (q2 & E & ->). injection E as <-.
  rewrite app_nil_r in *. exists lost, ds'. split; [exact Hd|]. split; [exact H3|]. intros rest. rewrite app_assoc. apply Hr.
Qed.
Print Assumptions C57_replay.
(** With a queue: dice that are left were not looked at, whatever the outcome (an error that used up the queue may be due to that). *)
Theorem C57_left_dice_irrelevant bot input q q' o : moderate input -> execute_command_with bot input (FQueue q) = (o, FQueue q') ->
  q' <> [] \/ (exists r, o = Ok r) ->
  exists t, q = t ++ q' /\ forall rest, execute_command_with bot input (FQueue (t ++ rest)) = (o, FQueue rest).
Proof.
  intros Hl H Hor. destruct (execute_command_queue_left _ _ _ _ _ H) as (t & q1 & E & ->). injection E as <-. exists t. split; [reflexivity|].
  exact (execute_command_local _ _ _ _ _ Hl H Hor).
Qed.
Print Assumptions C57_left_dice_irrelevant.
Example C57_example : moderate "1/(1D6-1)" /\ exists r,
  execute_command_with basic_bot "1/(1D6-1)" (FQueue [Die 1 6; Die 2 6; Die 4 10]) = (Ok r, FQueue [Die 4 10]) /\ r_dice r = [Die 2 6].
Proof. split; [vm_compute; reflexivity|]. eexists. vconj. Qed.

(** * C53: several commands, with changes of the game system in between, on one BCDice with one queue. *)
Inductive session_op := Input (text : string) | Game (id : string).
(** For each input: the dice bot in use, the input and its outcome *)
Fixpoint session (reg : registry) (b : bcdice) (ops : list session_op) : list (dicebot * string * outcome result) * bcdice :=
  match ops with
  | [] => ([], b)
  | Game id :: ops' => session reg (snd (set_dice_bot_in reg b id)) ops'
  | Input text :: ops' =>
      let '(o, b1) := execute_command b text in
      let '(l, b2) := session reg b1 ops' in ((bd_bot b, text, o) :: l, b2)
  end.
(** Each command takes its own consecutive segment of the queue, and its outcome, whatever it is, is the one that a new BCDice given exactly this segment would have.  The bot
    depends on the game selections only. *)
Fixpoint bot_after (reg : registry) (bot : dicebot) (ops : list session_op) : dicebot :=
  match ops with
  | [] => bot
  | Input _ :: ops' => bot_after reg bot ops'
  | Game id :: ops' => bot_after reg (match find_bot reg id with Ok b => b | _ => bot end) ops'
  end.
Theorem C53_isolated reg ops bot q entries b' : Forall (fun o => match o with Input t => moderate t | Game _ => True end) ops ->
  session reg (BCDice bot (FQueue q)) ops = (entries, b') ->
  exists segs q', b' = BCDice (bot_after reg bot ops) (FQueue q') /\ q = concat segs ++ q' /\
    Forall2 (fun entry seg => let '(used, text, o) := entry in
       execute_command (BCDice used (FQueue seg)) text = (o, BCDice used (FQueue []))) entries segs /\
    (forall pre text post, ops = pre ++ Input text :: post ->
       exists o, nth_error entries (length (filter (fun op => match op with Input _ => true | Game _ => false end) pre)) = Some (bot_after reg bot pre, text, o)).
Proof.
  revert bot q entries b'. induction ops as [|op ops IH]; intros bot q entries b' Hm H; cbn [session] in H.
  - injection H as <- <-. exists [], q. split; [reflexivity|]. split; [reflexivity|]. split; [constructor|]. intros pre text post E. destruct pre; discriminate E.
  - inversion Hm as [|? ? Ht Hm']. subst. destruct op as [text|id].
    + unfold execute_command in H. cbn [bd_bot bd_feeder] in H. destruct (execute_command_with bot text (FQueue q)) as [o f1] eqn:E.
      destruct (execute_command_queue_left _ _ _ _ _ E) as (t & q1 & -> & ->). destruct (session reg (BCDice bot (FQueue q1)) ops) as [l b2] eqn:E2. injection H as <- <-.
      destruct (IH _ _ _ _ Hm' E2) as (segs & q' & H1 & H2 & H3 & H4). exists (t :: segs), q'. cbn [bot_after concat]. split; [exact H1|]. split; [rewrite H2, app_assoc; reflexivity|]. split.
      * constructor; [|exact H3]. unfold execute_command. cbn [bd_bot bd_feeder]. rewrite <- (app_nil_r t).
        assert (execute_command_with bot text (FQueue (t ++ [])) = (o, FQueue [])) as ->; [|reflexivity].
        destruct q1 as [|d q1]; [exact E|]. apply (execute_command_local _ _ _ _ _ Ht E). left. discriminate.
      * intros pre tx post Ep. destruct pre as [|p pre]; cbn [app] in Ep.
        -- injection Ep as <- <-. exists o. reflexivity.
        -- injection Ep as <- ->. cbn [filter length nth_error bot_after]. exact (H4 pre tx post eq_refl).
    + assert (snd (set_dice_bot_in reg (BCDice bot (FQueue q)) id) = BCDice (match find_bot reg id with Ok b => b | _ => bot end) (FQueue q)) as Eb.
      { unfold set_dice_bot_in. destruct (find_bot reg id); reflexivity. }
      rewrite Eb in H. destruct (IH _ _ _ _ Hm' H) as (segs & q' & H1 & H2 & H3 & H4). exists segs, q'. cbn [bot_after]. split; [exact H1|]. split; [exact H2|]. split; [exact H3|].
      intros pre tx post Ep. destruct pre as [|p pre]; cbn [app] in Ep; [discriminate|]. injection Ep as <- ->. cbn [filter bot_after]. exact (H4 pre tx post eq_refl).
Qed.
Print Assumptions C53_isolated.
Example C53_example :
  exists r1 r2, session game_registry (new_bcdice (FQueue [Die 1 6; Die 2 6; Die 3 10])) [Input "2D6"; Game "DiceBot"; Input "1B10"; Input "1B10"]%string
    = ([(basic_bot, "2D6", Ok r1); (basic_bot, "1B10", Ok r2); (basic_bot, "1B10", Err "取り出せるダイスがありません")]%string, BCDice basic_bot (FQueue [])) /\
  r_dice r1 = [Die 1 6; Die 2 6] /\ r_dice r2 = [Die 3 10].
Proof. eexists. eexists. vconj. Qed.

(** * C58: test cases *)
(** What the test runner compares with the expected output *)
Definition shown (r : result) : string := (message r ++ (if r_secret r then "###secret dice###" else ""))%string.
(** A test case passes exactly if an empty output is expected and the first input line is an error, or the line is executed with the message as expected output and all dice
    are used up. *)
Theorem C58_verdict c : run_test_case c = Passed <->
  exists line more, tc_input c = line :: more /\
    ((tc_output c = EmptyString /\ exists e b', execute_command (new_bcdice (FQueue (tc_dice c))) line = (Err e, b')) \/
     (tc_output c <> EmptyString /\ exists r, execute_command (new_bcdice (FQueue (tc_dice c))) line = (Ok r, new_bcdice (FQueue [])) /\ tc_output c = shown r)).
Proof.
  unfold run_test_case. unfold new_queue. rewrite queue_append_app. cbn [app]. destruct (tc_input c) as [|line more].
  - split; [discriminate|]. intros (l & m & H & _). discriminate.
  - split.
    + intros H. exists line, more. split; [reflexivity|]. destruct (execute_command (new_bcdice (FQueue (tc_dice c))) line) as [[r|e|p] b'] eqn:E; [| |discriminate].
      * destruct (tc_output c) as [|a o] eqn:Eo; [discriminate|]. cbn [is_empty] in H. right. split; [discriminate|]. exists r.
        destruct (String.eqb (if r_secret r then (message r ++ "###secret dice###")%string else message r) (String a o)) eqn:Es; [|discriminate]. apply String.eqb_eq in Es.
        unfold execute_command in E. cbn [new_bcdice bd_bot bd_feeder] in E. destruct (execute_command_with basic_bot line (FQueue (tc_dice c))) as [o1 f1].
        injection E as -> <-. cbn [bd_feeder] in H. destruct f1 as [[|d q]|]; try discriminate. split; [reflexivity|]. rewrite <- Es. unfold shown. destruct (r_secret r); [reflexivity|].
        symmetry. apply DecodeProofs.append_nil_r.
      * destruct (tc_output c) as [|a o]; [|discriminate]. left. split; [reflexivity|]. eauto.
    + intros (l & m & [= <- <-] & [(Ho & e & b' & E)|(Ho & r & E & Er)]); rewrite E.
      * rewrite Ho. reflexivity.
      * destruct (tc_output c) as [|a o]; [contradiction|]. cbn [is_empty]. rewrite Er. unfold shown. cbn [bd_feeder new_bcdice].
        destruct (r_secret r); [rewrite String.eqb_refl; reflexivity|]. rewrite DecodeProofs.append_nil_r, String.eqb_refl. reflexivity.
Qed.
Print Assumptions C58_verdict.
Lemma shown_nonempty r : shown r <> EmptyString.
Proof. unfold shown, message. destruct (r_game_id r); discriminate. Qed.
(** A successful execution by the basic bot, with any feeder, recorded with the dice taken, is a passing test case. *)
Theorem C58_recorded line f r f' : moderate line -> execute_command (new_bcdice f) line = (Ok r, new_bcdice f') ->
  exists lost ds, draws f (lost ++ ds) f' /\ (r_dice r = ds \/ r_dice r = [] /\ hint_result r) /\
    forall game_id index more, run_test_case (TestCase game_id index (line :: more) (shown r) (lost ++ ds)) = Passed.
Proof.
  intros Hl H. unfold execute_command, new_bcdice in H. cbn [bd_bot bd_feeder] in H. destruct (execute_command_with basic_bot line f) as [o f1] eqn:E. injection H as -> ->.
  destruct (C57_replay _ _ _ _ _ Hl E) as (lost & ds & Hd & Hds & Hr). exists lost, ds. split; [exact Hd|]. split; [exact Hds|]. intros gid i more. apply C58_verdict. cbn [tc_input tc_output tc_dice].
  exists line, more. split; [reflexivity|]. right. split; [apply shown_nonempty|]. exists r. split; [|reflexivity].
  unfold execute_command, new_bcdice. cbn [bd_bot bd_feeder]. specialize (Hr []). rewrite app_nil_r in Hr. rewrite Hr. reflexivity.
Qed.
Print Assumptions C58_recorded.
(** Written to a file and read back, it passes; and so does a whole file of passing cases. *)
Theorem C58_file cs n game_id : cs <> [] -> Forall well_formed_case cs ->
  Forall (fun c => forall g i, run_test_case (TestCase g i (w_lines c) (w_output c) (w_dice c)) = Passed) cs ->
  exists l, parse_file (file_text cs n) game_id = Ok l /\ length l = length cs /\ Forall (fun t => run_test_case t = Passed) l.
Proof.
  intros Hn Hw Hp. destruct (Prop_files.C51_file_round_trip cs n game_id Hn Hw) as (l & H1 & H2 & H3). exists l. split; [exact H1|]. split; [exact H2|].
  apply Forall_forall. intros t Ht. apply In_nth_error in Ht as (k & Hk).
  destruct (nth_error cs k) as [c|] eqn:Ec.
  - rewrite (H3 _ _ Ec) in Hk. injection Hk as <-. rewrite Forall_forall in Hp. apply (Hp c). eapply nth_error_In; exact Ec.
  - apply nth_error_None in Ec. rewrite <- H2 in Ec. apply nth_error_None in Ec. rewrite Ec in Hk. discriminate.
Qed.
Print Assumptions C58_file.
Theorem C58_written line f r f' n game_id : moderate line -> execute_command (new_bcdice f) line = (Ok r, new_bcdice f') ->
  exists lost ds, draws f (lost ++ ds) f' /\ (r_dice r = ds \/ r_dice r = [] /\ hint_result r) /\
    (well_formed_case (Written [line] (shown r) (lost ++ ds)) ->
     exists t, parse_file (file_text [Written [line] (shown r) (lost ++ ds)] n) game_id = Ok [t] /\ run_test_case t = Passed).
Proof.
  intros Hl H. destruct (C58_recorded _ _ _ _ Hl H) as (lost & ds & Hd & Hr & Hp). exists lost, ds. split; [exact Hd|]. split; [exact Hr|]. intros Hw.
  destruct (C58_file [Written [line] (shown r) (lost ++ ds)] n game_id) as (l & H1 & H2 & H3).
  - discriminate.
  - constructor; [exact Hw|constructor].
  - constructor; [|constructor]. intros g i. apply Hp.
  - destruct l as [|t [|t' l]]; try discriminate H2. exists t. split; [exact H1|]. inversion H3. assumption.
Qed.
Print Assumptions C58_written.
Example C58_example : exists r, execute_command (new_bcdice (FQueue [Die 3 6; Die 4 6; Die 1 6])) "S2D6+1>=8 attack" = (Ok r, new_bcdice (FQueue [Die 1 6])) /\
  shown r = "DiceBot : (2D6+1>=8) ＞ 7[3,4]+1 ＞ 8 ＞ 成功###secret dice###"%string /\
  parse_file (file_text [Written ["S2D6+1>=8 attack"%string] (shown r) [Die 3 6; Die 4 6]] 1) "DiceBot" =
    Ok [TestCase "DiceBot" 1 ["S2D6+1>=8 attack"%string] (shown r) [Die 3 6; Die 4 6]] /\
  run_test_case (TestCase "DiceBot" 1 ["S2D6+1>=8 attack"%string] (shown r) [Die 3 6; Die 4 6]) = Passed.
Proof. eexists. vconj. Qed.
