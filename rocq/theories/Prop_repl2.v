(** Property C63: what each command of the REPL prints and changes. *)
From Verif Require Import Grammar ProofBase SpecText Dice SpecDice DiceProofs Command BCDice TestCase SExp Repl SpecFiles SpecGames SpecRepl NumberText FileProofs BCDiceProofs ReplProofs Prop_repl Prop_games.
Open Scope list_scope.
Open Scope Z_scope.

Lemma says_printed r ss : inv r -> rp_terminated r = false -> only_says r ss (TNext (printed r ss)).
Proof. intros Hi Ht. exists (printed r ss). split; [reflexivity|]. split; [reflexivity|]. split; [reflexivity|]. split; [apply inv_same, inv_printed, Hi|]. split; [reflexivity|exact Ht]. Qed.
Lemma usage_line c : ("使用法: " ++ usage c ++ nl)%string = shown_usage c.
Proof. destruct c; reflexivity. Qed.

(** .help prints the manual. *)
Theorem C63_help r seed inp t args : reached r -> rp_terminated r = false -> entered inp = Some t -> command_line RHelp args t ->
  only_says r (map manual_entry manual) (repl_turn r seed inp).
Proof.
  intros Hr Et Ee Hl. apply reached_inv in Hr as Hi. rewrite (turn_command_line r seed inp t RHelp args Et Ee Hl). cbn [handle]. unfold repl_help. rewrite printed_fold. cbn [finish].
  replace (map help_text all_rcmds) with (map manual_entry manual) by reflexivity. apply says_printed; assumption.
Qed.
Print Assumptions C63_help.
(** .list-games prints the identifiers of the games, one per line: at this commit only DiceBot. *)
Theorem C63_list_games r seed inp t args : reached r -> rp_terminated r = false -> entered inp = Some t -> command_line RListGames args t ->
  only_says r ["DiceBot" ++ newline]%string (repl_turn r seed inp).
Proof.
  intros Hr Et Ee Hl. apply reached_inv in Hr as Hi. rewrite (turn_command_line r seed inp t RListGames args Et Ee Hl). cbn [handle]. unfold repl_list_games.
  rewrite (printed_fold (fun id => id ++ nl)%string). cbn [finish]. apply (says_printed r ["DiceBot" ++ newline]%string); assumption.
Qed.
Print Assumptions C63_list_games.
(** .set-game alone shows the current game; with a known identifier it selects that game, with any other it is an error that changes nothing. *)
Theorem C63_set_game r seed inp t id : reached r -> rp_terminated r = false -> entered inp = Some t -> command_line RSetGame id t ->
  (id = EmptyString -> only_says r [db_game_id (rp_bot r) ++ newline]%string (repl_turn r seed inp)) /\
  (forall bot, id <> EmptyString -> bot_of game_registry id bot ->
     exists r', repl_turn r seed inp = TNext r' /\ rp_out r' = rp_out r ++ [shown_ok] /\ rp_bot r' = bot /\ current r' = current r /\ same_feeder r' /\ rp_terminated r' = false) /\
  (id <> EmptyString -> ~ In id (available_game_ids game_registry true) -> only_says r [shown_error ("unknown game system: " ++ id)] (repl_turn r seed inp)).
Proof.
  intros Hr Et Ee Hl. apply reached_inv in Hr as Hi. rewrite (turn_command_line r seed inp t RSetGame id Et Ee Hl). cbn [handle]. unfold repl_set_game.
  assert (is_map game_registry) as Hm by constructor. destruct (C52_find game_registry id Hm) as (K1 & _ & K3). split; [|split].
  - intros ->. apply (says_printed r [_]); assumption.
  - intros bot Hn Hb. apply empty_false in Hn. rewrite Hn. apply K1 in Hb. rewrite Hb. eexists. split; [reflexivity|]. split; [reflexivity|]. split; [reflexivity|]. split; [reflexivity|]. split; [|exact Et].
    apply inv_same in Hi. exact Hi.
  - intros Hn Hb. apply empty_false in Hn. rewrite Hn. rewrite (K3 Hb). apply (says_printed r [_]); assumption.
Qed.
Print Assumptions C63_set_game.
(** .ast prints the S-expression of the parsed command, or the error; it takes no dice. *)
Theorem C63_ast r seed inp t text command secret : reached r -> rp_terminated r = false -> entered inp = Some t -> command_line RAst text t -> check_secret text = (command, secret) ->
  (text = EmptyString -> only_says r [shown_usage RAst] (repl_turn r seed inp)) /\
  (forall n, text <> EmptyString -> parse_command command = Ok n -> only_says r [shown secret (sexp n)] (repl_turn r seed inp)) /\
  (forall e, text <> EmptyString -> parse_text "REPL" command = Err e -> only_says r [shown_error e] (repl_turn r seed inp)).
Proof.
  intros Hr Et Ee Hl Hc. apply reached_inv in Hr as Hi. rewrite (turn_command_line r seed inp t RAst text Et Ee Hl). cbn [handle]. unfold print_sexp. split; [|split].
  - intros ->. apply (says_printed r [_]); assumption.
  - intros n Hn Hp. apply empty_false in Hn. rewrite Hn, Hc, parse_text_eq, Hp. assert (shown secret (sexp n) = (result_header ++ (if secret then secret_header else "") ++ sexp n ++ nl)%string) as ->.
    { unfold shown, result_header, secret_header. destruct secret; cbn [append]; rewrite <- ?app_assoc_s; reflexivity. }
    apply (says_printed r [_]); assumption.
  - intros e Hn Hp. apply empty_false in Hn. rewrite Hn, Hc, Hp. apply (says_printed r [_]); assumption.
Qed.
Print Assumptions C63_ast.
(** .eval text evaluates the text, as if it had been entered alone. *)
Theorem C63_eval r seed inp t text inp' : reached r -> rp_terminated r = false -> entered inp = Some t -> command_line REval text t ->
  entered inp' = Some text -> evaluated text -> repl_turn r seed inp = repl_turn r seed inp'.
Proof.
  intros Hr Et Ee Hl Ee' Hev. rewrite (turn_command_line r seed inp t REval text Et Ee Hl), (turn_eval r seed inp' text Et Ee' Hev). reflexivity.
Qed.
Print Assumptions C63_eval.
(** Commands that need arguments show how they are used if these are missing or malformed. *)
Theorem C63_usage r seed inp t : reached r -> rp_terminated r = false -> entered inp = Some t ->
  (command_line REval "" t -> only_says r [shown_usage REval] (repl_turn r seed inp)) /\
  (forall text, command_line RRoll text t -> (forall a sp b, digits a -> digits b -> blank sp -> sp <> EmptyString -> text <> (a ++ sp ++ b)%string) ->
     only_says r [shown_usage RRoll] (repl_turn r seed inp)) /\
  (forall text, command_line RSetDieFeeder text t -> lowercase text <> "queue"%string -> lowercase text <> "mt"%string ->
     only_says r [shown_usage RSetDieFeeder] (repl_turn r seed inp)).
Proof.
  intros Hr Et Ee. apply reached_inv in Hr as Hi. split; [|split].
  - intros Hl. rewrite (turn_command_line r seed inp t REval _ Et Ee Hl). apply (says_printed r [_]); assumption.
  - intros text Hl Hno. rewrite (turn_command_line r seed inp t RRoll _ Et Ee Hl). cbn [handle]. rewrite repl_roll_spec by exact Hi. destruct (match_roll text) as [(a, b)|] eqn:E.
    + apply match_roll_iff in E as (sp & E & Ha & Hb & Hs & Hn). destruct (Hno a sp b Ha Hb Hs Hn E).
    + apply (says_printed r [_]); assumption.
  - intros text Hl H1 H2. rewrite (turn_command_line r seed inp t RSetDieFeeder _ Et Ee Hl). cbn [handle]. unfold repl_set_die_feeder.
    replace (lower_string text) with (lowercase text) by (clear; induction text as [|a text IH]; [reflexivity|]; cbn; rewrite IH; reflexivity). cbv zeta.
    apply String.eqb_neq in H1, H2. rewrite H1, H2. apply (says_printed r [_]); assumption.
Qed.
Print Assumptions C63_usage.
(** Whatever is entered: what was printed stays printed, and only .set-game changes the game. *)
Theorem C63_frame r seed inp r' : reached r -> repl_turn r seed inp = TNext r' ->
  (exists more, rp_out r' = rp_out r ++ more) /\
  (rp_bot r' = rp_bot r \/ exists t rest, entered inp = Some t /\ addresses t RSetGame rest).
Proof.
  intros Hr E. apply reached_inv in Hr as Hi. destruct (turn_terminated _ _ _ _ Hi E) as (Et & _).
  destruct (entered inp) as [t|] eqn:Ee; [|rewrite turn_entered, Ee in E by exact Et; injection E as <-; split; [exists []; symmetry; apply app_nil_r|left; reflexivity]].
  assert (forall act s, finish (with_dice_of r act) = TNext s -> (exists more, rp_out s = rp_out r ++ more) /\ rp_bot s = rp_bot r) as Hw.
  { intros act s. unfold with_dice_of. destruct (current r) as [ds|i k].
    - destruct (fst (act (FQueue ds))); cbn [out_of finish]; intros K; try discriminate; injection K as <-; (split; [eexists; reflexivity|reflexivity]).
    - destruct (act (FRandom i k)) as [o f]. destruct o; cbn [out_of finish]; intros K; try discriminate; injection K as <-; (split; [eexists; reflexivity|reflexivity]). }
  assert (forall u s, finish (repl_eval r u) = TNext s -> (exists more, rp_out s = rp_out r ++ more) /\ rp_bot s = rp_bot r) as Hev.
  { intros u s. rewrite repl_eval_spec by exact Hi. destruct (is_empty u); [|apply Hw]. intros K. injection K as <-. split; [eexists; reflexivity|reflexivity]. }
  destruct (line_cases t) as [->|[(c & rest & Hc)|He]].
  - rewrite turn_quit_line in E by assumption. discriminate.
  - rewrite (turn_command r seed inp t c rest Et Ee Hc) in E. destruct c; cbn [handle] in E.
    + unfold print_sexp in E. destruct (is_empty (args_of rest)); [injection E as <-; split; [eexists; reflexivity|left; reflexivity]|]. destruct (check_secret (args_of rest)) as [cm s].
      destruct (parse_text _ cm); cbn [finish] in E; try discriminate; injection E as <-; (split; [eexists; reflexivity|left; reflexivity]).
    + apply Hev in E as (H1 & H2). auto.
    + rewrite repl_roll_spec in E by exact Hi. destruct (match_roll (args_of rest)) as [(a, b)|]; [apply Hw in E as (H1 & H2); auto|]. injection E as <-. split; [eexists; reflexivity|left; reflexivity].
    + split; [|right; eauto]. unfold repl_set_game in E. destruct (is_empty (args_of rest)); [injection E as <-; eexists; reflexivity|].
      destruct (find_bot game_registry (args_of rest)); cbn [finish] in E; try discriminate; injection E as <-; eexists; reflexivity.
    + unfold repl_list_games in E. rewrite (printed_fold (fun id => id ++ nl)%string) in E. injection E as <-. split; [eexists; reflexivity|left; reflexivity].
    + unfold repl_set_die_feeder in E. cbv zeta in E. destruct (String.eqb _ "queue"); [injection E as <-; split; [eexists; reflexivity|left; reflexivity]|].
      destruct (String.eqb _ "mt"); injection E as <-; (split; [eexists; reflexivity|left; reflexivity]).
    + unfold repl_set_dice_queue in E. destruct (negb _); [injection E as <-; split; [eexists; reflexivity|left; reflexivity]|].
      destruct (parse_dice (args_of rest)) as [ds|e|p]; try discriminate; [|injection E as <-; split; [eexists; reflexivity|left; reflexivity]].
      destruct (deref r (rp_feeder r)); cbn [finish] in E; try discriminate. injection E as <-. split; [eexists; reflexivity|left; reflexivity].
    + unfold repl_help in E. rewrite printed_fold in E. injection E as <-. split; [eexists; reflexivity|left; reflexivity].
    + injection E as <-. split; [exists []; symmetry; apply app_nil_r|left; reflexivity].
  - rewrite (turn_eval r seed inp t Et Ee He) in E. apply Hev in E as (H1 & H2). auto.
Qed.
Print Assumptions C63_frame.

(** ** A session *)
Definition session2 : nat -> rline := fun j => nth j (map RLine [".list-games"; ".set-game Foo"; ".set-game"; ".ast  S2D6+1"; ".roll x"; ".set-die-feeder ?"; ".eval"; ".set-game DiceBot"])%string REof.
Example C63_session : turn_out (repl_run 8 0 session2 (fun _ _ _ => 0) (start_repl (fun _ _ => 0))) =
  ["DiceBot" ++ newline; shown_error "unknown game system: Foo"; "DiceBot" ++ newline; shown true "(DRollExpr (+ (DRoll 2 6) 1))"; shown_usage RRoll; shown_usage RSetDieFeeder; shown_usage REval; shown_ok]%string.
Proof. vm_compute. reflexivity. Qed.
Example C63_example : command_line RListGames "" ".list-games" /\ command_line RHelp "" ".help" /\ command_line RSetGame "" ".set-game" /\ command_line RAst "" ".ast" /\ command_line REval "" ".eval" /\
  bot_of game_registry "DiceBot" basic_bot /\ ~ In "Foo"%string (available_game_ids game_registry true).
Proof.
  assert (tidy "") as Ht by (split; [discriminate|intros a t H; destruct t; discriminate H]).
  repeat (split; [first [split; [vm_compute; intuition discriminate|]; split; [exact Ht|left; split; reflexivity]|left; split; reflexivity]|]). cbn. intros [H|[]]; discriminate H.
Qed.
