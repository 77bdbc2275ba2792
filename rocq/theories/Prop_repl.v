(** Properties C47, C48, C49: the REPL. *)
From Verif Require Import ProofBase SpecText SpecFiles FileProofs NumberText Dice SpecDice DiceProofs BCDice BCDiceProofs TestCase SExp Repl SpecRepl ReplProofs.
Open Scope list_scope.
Open Scope Z_scope.

(** * C47 *)
(** In any reachable state with specified dice, a turn leaves them as they were, unless its line is .set-die-feeder or .set-dice-queue: whether the line is a
    roll, an evaluation that succeeds or fails, an unknown command, the end of the input... *)
Theorem C47_dice_given_back r seed inp r' ds :
  reached r -> current r = FQueue ds ->
  (forall t rest, entered inp = Some t -> ~ addresses t RSetDieFeeder rest /\ ~ addresses t RSetDiceQueue rest) ->
  repl_turn r seed inp = TNext r' -> current r' = FQueue ds.
Proof.
  intros Hr Hq Ha E. apply reached_inv in Hr as Hi. destruct (turn_terminated _ _ _ _ Hi E) as (Et & _). destruct (entered inp) as [t|] eqn:Ee; [|rewrite turn_entered, Ee in E by exact Et; congruence].
  destruct (line_cases t) as [->|[(c & rest & Hc)|He]].
  - rewrite turn_quit_line in E by assumption. discriminate.
  - rewrite (turn_command r seed inp t c rest Et Ee Hc) in E. destruct (Ha t rest eq_refl) as (H1 & H2).
    assert (c = RQuit \/ c <> RQuit) as [->|Hn] by (destruct c; (left; reflexivity) || (right; discriminate)); [injection E as <-; exact Hq|].
    pose proof (keeps_handle r seed c (args_of rest) Hi ltac:(intros ->; auto) ltac:(intros ->; auto) Hn) as K. destruct (handle r seed c (args_of rest)); try discriminate. injection E as ->. exact (proj2 (proj2 K) ds Hq).
  - rewrite (turn_eval r seed inp t Et Ee He) in E. pose proof (keeps_eval r t Hi) as K. destruct (repl_eval r t); try discriminate. injection E as ->. exact (proj2 (proj2 K) ds Hq).
Qed.
Print Assumptions C47_dice_given_back.
(** So entering the same command again prints the same. *)
Theorem C47_repeatable r seed inp t r1 ds :
  reached r -> current r = FQueue ds -> entered inp = Some t -> evaluated t -> repl_turn r seed inp = TNext r1 ->
  exists s, rp_out r1 = rp_out r ++ [s] /\ forall seed', exists r2, repl_turn r1 seed' inp = TNext r2 /\ rp_out r2 = rp_out r1 ++ [s].
Proof.
  intros Hr Hq Ee He E. apply reached_inv in Hr as Hi. destruct (turn_terminated _ _ _ _ Hi E) as (Et & _). rewrite (turn_eval r seed inp t Et Ee He) in E. rewrite repl_eval_spec in E by exact Hi.
  assert (exists s, r1 = printed r [s] /\ forall r0, rp_bot r0 = rp_bot r -> current r0 = current r -> inv r0 -> repl_eval r0 t = RCont (printed r0 [s])) as (s & -> & H).
  { destruct (is_empty t) eqn:Em.
    - injection E as <-. eexists. split; [reflexivity|]. intros r0 _ _ Hi0. rewrite repl_eval_spec, Em by exact Hi0. reflexivity.
    - unfold with_dice_of in E. rewrite Hq in E. destruct (fst (eval_act (rp_bot r) t (FQueue ds))) as [s|e|p] eqn:Ea; cbn [out_of] in E; try discriminate; injection E as <-; eexists; (split; [reflexivity|]); intros r0 Hb Hc Hi0;
      rewrite repl_eval_spec, Em by exact Hi0; unfold with_dice_of; rewrite Hc, Hq, Hb, Ea; reflexivity. }
  exists s. split; [reflexivity|]. intros seed'. assert (inv (printed r [s])) as Hi1 by exact Hi. exists (printed (printed r [s]) [s]). split; [|reflexivity].
  rewrite (turn_eval (printed r [s]) seed' inp t Et Ee He). rewrite H; [reflexivity|reflexivity|reflexivity|exact Hi1].
Qed.
Print Assumptions C47_repeatable.

(** * C48 *)
(** The feeders of the REPL, of .roll and of BCDice are always the same one. *)
Theorem C48_one_feeder r : reached r -> same_feeder r.
Proof. intros H. apply inv_same, reached_inv, H. Qed.
Print Assumptions C48_one_feeder.
(** No type assertion of the REPL fails, ever. *)
Theorem C48_no_failed_assertion n seed inputs seeds : repl_run n 0 inputs seeds (start_repl seed) <> TAssert.
Proof. intros E. pose proof (run_safe n 0 inputs seeds _ (inv_start seed)) as K. rewrite E in K. exact K. Qed.
Print Assumptions C48_no_failed_assertion.
(** An evaluation works on the current feeder and shows the message or the error; dice taken from a random feeder are gone, specified dice are kept. *)
Theorem C48_eval r seed inp t command secret : reached r -> rp_terminated r = false -> entered inp = Some t -> evaluated t -> t <> EmptyString -> check_secret t = (command, secret) ->
  match execute_command_with (rp_bot r) command (current r) with
  | (Ok res, f) => exists r', repl_turn r seed inp = TNext r' /\ rp_out r' = rp_out r ++ [shown secret (message res)] /\ rp_bot r' = rp_bot r /\
                     (forall i k, current r = FRandom i k -> current r' = f) /\ (forall ds, current r = FQueue ds -> current r' = current r)
  | (Err e, f) => exists r', repl_turn r seed inp = TNext r' /\ rp_out r' = rp_out r ++ [shown_error e] /\ rp_bot r' = rp_bot r /\
                     (forall i k, current r = FRandom i k -> current r' = f) /\ (forall ds, current r = FQueue ds -> current r' = current r)
  | (Panic p, _) => repl_turn r seed inp = TCrash p
  end.
Proof.
  intros Hr Et Ee He Hn Hc. apply reached_inv in Hr as Hi. rewrite (turn_eval r seed inp t Et Ee He), repl_eval_spec by exact Hi. apply empty_false in Hn. rewrite Hn. unfold with_dice_of.
  destruct (current r) as [ds|i k] eqn:Eq; unfold eval_act; rewrite Hc.
  - destruct (execute_command_with (rp_bot r) command (FQueue ds)) as [[res|e|p] f]; cbn [fst out_of finish]; try reflexivity; eexists; (split; [reflexivity|]); (split; [reflexivity|]); (split; [reflexivity|]); split; try congruence; intros; exact Eq.
  - destruct (execute_command_with (rp_bot r) command (FRandom i k)) as [[res|e|p] f]; cbn [fst out_of finish]; try reflexivity; eexists; (split; [reflexivity|]); (split; [reflexivity|]); (split; [reflexivity|]); split; try congruence; intros; unfold print_error; rewrite current_print; apply current_store, Hi.
Qed.
Print Assumptions C48_eval.
(** ".roll num sides" rolls with the current feeder. *)
Theorem C48_roll r seed inp t a sp b : reached r -> rp_terminated r = false -> entered inp = Some t -> digits a -> digits b -> blank sp -> sp <> EmptyString ->
  command_line RRoll (a ++ sp ++ b) t ->
  match roll_dice (saturated a) (saturated b) (current r) with
  | (Ok ds, f) => exists r', repl_turn r seed inp = TNext r' /\ rp_out r' = rp_out r ++ [shown false (format_dice ds)] /\
                     (forall i k, current r = FRandom i k -> current r' = f) /\ (forall q, current r = FQueue q -> current r' = current r)
  | (Err e, f) => exists r', repl_turn r seed inp = TNext r' /\ rp_out r' = rp_out r ++ [shown_error e] /\
                     (forall i k, current r = FRandom i k -> current r' = f) /\ (forall q, current r = FQueue q -> current r' = current r)
  | (Panic p, _) => repl_turn r seed inp = TCrash p
  end.
Proof.
  intros Hr Et Ee Ha Hb Hs Hn Hl. apply reached_inv in Hr as Hi. rewrite (turn_command_line r seed inp t RRoll (a ++ sp ++ b) Et Ee Hl). cbn [handle]. rewrite repl_roll_spec by exact Hi.
  rewrite (proj2 (match_roll_iff (a ++ sp ++ b) a b)) by (exists sp; repeat split; try assumption; apply Ha || apply Hb). unfold with_dice_of.
  destruct (current r) as [ds|i k] eqn:Eq; unfold roll_act.
  - destruct (roll_dice (saturated a) (saturated b) (FQueue ds)) as [[res|e|p] f]; cbn [fst out_of finish]; try reflexivity; eexists; (split; [reflexivity|]); (split; [reflexivity|]); split; try congruence; intros; exact Eq.
  - destruct (roll_dice (saturated a) (saturated b) (FRandom i k)) as [[res|e|p] f]; cbn [fst out_of finish]; try reflexivity; eexists; (split; [reflexivity|]); (split; [reflexivity|]); split; try congruence; intros; unfold print_error; rewrite current_print; apply current_store, Hi.
Qed.
Print Assumptions C48_roll.
(** ".set-dice-queue text" sets the dice that later commands take, if dice can be specified and the text is dice notation; otherwise nothing changes but the output. *)
Theorem C48_set_dice_queue r seed inp t text : reached r -> rp_terminated r = false -> entered inp = Some t -> command_line RSetDiceQueue text t ->
  (forall q ds, current r = FQueue q -> dice_notation text ds -> exists r', repl_turn r seed inp = TNext r' /\ current r' = FQueue ds /\ same_feeder r' /\ rp_out r' = rp_out r ++ [shown_ok]) /\
  (((exists i k, current r = FRandom i k) \/ (forall ds, ~ dice_notation text ds)) -> exists r' e, repl_turn r seed inp = TNext r' /\ current r' = current r /\ same_feeder r' /\ rp_out r' = rp_out r ++ [shown_error e]).
Proof.
  intros Hr Et Ee Hl. apply reached_inv in Hr as Hi. rewrite (turn_command_line r seed inp t RSetDiceQueue text Et Ee Hl). cbn [handle]. unfold repl_set_dice_queue. fold (current r). split.
  - intros q ds Hq Hd. rewrite Hq. cbn [can_specify_die negb]. apply parse_dice_iff in Hd. rewrite Hd. eexists. split; [reflexivity|]. unfold print_ok. rewrite current_print. split; [apply current_store, Hi|]. split; [|reflexivity]. apply inv_same, inv_print, inv_store, Hi.
  - intros [(i & k & Hq)|Hd].
    + rewrite Hq. cbn [can_specify_die negb finish]. do 2 eexists. split; [reflexivity|]. split; [exact Hq|]. split; [apply inv_same, Hi|reflexivity].
    + destruct (current r) as [q|i k] eqn:Hq; cbn [can_specify_die negb].
      * destruct (parse_dice text) as [ds|e|p] eqn:E; [apply parse_dice_iff in E; destruct (Hd ds E)| |destruct (parse_dice_not_panic _ _ E)]. do 2 eexists. split; [reflexivity|]. split; [exact Hq|]. split; [apply inv_same, Hi|reflexivity].
      * do 2 eexists. split; [reflexivity|]. split; [exact Hq|]. split; [apply inv_same, Hi|reflexivity].
Qed.
Print Assumptions C48_set_dice_queue.
(** ".set-die-feeder queue" installs an empty queue, ".set-die-feeder mt" a new random feeder (in any case of letters), for all three users. *)
Theorem C48_set_die_feeder r seed inp t text : reached r -> rp_terminated r = false -> entered inp = Some t -> command_line RSetDieFeeder text t ->
  exists r', repl_turn r seed inp = TNext r' /\ same_feeder r' /\
    (lowercase text = "queue"%string -> current r' = FQueue [] /\ rp_out r' = rp_out r ++ [shown_ok]) /\ (lowercase text = "mt"%string -> current r' = FRandom seed 0 /\ rp_out r' = rp_out r ++ [shown_ok]) /\
    (lowercase text <> "queue"%string -> lowercase text <> "mt"%string -> current r' = current r).
Proof.
  intros Hr Et Ee Hl. apply reached_inv in Hr as Hi. rewrite (turn_command_line r seed inp t RSetDieFeeder text Et Ee Hl). cbn [handle]. unfold repl_set_die_feeder.
  replace (lower_string text) with (lowercase text) by (clear; induction text as [|a text IH]; [reflexivity|]; cbn; rewrite IH; reflexivity). cbv zeta.
  destruct (String.eqb (lowercase text) "queue") eqn:E1.
  - apply String.eqb_eq in E1. rewrite E1. eexists. split; [reflexivity|]. destruct (inv_install r (FQueue [])) as (H1 & H2). split; [apply inv_same, H1|]. split; [intros _; split; [exact H2|reflexivity]|]. split; congruence.
  - apply String.eqb_neq in E1. destruct (String.eqb (lowercase text) "mt") eqn:E2.
    + apply String.eqb_eq in E2. rewrite E2. eexists. split; [reflexivity|]. destruct (inv_install r (FRandom seed 0)) as (H1 & H2). split; [apply inv_same, H1|]. split; [discriminate|]. split; [intros _; split; [exact H2|reflexivity]|congruence].
    + apply String.eqb_neq in E2. eexists. split; [reflexivity|]. split; [apply inv_same, Hi|]. split; [congruence|]. split; [congruence|]. reflexivity.
Qed.
Print Assumptions C48_set_die_feeder.

(** * C49 *)
(** Once the input is exhausted, the loop goes on for ever, printing the usage of .eval in each turn. *)
Theorem C49_never_ends_at_eof inputs seeds k n r : reached r -> rp_terminated r = false -> (forall j, (k <= j)%nat -> inputs j = REof) ->
  exists r', repl_run n k inputs seeds r = TNext r' /\ rp_out r' = rp_out r ++ repeat ("使用法: .eval BCDiceコマンド" ++ newline)%string n.
Proof.
  intros Hr Et Hin. apply reached_inv in Hr as Hi. clear Hr. revert k r Et Hin Hi. induction n as [|n IH]; intros k r Et Hin Hi; [exists r; split; [reflexivity|rewrite app_nil_r; reflexivity]|].
  cbn [repl_run]. rewrite (Hin k) by lia. rewrite (turn_eval r (seeds k) REof "" Et eq_refl) by (split; [discriminate|intros c rest (H & _); discriminate H]).
  change (repl_eval r "") with (RCont (print_usage r REval)). cbn [finish]. destruct (IH (S k) (print_usage r REval)) as (r' & H1 & H2); [exact Et|intros j Hj; apply Hin; lia|exact Hi|].
  exists r'. split; [exact H1|]. rewrite H2. cbn [repeat rp_out print_usage print]. rewrite <- app_assoc. reflexivity.
Qed.
Print Assumptions C49_never_ends_at_eof.
(** Start returns only after a line ".q" or ".quit ..."; in particular not if the input just ends. *)
Theorem C49_only_quit n seed inputs seeds r : repl_run n 0 inputs seeds (start_repl seed) = TReturn r ->
  exists j t, (j < n)%nat /\ entered (inputs j) = Some t /\ asks_to_quit t.
Proof.
  intros H. destruct (run_return _ _ _ _ _ _ (inv_start seed) H) as [K|(j & t & Hj & H1 & H2)]; [discriminate|]. exists j, t. split; [lia|]. split; assumption.
Qed.
Print Assumptions C49_only_quit.
Theorem C49_finite_input lines n seed seeds : (forall line, In line lines -> ~ asks_to_quit (trim_space_str line)) ->
  forall r, repl_run n 0 (fun j => match nth_error lines j with Some s => RLine s | None => REof end) seeds (start_repl seed) <> TReturn r.
Proof.
  intros H r E. apply C49_only_quit in E as (j & t & _ & E & Hq). destruct (nth_error lines j) as [s|] eqn:En; cbn [entered] in E; injection E as <-.
  - apply nth_error_In in En. exact (H s En Hq).
  - destruct Hq as [Hq|(rest & Hq & _)]; discriminate Hq.
Qed.
Print Assumptions C49_finite_input.
(** And such a line does end it: at once for .q, at the start of the next turn for .quit (without reading another line's effect). *)
Theorem C49_quit_ends r seed inp t : reached r -> rp_terminated r = false -> entered inp = Some t -> asks_to_quit t ->
  repl_turn r seed inp = TReturn r \/
  exists r', repl_turn r seed inp = TNext r' /\ rp_out r' = rp_out r /\ forall seed' inp', repl_turn r' seed' inp' = TReturn r'.
Proof.
  intros Hr Et Ee [->|(rest & Ha)].
  - left. apply turn_quit_line; assumption.
  - right. rewrite (turn_command r seed inp t RQuit rest Et Ee Ha). eexists. split; [reflexivity|]. split; [reflexivity|]. intros. reflexivity.
Qed.
Print Assumptions C49_quit_ends.

(** ** A session (the last evaluation fails twice, see C06: the error is that of the second attempt) *)
Definition session : nat -> rline := fun j => nth j (map RLine [" .set-die-feeder QUEUE"; ".set-dice-queue 3/6, 4/6"; "2D6"; ".roll 2 6"; "S2D6+1"; "1D20"; ".quit"])%string REof.
Definition turn_out (t : turn) : list string := match t with TNext r | TReturn r => skipn 5 (rp_out r) | _ => [] end.
Example C48_session : turn_out (repl_run 6 0 session (fun _ _ _ => 0) (start_repl (fun _ _ => 0))) =
  [shown_ok; shown_ok; shown false "DiceBot : (2D6) ＞ 7[3,4] ＞ 7"; shown false "3/6, 4/6"; shown true "DiceBot : (2D6+1) ＞ 7[3,4]+1 ＞ 8";
   shown_error "RollDice(num: 1, sides: 20) -> 4/6: ダイスの面数が指定と一致しません"]%string /\
  (match repl_run 8 0 session (fun _ _ _ => 0) (start_repl (fun _ _ => 0)) with TReturn _ => true | _ => false end) = true.
Proof. vconj. Qed.
Example C48_command_line : command_line RSetDiceQueue "3/6, 4/6" ".set-dice-queue 3/6, 4/6" /\ evaluated "2D6" /\ ~ asks_to_quit "2D6".
Proof.
  split; [|split].
  - split; [vm_compute; intuition discriminate|]. split.
    + split; intros a t H K; [|].
      * injection H as <- _. unfold white in K. cbn in K. vm_compute in K. intuition discriminate.
      * assert (last (list_ascii_of_string "3/6, 4/6") a = a) as E by (rewrite H, las_app; apply last_last). vm_compute in E. subst a. unfold white in K. vm_compute in K. intuition discriminate.
    + right. exists " "%string. split; [repeat constructor; vm_compute; tauto|]. split; [discriminate|reflexivity].
  - split; [discriminate|]. intros c rest (H & _). discriminate H.
  - intros [H|(rest & H & _)]; discriminate H.
Qed.
