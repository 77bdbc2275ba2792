(** Proofs about the REPL. *)
From Verif Require Import ProofBase SpecText SpecFiles FileProofs NumberText Dice SpecDice DiceProofs Comp CompProofs BCDice BCDiceProofs TestCase SExp Repl SpecRepl RegexUses.
Open Scope list_scope.
Open Scope Z_scope.

(** ** Dispatching a line *)
Lemma name_char_iff a : is_name_char a = true <-> name_char a.
Proof. unfold is_name_char, name_char. rewrite orb_true_iff, andb_true_iff, Z.eqb_eq, !Z.leb_le. tauto. Qed.
Lemma take_name_spec s : exists n r, take_name s = (n, r) /\ s = (n ++ r)%string /\ Forall name_char (list_ascii_of_string n) /\ name_ends r.
Proof.
  induction s as [|a s (n & r & E1 & E2 & E3 & E4)]; cbn [take_name].
  - exists EmptyString, EmptyString. repeat split. constructor.
  - destruct (is_name_char a) eqn:Ea.
    + rewrite E1. exists (String a n), r. split; [reflexivity|]. split; [cbn; congruence|]. split; [constructor; [apply name_char_iff, Ea|exact E3]|exact E4].
    + exists EmptyString, (String a s). repeat split; [constructor|]. cbn. intros H. apply name_char_iff in H. congruence.
Qed.
Lemma take_name_app n r : Forall name_char (list_ascii_of_string n) -> name_ends r -> take_name (n ++ r) = (n, r).
Proof.
  intros Hd Hr. induction n as [|a n IH]; cbn [append].
  - destruct r as [|a r]; [reflexivity|]. cbn [take_name]. destruct (is_name_char a) eqn:E; [apply name_char_iff in E; contradiction|reflexivity].
  - inversion Hd; subst. cbn [take_name]. rewrite (proj2 (name_char_iff a)) by assumption. rewrite IH by assumption. reflexivity.
Qed.
Lemma rcmd_name_chars c : Forall name_char (list_ascii_of_string (command_name c)).
Proof. destruct c; cbn; repeat (constructor; [apply name_char_iff; reflexivity|]); constructor. Qed.
Lemma find_rcmd_iff name c : find_rcmd name = Some c <-> name = command_name c.
Proof.
  split.
  - unfold find_rcmd. intros H. apply find_some in H as (_ & H). apply String.eqb_eq in H. symmetry; exact H.
  - intros ->. destruct c; reflexivity.
Qed.
(** The arguments of a command: the second group of the regular expression, without the white space at the end *)
Definition args_of (rest : string) : string :=
  trim_right_spaces (raw_args rest).
Lemma match_addressed t c rest : addresses t c rest -> exists a, match_command t = Some (command_name c, a) /\ trim_right_spaces a = args_of rest.
Proof.
  intros (-> & H). rewrite match_command_eq. cbn [append hand_name]. change (Ascii.eqb "." ".") with true. cbv iota. rewrite take_name_app; [|apply rcmd_name_chars|exact H].
  replace (is_empty (command_name c)) with false by (destruct c; reflexivity). eexists. split; reflexivity.
Qed.
Lemma match_not_addressed t : (forall c rest, ~ addresses t c rest) -> match match_command t with Some (name, _) => find_rcmd name = None | None => True end.
Proof.
  intros H. rewrite match_command_eq. destruct t as [|a t]; [exact I|]. cbn [hand_name]. destruct (Ascii.eqb a ".") eqn:Ea; [|exact I]. apply Ascii.eqb_eq in Ea as ->.
  destruct (take_name_spec t) as (n & r & E1 & E2 & E3 & E4). rewrite E1. destruct (is_empty n); [exact I|]. destruct (find_rcmd n) as [c|] eqn:E; [|reflexivity]. apply find_rcmd_iff in E as ->.
  exfalso. apply (H c r). split; [rewrite E2; reflexivity|exact E4].
Qed.
Lemma dot_q_not_addressed c rest : ~ addresses ".q" c rest.
Proof. intros (H & _). destruct c; discriminate H. Qed.
Definition finish (s : rstep) : turn := match s with RCont r' => TNext r' | RCrash p => TCrash p | RAssert => TAssert end.
Lemma turn_entered r seed inp : rp_terminated r = false ->
  repl_turn r seed inp = match entered inp with None => TNext r | Some t =>
     if String.eqb t ".q" then TReturn r else
     match match_command t with
     | None => finish (repl_eval r t)
     | Some (name, args) => match find_rcmd name with None => finish (repl_eval r t) | Some c => finish (handle r seed c (trim_right_spaces args)) end
     end end.
Proof. intros H. unfold repl_turn. rewrite H. destruct inp; reflexivity. Qed.
Lemma turn_quit_line r seed inp : rp_terminated r = false -> entered inp = Some ".q"%string -> repl_turn r seed inp = TReturn r.
Proof. intros H E. rewrite turn_entered, E by exact H. reflexivity. Qed.
Lemma turn_command r seed inp t c rest : rp_terminated r = false -> entered inp = Some t -> addresses t c rest -> repl_turn r seed inp = finish (handle r seed c (args_of rest)).
Proof.
  intros H E Ha. rewrite turn_entered, E by exact H. destruct (String.eqb t ".q") eqn:Eq; [apply String.eqb_eq in Eq as ->; destruct (dot_q_not_addressed _ _ Ha)|].
  destruct (match_addressed _ _ _ Ha) as (a & -> & ->). rewrite (proj2 (find_rcmd_iff _ c) eq_refl). reflexivity.
Qed.
Lemma turn_eval r seed inp t : rp_terminated r = false -> entered inp = Some t -> evaluated t -> repl_turn r seed inp = finish (repl_eval r t).
Proof.
  intros H E (Hq & Ha). rewrite turn_entered, E by exact H. apply String.eqb_neq in Hq. rewrite Hq. apply match_not_addressed in Ha. destruct (match_command t) as [(name, a)|]; [rewrite Ha|]; reflexivity.
Qed.
(** Every line is one of the three *)
Lemma line_cases t : t = ".q"%string \/ (exists c rest, addresses t c rest) \/ evaluated t.
Proof.
  destruct (String.eqb t ".q") eqn:Eq; [left; apply String.eqb_eq, Eq|right]. apply String.eqb_neq in Eq.
  destruct t as [|a t]; [right; split; [exact Eq|intros c rest (H & _); discriminate]|]. destruct (Ascii.eqb a ".") eqn:Ea.
  - apply Ascii.eqb_eq in Ea as ->. destruct (take_name_spec t) as (n & r & E1 & E2 & E3 & E4). destruct (find_rcmd n) as [c|] eqn:E.
    + left. apply find_rcmd_iff in E as ->. exists c, r. split; [rewrite E2; reflexivity|exact E4].
    + right. split; [exact Eq|]. intros c rest (H & K). cbn in H. injection H as H. subst t. rewrite H in E1. rewrite take_name_app in E1 by (apply rcmd_name_chars || exact K). injection E1 as <- <-.
      rewrite (proj2 (find_rcmd_iff _ c) eq_refl) in E. discriminate.
  - right. split; [exact Eq|]. intros c rest (H & _). cbn in H. injection H as -> _. discriminate.
Qed.

(** ** The invariant *)
Definition inv (r : repl) : Prop := (rp_feeder r < length (rp_heap r))%nat /\ rp_roller r = rp_feeder r /\ rp_bc r = rp_feeder r.
Lemma inv_same r : inv r -> same_feeder r.
Proof. intros (_ & H1 & H2). unfold same_feeder, current. rewrite H1, H2. repeat split. Qed.
Lemma set_nth_length {A} (l : list A) : forall i x, length (set_nth l i x) = length l.
Proof. induction l as [|y l IH]; intros [|i] x; cbn; congruence. Qed.
Lemma set_nth_nth {A} (l : list A) d : forall i x, (i < length l)%nat -> nth i (set_nth l i x) d = x.
Proof. induction l as [|y l IH]; intros [|i] x H; cbn in *; try lia; [reflexivity|]. apply IH. lia. Qed.
Lemma set_nth_twice {A} (l : list A) : forall i x y, set_nth (set_nth l i x) i y = set_nth l i y.
Proof. induction l as [|z l IH]; intros [|i] x y; cbn; congruence. Qed.
Lemma set_nth_same {A} (l : list A) d : forall i, (i < length l)%nat -> set_nth l i (nth i l d) = l.
Proof. induction l as [|z l IH]; intros [|i] H; cbn in *; try lia; [reflexivity|]. f_equal. apply IH. lia. Qed.
Lemma inv_print r s : inv r -> inv (print r s).
Proof. intros H. exact H. Qed.
Lemma inv_store r p f : inv r -> inv (store r p f).
Proof. intros (H1 & H2). unfold inv, store. cbn. rewrite set_nth_length. split; assumption. Qed.
Lemma current_print r s : current (print r s) = current r.
Proof. reflexivity. Qed.
Lemma current_store r f : inv r -> current (store r (rp_feeder r) f) = f.
Proof. intros (H & _). unfold current, deref, store. cbn. apply set_nth_nth, H. Qed.
Lemma store_back r f : inv r -> store (store r (rp_feeder r) f) (rp_feeder r) (current r) = r.
Proof. intros (H & _). destruct r as [h fe ro bc b t o]. unfold store, current, deref in *. cbn in *. rewrite set_nth_twice, set_nth_same by exact H. reflexivity. Qed.
Lemma store_print r p f s : store (print r s) p f = print (store r p f) s.
Proof. reflexivity. Qed.
Lemma inv_start seed : inv (start_repl seed).
Proof. unfold inv, start_repl. cbn. repeat split. lia. Qed.

(** ** Handlers that use dice *)
Definition out_of (o : outcome string) (r : repl) : rstep := match o with Ok s => RCont (print r s) | Err e => RCont (print_error r e) | Panic p => RCrash p end.
(** [body] takes dice from the current feeder *)
Definition takes (body : repl -> rstep) (act : feeder -> outcome string * feeder) : Prop :=
  forall r, inv r -> body r = let '(o, f) := act (current r) in out_of o (store r (rp_feeder r) f).
Lemma restoring_spec r body act : inv r -> takes body act -> (forall q o f, act (FQueue q) = (o, f) -> exists q', f = FQueue q') ->
  restoring r body = match current r with
    | FQueue ds => out_of (fst (act (FQueue ds))) r
    | FRandom i k => let '(o, f) := act (FRandom i k) in out_of o (store r (rp_feeder r) f)
    end.
Proof.
  intros Hi Hb Hq. unfold restoring. fold (current r). destruct (current r) as [ds|i k] eqn:E; cbn [can_specify_die].
  - rewrite (Hb r Hi), E. destruct (act (FQueue ds)) as [o f] eqn:Ea. destruct (Hq _ _ _ Ea) as (q' & ->). cbn [fst]. destruct o as [s|e|p]; cbn [out_of].
    + fold (current (print (store r (rp_feeder r) (FQueue q')) s)). rewrite current_print, current_store by exact Hi. cbn [rp_feeder print store]. rewrite store_print. unfold queue_set. rewrite <- E. rewrite store_back by exact Hi. reflexivity.
    + unfold print_error. fold (current (print (store r (rp_feeder r) (FQueue q')) (esc "31" ++ e ++ esc "0" ++ nl))). rewrite current_print, current_store by exact Hi. cbn [rp_feeder print store]. rewrite store_print. unfold queue_set. rewrite <- E. rewrite store_back by exact Hi. reflexivity.
    + reflexivity.
  - rewrite (Hb r Hi), E. reflexivity.
Qed.
(** what eval does with dice, and what it prints *)
Definition eval_act (bot : dicebot) (input : string) (f : feeder) : outcome string * feeder :=
  let '(command, secret) := check_secret input in
  let '(o, f') := execute_command_with bot command f in
  (match o with
   | Ok res => Ok (result_header ++ (if secret then secret_header else "") ++ message res ++ nl)%string
   | Err e => Err e
   | Panic p => Panic p
   end, f').
Definition roll_act (num sides : Z) (f : feeder) : outcome string * feeder :=
  let '(o, f') := roll_dice num sides f in
  (match o with Ok ds => Ok (result_header ++ format_dice ds ++ nl)%string | Err e => Err e | Panic p => Panic p end, f').
(** the effect on the REPL *)
Definition with_dice_of (r : repl) (act : feeder -> outcome string * feeder) : rstep :=
  match current r with
  | FQueue ds => out_of (fst (act (FQueue ds))) r
  | FRandom i k => let '(o, f) := act (FRandom i k) in out_of o (store r (rp_feeder r) f)
  end.
Lemma eval_act_queue bot input q o f : eval_act bot input (FQueue q) = (o, f) -> exists q', f = FQueue q'.
Proof.
  unfold eval_act. destruct (check_secret input) as [c s]. destruct (execute_command_with bot c (FQueue q)) as [o1 f1] eqn:E. intros [= _ <-].
  apply execute_command_draws in E as (ds & E). apply draws_queue in E as (q' & -> & _). eauto.
Qed.
Lemma roll_act_queue n s q o f : roll_act n s (FQueue q) = (o, f) -> exists q', f = FQueue q'.
Proof.
  unfold roll_act. destruct (roll_dice n s (FQueue q)) as [o1 f1] eqn:E. intros [= _ <-]. apply roll_dice_draws in E as (ds & E). apply draws_queue in E as (q' & -> & _). eauto.
Qed.
Lemma repl_eval_spec r t : inv r -> repl_eval r t = if is_empty t then RCont (print_usage r REval) else with_dice_of r (eval_act (rp_bot r) t).
Proof.
  intros Hi. unfold repl_eval. destruct (is_empty t); [reflexivity|]. unfold with_dice_of.
  (* the body depends on the bot of its argument, which is that of r *)
  match goal with |- restoring r ?b = _ => set (body := b) end.
  assert (forall r', rp_bot r' = rp_bot r -> inv r' -> body r' = let '(o, f) := eval_act (rp_bot r) t (current r') in out_of o (store r' (rp_feeder r') f)) as Hb.
  { intros r' Hbot (_ & _ & H2). unfold body, eval_act. rewrite Hbot, H2. fold (current r'). destruct (check_secret t) as [c s]. destruct (execute_command_with (rp_bot r) c (current r')) as [[res|e|p] f]; reflexivity. }
  replace (restoring r body) with (restoring r (fun r' => let '(o, f) := eval_act (rp_bot r) t (current r') in out_of o (store r' (rp_feeder r') f))).
  - apply restoring_spec; [exact Hi|intros r' _; reflexivity|apply eval_act_queue].
  - unfold restoring. rewrite (Hb r eq_refl Hi). reflexivity.
Qed.
Lemma repl_roll_spec r t : inv r -> repl_roll r t = match match_roll t with None => RCont (print_usage r RRoll) | Some (a, b) => with_dice_of r (roll_act (saturated a) (saturated b)) end.
Proof.
  intros Hi. unfold repl_roll. destruct (match_roll t) as [(a, b)|]; [|reflexivity]. unfold with_dice_of. apply restoring_spec; [exact Hi| |apply roll_act_queue].
  intros r' (_ & H1 & _). unfold roll_act. rewrite H1, !atoi_saturated. fold (current r'). destruct (roll_dice (saturated a) (saturated b) (current r')) as [[ds|e|p] f]; reflexivity.
Qed.
(** ** What the handlers keep *)
Definition printed (r : repl) (ss : list string) : repl :=
  Repl (rp_heap r) (rp_feeder r) (rp_roller r) (rp_bc r) (rp_bot r) (rp_terminated r) (rp_out r ++ ss).
Lemma print_printed r s : print r s = printed r [s].
Proof. reflexivity. Qed.
Lemma printed_fold {A} (f : A -> string) l : forall r, fold_left (fun r x => print r (f x)) l r = printed r (map f l).
Proof.
  induction l as [|x l IH]; intros r; cbn [fold_left map]; [unfold printed; rewrite app_nil_r; destruct r; reflexivity|]. rewrite IH. unfold printed, print. cbn. rewrite <- app_assoc. reflexivity.
Qed.
Lemma inv_printed r ss : inv r -> inv (printed r ss).
Proof. intros H. exact H. Qed.
(** a step that does not fail an assertion and keeps the invariant and, if the dice are specified, the dice *)
Definition keeps (r : repl) (s : rstep) : Prop :=
  match s with
  | RCont r' => inv r' /\ rp_terminated r' = rp_terminated r /\ (forall ds, current r = FQueue ds -> current r' = FQueue ds)
  | RCrash _ => True
  | RAssert => False
  end.
Lemma keeps_printed r ss : inv r -> keeps r (RCont (printed r ss)).
Proof. intros H. split; [apply inv_printed, H|]. split; [reflexivity|]. intros ds E. exact E. Qed.
Lemma keeps_with_dice r act : inv r -> keeps r (with_dice_of r act).
Proof.
  intros Hi. unfold with_dice_of. destruct (current r) as [ds|i k] eqn:E.
  - destruct (fst (act (FQueue ds))); cbn [out_of]; try exact I; unfold print_error; rewrite print_printed; apply keeps_printed, Hi.
  - destruct (act (FRandom i k)) as [o f]. destruct o; cbn [out_of]; try exact I; unfold print_error; (split; [apply inv_print, inv_store, Hi|]); (split; [reflexivity|]); intros ds E'; congruence.
Qed.
Lemma keeps_eval r t : inv r -> keeps r (repl_eval r t).
Proof. intros Hi. rewrite repl_eval_spec by exact Hi. destruct (is_empty t); [apply (keeps_printed r [_]), Hi|apply keeps_with_dice, Hi]. Qed.
Lemma keeps_handle r seed c a : inv r -> c <> RSetDieFeeder -> c <> RSetDiceQueue -> c <> RQuit -> keeps r (handle r seed c a).
Proof.
  intros Hi H1 H2 H3. destruct c; try congruence; cbn [handle].
  - unfold print_sexp. destruct (is_empty a); [apply (keeps_printed r [_]), Hi|]. destruct (check_secret a) as [cm s]. rewrite ?parse_text_eq. destruct (parse_command cm); [apply (keeps_printed r [_]), Hi|apply (keeps_printed r [_]), Hi|exact I].
  - apply keeps_eval, Hi.
  - rewrite repl_roll_spec by exact Hi. destruct (match_roll a) as [(x, y)|]; [apply keeps_with_dice, Hi|apply (keeps_printed r [_]), Hi].
  - unfold repl_set_game. destruct (is_empty a); [apply (keeps_printed r [_]), Hi|]. destruct (find_bot game_registry a); [|apply (keeps_printed r [_]), Hi|exact I]. split; [exact Hi|]. split; [reflexivity|]. intros ds E. exact E.
  - unfold repl_list_games. rewrite (printed_fold (fun id => id ++ nl)%string). apply keeps_printed, Hi.
  - unfold repl_help. rewrite printed_fold. apply keeps_printed, Hi.
Qed.
(** all handlers keep the invariant *)
Definition safe_step (s : rstep) : Prop := match s with RCont r' => inv r' | RCrash _ => True | RAssert => False end.
Lemma inv_install r f : inv (install_feeder r f) /\ current (install_feeder r f) = f.
Proof. unfold inv, current, deref, install_feeder. cbn. rewrite app_length. cbn. repeat split; [lia|]. rewrite app_nth2, Nat.sub_diag by lia. reflexivity. Qed.
Lemma safe_handle r seed c a : inv r -> safe_step (handle r seed c a).
Proof.
  intros Hi. assert (forall s, keeps r s -> safe_step s) as K by (intros [r'|p|]; cbn; tauto).
  destruct c; try (apply K, keeps_handle; [exact Hi|discriminate..]); cbn [handle].
  - unfold repl_set_die_feeder. cbv zeta. destruct (String.eqb _ _); [apply inv_install|]. destruct (String.eqb _ _); [apply inv_install|exact Hi].
  - unfold repl_set_dice_queue. fold (current r). destruct (current r) as [q|i k]; cbn [can_specify_die negb]; [|exact Hi]. pose proof (parse_dice_not_panic a) as Hp. destruct (parse_dice a) as [ds|e|p]; [apply inv_print, inv_store, Hi|exact Hi|destruct (Hp p eq_refl)].
  - exact Hi.
Qed.
Lemma turn_safe r seed inp : inv r -> match repl_turn r seed inp with TNext r' => inv r' | TReturn r' => r' = r | TCrash _ => True | TAssert => False end.
Proof.
  intros Hi. destruct (rp_terminated r) eqn:Et; [unfold repl_turn; rewrite Et; reflexivity|]. destruct (entered inp) as [t|] eqn:Ee; [|rewrite turn_entered, Ee by exact Et; exact Hi].
  destruct (line_cases t) as [->|[(c & rest & Ha)|He]].
  - rewrite turn_quit_line by assumption. reflexivity.
  - rewrite (turn_command r seed inp t c rest Et Ee Ha). pose proof (safe_handle r seed c (args_of rest) Hi) as K. destruct (handle r seed c (args_of rest)); exact K.
  - rewrite (turn_eval r seed inp t Et Ee He). pose proof (keeps_eval r t Hi) as K. destruct (repl_eval r t); cbn in *; tauto.
Qed.
Lemma run_safe n : forall k inputs seeds r, inv r -> match repl_run n k inputs seeds r with TNext r' | TReturn r' => inv r' | TCrash _ => True | TAssert => False end.
Proof.
  induction n as [|n IH]; intros k inputs seeds r Hi; cbn [repl_run]; [exact Hi|]. pose proof (turn_safe r (seeds k) (inputs k) Hi) as K. destruct (repl_turn r (seeds k) (inputs k)) as [r'|r'|p|]; [apply IH, K|subst; exact Hi|exact I|exact K].
Qed.
Lemma reached_inv r : reached r -> inv r.
Proof. intros (n & seed & inputs & seeds & E). pose proof (run_safe n 0 inputs seeds _ (inv_start seed)) as K. rewrite E in K. exact K. Qed.
(** ** Ending *)
Lemma turn_terminated r seed inp r' : inv r -> repl_turn r seed inp = TNext r' -> rp_terminated r = false /\ (rp_terminated r' = false \/ exists t, entered inp = Some t /\ asks_to_quit t).
Proof.
  intros Hi E. destruct (rp_terminated r) eqn:Et; [unfold repl_turn in E; rewrite Et in E; discriminate|]. split; [reflexivity|]. destruct (entered inp) as [t|] eqn:Ee; [|rewrite turn_entered, Ee in E by exact Et; left; congruence].
  destruct (line_cases t) as [->|[(c & rest & Ha)|He]].
  - rewrite turn_quit_line in E by assumption. discriminate.
  - rewrite (turn_command r seed inp t c rest Et Ee Ha) in E.
    destruct c; try (left; match type of E with finish (handle r seed ?c ?a) = _ => pose proof (keeps_handle r seed c a Hi ltac:(discriminate) ltac:(discriminate) ltac:(discriminate)) as K; destruct (handle r seed c a); [injection E as ->; cbn in K; destruct K as (_ & K & _); congruence|discriminate|discriminate] end); cbn [handle] in E.
    + left. unfold repl_set_die_feeder in E. cbv zeta in E. destruct (String.eqb _ _); [injection E as <-; exact Et|]. destruct (String.eqb _ _); injection E as <-; exact Et.
    + left. unfold repl_set_dice_queue in E. destruct (negb _); [injection E as <-; exact Et|]. destruct (parse_dice _); [|injection E as <-; exact Et|discriminate]. destruct (deref r (rp_feeder r)); [injection E as <-; exact Et|discriminate].
    + right. exists t. split; [reflexivity|]. right. exists rest. exact Ha.
  - rewrite (turn_eval r seed inp t Et Ee He) in E. left. pose proof (keeps_eval r t Hi) as K. destruct (repl_eval r t); [injection E as ->; cbn in K; destruct K as (_ & K & _); congruence|discriminate|discriminate].
Qed.
Lemma turn_return r seed inp r' : repl_turn r seed inp = TReturn r' -> rp_terminated r = true \/ entered inp = Some ".q"%string.
Proof.
  intros E. destruct (rp_terminated r) eqn:Et; [left; reflexivity|right]. rewrite turn_entered in E by exact Et. destruct (entered inp) as [t|]; [|discriminate]. destruct (String.eqb t ".q") eqn:Eq; [apply String.eqb_eq in Eq as ->; reflexivity|].
  exfalso. destruct (match_command t) as [(name, a)|]; [destruct (find_rcmd name)|]; match type of E with finish ?s = _ => destruct s; discriminate end.
Qed.
Lemma run_return n : forall k inputs seeds r r', inv r -> repl_run n k inputs seeds r = TReturn r' ->
  rp_terminated r = true \/ exists j t, (k <= j < k + n)%nat /\ entered (inputs j) = Some t /\ asks_to_quit t.
Proof.
  induction n as [|n IH]; intros k inputs seeds r r' Hi; cbn [repl_run]; [discriminate|]. pose proof (turn_safe r (seeds k) (inputs k) Hi) as K. destruct (repl_turn r (seeds k) (inputs k)) as [r1|r1|p|] eqn:E; try discriminate.
  - intros H. destruct (turn_terminated _ _ _ _ Hi E) as (Et & [Et'|(t & H1 & H2)]).
    + destruct (IH _ _ _ _ _ K H) as [X|(j & t & Hj & H1 & H2)]; [congruence|]. right. exists j, t. split; [lia|]. split; assumption.
    + right. exists k, t. split; [lia|]. split; assumption.
  - intros _. destruct (turn_return _ _ _ _ E) as [X|X]; [left; exact X|]. right. exists k, ".q"%string. split; [lia|]. split; [exact X|left; reflexivity].
Qed.

(** ** Arguments *)
Lemma trim_right_tidy s : (forall a t, s = (t ++ String a EmptyString)%string -> ~ white a) -> trim_right_spaces s = s.
Proof.
  rewrite trim_right_eq. induction s as [|a s IH]; intros H; [reflexivity|]. cbn [hand_trim]. rewrite IH.
  - destruct s as [|b s]; [|reflexivity]. destruct (is_re_space a) eqn:E; [|reflexivity]. apply white_iff in E. destruct (H a EmptyString eq_refl E).
  - intros b t ->. apply (H b (String a t)). reflexivity.
Qed.
Lemma args_blank b a : lacks "010" (b ++ a) -> blank b -> b <> EmptyString -> tidy a -> args_of (b ++ a) = a.
Proof.
  intros Hl Hb Hn (H1 & H2). unfold args_of. rewrite trim_right_eq, raw_args_eq by exact Hl. unfold hand_args. cbv zeta. rewrite skip_blank by exact Hb.
  assert (skip_spaces a = a) as ->. { destruct a as [|c a]; [reflexivity|]. cbn [skip_spaces]. destruct (is_re_space c) eqn:E; [apply white_iff in E; destruct (H1 c a eq_refl E)|reflexivity]. }
  rewrite length_append. destruct (Nat.eqb _ _) eqn:E; [apply Nat.eqb_eq in E; destruct b; [congruence|cbn in E; lia]|]. rewrite <- trim_right_eq. apply trim_right_tidy, H2.
Qed.
Lemma white_not_name a : white a -> ~ name_char a.
Proof. unfold white, name_char. cbn [In]. intuition lia. Qed.
Lemma command_line_addresses c a t : command_line c a t -> exists rest, addresses t c rest /\ args_of rest = a.
Proof.
  intros (Hl & Ht & [(-> & ->)|(b & Hb & Hn & ->)]).
  - exists EmptyString. split; [|reflexivity]. split; [rewrite app_nil_s; reflexivity|exact I].
  - exists (b ++ a)%string. split; [|apply args_blank; [|assumption..]; rewrite !lacks_app in Hl; rewrite lacks_app; tauto]. split; [reflexivity|]. destruct b as [|x b]; [congruence|]. cbn. apply white_not_name. inversion Hb. assumption.
Qed.
Lemma turn_command_line r seed inp t c a : rp_terminated r = false -> entered inp = Some t -> command_line c a t -> repl_turn r seed inp = finish (handle r seed c a).
Proof. intros H1 H2 H3. destruct (command_line_addresses _ _ _ H3) as (rest & H4 & <-). eapply turn_command; eassumption. Qed.
Lemma match_roll_iff t a b : match_roll t = Some (a, b) <-> exists sp, t = (a ++ sp ++ b)%string /\ digits a /\ digits b /\ blank sp /\ sp <> EmptyString.
Proof.
  rewrite match_roll_eq. unfold hand_roll. split.
  - destruct (take_digits_spec t) as (d & r1 & E1 & E2 & E3 & _). rewrite E1. destruct (is_empty d) eqn:Ed; [discriminate|]. cbv zeta. destruct (skip_spaces_spec r1) as (sp & Hs & Er).
    destruct (Nat.eqb _ _) eqn:El; [discriminate|]. destruct (take_digits_spec (skip_spaces r1)) as (d2 & r3 & F1 & F2 & F3 & _). rewrite F1. destruct (is_empty d2) eqn:Ed2; [discriminate|].
    destruct (is_empty r3) eqn:E3'; [|discriminate]. destruct r3; [|discriminate]. rewrite app_nil_s in F2. intros [= <- <-]. exists sp. rewrite F2 in Er. split; [congruence|].
    split; [split; [apply empty_false, Ed|exact E3]|]. split; [split; [apply empty_false, Ed2|exact F3]|]. split; [exact Hs|]. intros ->. cbn in Er. rewrite F2, Er, Nat.eqb_refl in El. discriminate.
  - intros (sp & -> & Ha & Hb & Hs & Hn). destruct sp as [|x sp]; [congruence|]. rewrite take_digits_app; [|apply Ha|inversion Hs; subst; cbn; intros K; exact (digit_not_white _ K ltac:(assumption))].
    rewrite (proj2 (empty_false a)) by apply Ha. cbv zeta. rewrite skip_blank by exact Hs. destruct (digits_head b "" Hb) as (c & b' & E & Hc). rewrite app_nil_s in E.
    assert (skip_spaces b = b) as ->. { rewrite E. cbn [skip_spaces]. destruct (is_re_space c) eqn:Es; [apply white_iff in Es; destruct (digit_not_white _ Hc Es)|reflexivity]. }
    rewrite length_append. destruct (Nat.eqb _ _) eqn:El; [apply Nat.eqb_eq in El; cbn in El; lia|]. rewrite <- (app_nil_s b) at 1. rewrite take_digits_app; [|apply Hb|exact I]. rewrite (proj2 (empty_false b)) by apply Hb. reflexivity.
Qed.
