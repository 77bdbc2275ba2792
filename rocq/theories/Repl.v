(** cmd/GoBCDiceREPL/repl/repl.go: the read-eval-print loop. *)
From Verif Require Export TestCase SExp.
Open Scope list_scope.
Open Scope Z_scope.

(** Feeders are objects shared by pointer; they live in a heap and are referred to by their index.
    repl.go:95-103 [REPL]; [rp_roller] is the feeder inside r.diceRoller, [rp_bc] the one inside r.bcDice (the
    field dieFeeder and the feeder of its roller, set together, bcdice.go:54-57).  [rp_out] collects what is printed. *)
Record repl := Repl {
  rp_heap : list feeder;
  rp_feeder : nat;
  rp_roller : nat;
  rp_bc : nat;
  rp_bot : dicebot;
  rp_terminated : bool;
  rp_out : list string
}.

Definition deref (r : repl) (p : nat) : feeder := nth p (rp_heap r) (FQueue []).
Fixpoint set_nth {A} (l : list A) (i : nat) (x : A) : list A :=
  match l, i with
  | [], _ => []
  | _ :: l', O => x :: l'
  | y :: l', S i' => y :: set_nth l' i' x
  end.
Definition store (r : repl) (p : nat) (f : feeder) : repl :=
  Repl (set_nth (rp_heap r) p f) (rp_feeder r) (rp_roller r) (rp_bc r) (rp_bot r) (rp_terminated r) (rp_out r).
Definition print (r : repl) (s : string) : repl :=
  Repl (rp_heap r) (rp_feeder r) (rp_roller r) (rp_bc r) (rp_bot r) (rp_terminated r) (rp_out r ++ [s]).

(** repl.go:22-39: the escape sequences *)
Definition esc (s : string) : string := String "027" ("[" ++ s ++ "m")%string.
Definition result_header : string := (esc "36" ++ "=>" ++ esc "0" ++ " ")%string.
Definition secret_header : string := (esc "33" ++ "[secret]" ++ esc "0" ++ " ")%string.
(** repl.go:290-297 *)
Definition print_ok (r : repl) : repl := print r (esc "36" ++ "OK" ++ esc "0" ++ nl)%string.
Definition print_error (r : repl) (e : string) : repl := print r (esc "31" ++ e ++ esc "0" ++ nl)%string.

(** repl.go:41-50, 107-163: the commands *)
Inductive rcmd := RAst | REval | RRoll | RSetGame | RListGames | RSetDieFeeder | RSetDiceQueue | RHelp | RQuit.
Definition rcmd_name (c : rcmd) : string :=
  match c with
  | RAst => "ast" | REval => "eval" | RRoll => "roll" | RSetGame => "set-game" | RListGames => "list-games"
  | RSetDieFeeder => "set-die-feeder" | RSetDiceQueue => "set-dice-queue" | RHelp => "help" | RQuit => "quit"
  end.
Definition rcmd_args (c : rcmd) : string :=
  match c with
  | RAst | REval => "BCDiceコマンド" | RRoll => "振る数 面の数" | RSetGame => "ゲーム識別子"
  | RSetDieFeeder => "mt/queue" | RSetDiceQueue => "[値/面数[, 値/面数]...]" | RListGames | RHelp | RQuit => ""
  end.
Definition all_rcmds : list rcmd :=
  [RAst; REval; RRoll; RSetGame; RListGames; RSetDieFeeder; RSetDiceQueue; RHelp; RQuit].
(** repl.go:165-168: commandMap *)
Definition find_rcmd (name : string) : option rcmd := find (fun c => String.eqb (rcmd_name c) name) all_rcmds.

(** repl.go:72-80, 276-278 *)
Definition usage (c : rcmd) : string :=
  if is_empty (rcmd_args c) then ("." ++ rcmd_name c)%string else ("." ++ rcmd_name c ++ " " ++ rcmd_args c)%string.
Definition print_usage (r : repl) (c : rcmd) : repl := print r ("使用法: " ++ usage c ++ nl)%string.

(** What a handler does: continue with a new state, crash because a called function panics, or crash because a
    type assertion of the REPL itself fails *)
Inductive rstep := RCont (r : repl) | RCrash (msg : string) | RAssert.

(** repl.go:300-322 [printSExp] *)
Definition print_sexp (r : repl) (input : string) : rstep :=
  if is_empty input then RCont (print_usage r RAst)
  else
    let '(command, secret) := check_secret input in
    match parse_text "REPL" command with
    | Err e => RCont (print_error r e)
    | Panic p => RCrash p
    | Ok n => RCont (print r (result_header ++ (if secret then secret_header else "") ++ sexp n ++ nl)%string)
    end.

(** repl.go:333-339, 369-375: remember the dice of a queue and put them back afterwards.  The type
    assertions to feeder.Queue are checked: CanSpecifyDie holds exactly for queues. *)
Definition restoring (r : repl) (body : repl -> rstep) : rstep :=
  if can_specify_die (deref r (rp_feeder r)) then
    match deref r (rp_feeder r) with
    | FQueue ds =>
        match body r with
        | RCont r' =>
            match deref r' (rp_feeder r') with
            | FQueue q => RCont (store r' (rp_feeder r') (FQueue (queue_set q ds)))
            | FRandom _ _ => RAssert
            end
        | RCrash p => RCrash p
        | RAssert => RAssert
        end
    | FRandom _ _ => RAssert
    end
  else body r.

(** repl.go:326-355 [eval] *)
Definition repl_eval (r : repl) (input : string) : rstep :=
  if is_empty input then RCont (print_usage r REval)
  else
    restoring r (fun r =>
      let '(command, secret) := check_secret input in
      match execute_command_with (rp_bot r) command (deref r (rp_bc r)) with
      | (Ok res, f) =>
          RCont (print (store r (rp_bc r) f)
                   (result_header ++ (if secret then secret_header else "") ++ message res ++ nl)%string)
      | (Err e, f) => RCont (print_error (store r (rp_bc r) f) e)
      | (Panic p, _) => RCrash p
      end).

(** repl.go:357: [\A(\d+)\s+(\d+)\z] *)
Definition roll_dice_re : re :=
  RSeqs [RBegin; RGroup 1 (RPlus (RChar re_digit)); RPlus (RChar re_space); RGroup 2 (RPlus (RChar re_digit)); REnd].
(** repl.go:362 *)
Definition match_roll (s : string) : option (string * string) :=
  match find_submatch roll_dice_re s with Some cs => Some (group cs 1, group cs 2) | None => None end.

(** repl.go:361-387 [rollDice] *)
Definition repl_roll (r : repl) (input : string) : rstep :=
  match match_roll input with
  | None => RCont (print_usage r RRoll)
  | Some (a, b) =>
      restoring r (fun r =>
        match roll_dice (atoi_str a) (atoi_str b) (deref r (rp_roller r)) with
        | (Ok ds, f) => RCont (print (store r (rp_roller r) f) (result_header ++ format_dice ds ++ nl)%string)
        | (Err e, f) => RCont (print_error (store r (rp_roller r) f) e)
        | (Panic p, _) => RCrash p
        end)
  end.

(** repl.go:390-404 [setGame] *)
Definition repl_set_game (r : repl) (input : string) : rstep :=
  if is_empty input then RCont (print r (db_game_id (rp_bot r) ++ nl)%string)
  else
    match find_bot game_registry input with
    | Ok b =>
        RCont (print_ok (Repl (rp_heap r) (rp_feeder r) (rp_roller r) (rp_bc r) b (rp_terminated r) (rp_out r)))
    | Err e => RCont (print_error r e)
    | Panic p => RCrash p
    end.

(** repl.go:407-412 [listGames] *)
Definition repl_list_games (r : repl) : rstep :=
  RCont (fold_left (fun r id => print r (id ++ nl)%string) (available_game_ids game_registry true) r).

(** strings.ToLower, compared with "queue" and "mt" only *)
Definition lower_ascii (a : ascii) : ascii :=
  let b := byte_val a in if (65 <=? b) && (b <=? 90) then byte_of (b + 32) else a.
Fixpoint lower_string (s : string) : string :=
  match s with EmptyString => EmptyString | String a s' => String (lower_ascii a) (lower_string s') end.

(** repl.go:419-438 [setDieFeeder]; [seed] is the generator that a new MT19937 would use *)
Definition install_feeder (r : repl) (f : feeder) : repl :=
  let p := length (rp_heap r) in
  Repl (rp_heap r ++ [f]) p p p (rp_bot r) (rp_terminated r) (rp_out r).
Definition repl_set_die_feeder (r : repl) (seed : nat -> Z -> Z) (input : string) : rstep :=
  let t := lower_string input in
  if String.eqb t "queue" then RCont (print_ok (install_feeder r (FQueue [])))
  else if String.eqb t "mt" then RCont (print_ok (install_feeder r (FRandom seed 0)))
  else RCont (print_usage r RSetDieFeeder).

(** repl.go:442-458 [setDiceQueue] *)
Definition repl_set_dice_queue (r : repl) (input : string) : rstep :=
  if negb (can_specify_die (deref r (rp_feeder r))) then
    RCont (print_error r "現在のダイス供給方法では、取り出されるダイスの列を設定できません")
  else
    match parse_dice input with
    | Err e => RCont (print_error r e)
    | Panic p => RCrash p
    | Ok ds =>
        match deref r (rp_feeder r) with
        | FQueue q => RCont (print_ok (store r (rp_feeder r) (FQueue (queue_set q ds))))
        | FRandom _ _ => RAssert
        end
    end.

(** repl.go:107-163: the descriptions *)
Definition rcmd_description (c : rcmd) : string :=
  match c with
  | RAst => "入力されたBCDiceコマンドのASTをS式の形で出力します"
  | REval => "入力されたBCDiceコマンドを評価します"
  | RRoll => "ダイスロールを行い、出目を出力します"
  | RSetGame => "指定されたゲームシステムのダイスボットを使用するように設定します"
  | RListGames => "利用可能なゲームシステムの識別子の一覧を出力します"
  | RSetDieFeeder => "ダイスの供給方法を設定します - mt: ランダム、queue: 手動指定"
  | RSetDiceQueue => "ダイスロール時に取り出されるダイスの列を設定します"
  | RHelp => "利用できるコマンドの使用法と説明を出力します"
  | RQuit => "GoBCDiceREPLを終了します"
  end.
(** repl.go:461-471 [printHelp] *)
Definition help_text (c : rcmd) : string :=
  (esc "1" ++ "." ++ rcmd_name c ++ esc "0" ++ (if is_empty (rcmd_args c) then "" else " " ++ rcmd_args c) ++ nl
   ++ "    " ++ rcmd_description c ++ nl)%string.
Definition repl_help (r : repl) : rstep :=
  RCont (fold_left (fun r c => print r (help_text c)) all_rcmds r).

(** repl.go:474-476 [terminateREPL] *)
Definition repl_quit (r : repl) : rstep :=
  RCont (Repl (rp_heap r) (rp_feeder r) (rp_roller r) (rp_bc r) (rp_bot r) true (rp_out r)).

(** repl.go:55, 114-161: the handlers *)
Definition handle (r : repl) (seed : nat -> Z -> Z) (c : rcmd) (args : string) : rstep :=
  match c with
  | RAst => print_sexp r args
  | REval => repl_eval r args
  | RRoll => repl_roll r args
  | RSetGame => repl_set_game r args
  | RListGames => repl_list_games r
  | RSetDieFeeder => repl_set_die_feeder r seed args
  | RSetDiceQueue => repl_set_dice_queue r args
  | RHelp => repl_help r
  | RQuit => repl_quit r
  end.

(** repl.go:89: [\A\.([-a-z]+)(?:\s+(.+))*] *)
Definition re_name (r : Z) : bool := (r =? 45) || ((97 <=? r) && (r <=? 122)).
Definition command_re : re :=
  RSeqs [RBegin; RText "."; RGroup 1 (RPlus (RChar re_name)); RStar (RSeq (RPlus (RChar re_space)) (RGroup 2 (RPlus (RChar re_dot))))].
(** repl.go:251-257, 264: the name and the last text of the second group (empty if there is none) *)
Definition match_command (s : string) : option (string * string) :=
  match find_submatch command_re s with Some cs => Some (group cs 1, group cs 2) | None => None end.
(** repl.go:91: [\s+\z]; 264: ReplaceAllString *)
Definition tail_spaces_re : re := RSeq (RPlus (RChar re_space)) REnd.
Definition trim_right_spaces (s : string) : string := remove_all tail_spaces_re s.
(** strings.TrimSpace *)
Definition trim_space_str (s : string) : string := raw_text (trim_space (decode s)).

(** What readline returns *)
Inductive rline := RLine (s : string) | REof | RInterrupt.

(** Result of one turn of the loop in [Start] *)
Inductive turn := TNext (r : repl) | TReturn (r : repl) | TCrash (msg : string) | TAssert.

(** repl.go:232-266: one iteration.  At end of input readline returns an empty line, and the [break] of
    line 238 only leaves the switch. *)
Definition repl_turn (r : repl) (seed : nat -> Z -> Z) (inp : rline) : turn :=
  if rp_terminated r then TReturn r
  else
    let line_handler (line0 : string) : turn :=
      let line := trim_space_str line0 in
      if String.eqb line ".q" then TReturn r
      else
        let finish (s : rstep) : turn := match s with RCont r' => TNext r' | RCrash p => TCrash p | RAssert => TAssert end in
        match match_command line with
        | None => finish (repl_eval r line)
        | Some (name, args) =>
            match find_rcmd name with
            | None => finish (repl_eval r line)
            | Some c => finish (handle r seed c (trim_right_spaces args))
            end
        end in
    match inp with
    | RInterrupt => TNext r
    | REof => line_handler EmptyString
    | RLine s => line_handler s
    end.

(** repl.go:183-201 [New]: the initial state; the generator is that of the first MT19937 *)
Definition new_repl (seed : nat -> Z -> Z) : repl := Repl [FRandom seed 0] 0 0 0 basic_bot false [].

(** repl.go:281-287 [printWelcomeMessage] *)
Definition welcome : list string :=
  [esc "1" ++ "GoBCDice REPL" ++ esc "0" ++ nl;
   nl ++ "* BCDiceコマンドを入力すると、その評価結果を出力します" ++ nl;
   "* "".help"" と入力すると、利用できるコマンドの使用法と説明を出力します" ++ nl;
   "* "".q"" または "".quit"" と入力すると終了します" ++ nl;
   nl]%string.
(** repl.go:214-230 [Start] before the loop (readline is set up without error) *)
Definition start_repl (seed : nat -> Z -> Z) : repl := fold_left print welcome (new_repl seed).

(** [Start] after [n] turns; [inputs] and [seeds] give what readline and the clock supply at each turn *)
Fixpoint repl_run (n : nat) (k : nat) (inputs : nat -> rline) (seeds : nat -> nat -> Z -> Z) (r : repl) : turn :=
  match n with
  | O => TNext r
  | S n' =>
      match repl_turn r (seeds k) (inputs k) with
      | TNext r' => repl_run n' (S k) inputs seeds r'
      | t => t
      end
  end.
