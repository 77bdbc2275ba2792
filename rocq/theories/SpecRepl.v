(** Vocabulary about the REPL. *)
From Verif Require Import GoBase Dice BCDice TestCase SExp Repl SpecText SpecFiles.
Open Scope list_scope.
Open Scope Z_scope.

(** The feeder of the REPL, and its dice if they are specified by the user *)
Definition current (r : repl) : feeder := deref r (rp_feeder r).
(** The feeders of the three users of dice: the REPL itself, .roll and BCDice *)
Definition same_feeder (r : repl) : Prop :=
  deref r (rp_roller r) = current r /\ deref r (rp_bc r) = current r /\ rp_roller r = rp_feeder r /\ rp_bc r = rp_feeder r.
(** States reached after n turns from the start, whatever was entered *)
Definition reached (r : repl) : Prop :=
  exists n seed inputs seeds, repl_run n 0 inputs seeds (start_repl seed) = TNext r.

(** The names of the commands, as typed after the dot *)
Definition command_name (c : rcmd) : string :=
  match c with
  | RAst => "ast" | REval => "eval" | RRoll => "roll" | RSetGame => "set-game" | RListGames => "list-games"
  | RSetDieFeeder => "set-die-feeder" | RSetDiceQueue => "set-dice-queue" | RHelp => "help" | RQuit => "quit"
  end.
(** A command name continues with small letters and hyphens *)
Definition name_char (a : ascii) : Prop := byte_val a = 45 \/ 97 <= byte_val a <= 122.
Definition name_ends (s : string) : Prop := match s with String a _ => ~ name_char a | EmptyString => True end.
(** The (trimmed) line t begins with the command .name, followed by rest *)
Definition addresses (t : string) (c : rcmd) (rest : string) : Prop :=
  t = ("." ++ command_name c ++ rest)%string /\ name_ends rest.
(** t is not a command for the REPL: it is evaluated *)
Definition evaluated (t : string) : Prop := t <> ".q"%string /\ forall c rest, ~ addresses t c rest.
(** A line that asks the REPL to end *)
Definition asks_to_quit (t : string) : Prop := t = ".q"%string \/ exists rest, addresses t RQuit rest.
(** The text of a turn: the line without the white space around it; readline gives an empty line at the end of the input *)
Definition entered (inp : rline) : option string :=
  match inp with RLine s => Some (trim_space_str s) | REof => Some EmptyString | RInterrupt => None end.
(** No white space at the ends *)
Definition tidy (s : string) : Prop :=
  (forall a t, s = String a t -> ~ white a) /\ (forall a t, s = (t ++ String a EmptyString)%string -> ~ white a).
(** The line ".name args": at least one white space between the name and the arguments; a line contains no line feed *)
Definition command_line (c : rcmd) (args t : string) : Prop :=
  lacks "010" t /\ tidy args /\ ((args = EmptyString /\ t = ("." ++ command_name c)%string) \/
                (exists b, blank b /\ b <> EmptyString /\ t = ("." ++ command_name c ++ b ++ args)%string)).
(** The output of a successful evaluation, of a roll, and of an error *)
Definition shown (secret : bool) (msg : string) : string :=
  (esc "36" ++ "=>" ++ esc "0" ++ " " ++ (if secret then esc "33" ++ "[secret]" ++ esc "0" ++ " " else "") ++ msg ++ newline)%string.
Definition shown_error (e : string) : string := (esc "31" ++ e ++ esc "0" ++ newline)%string.
Definition shown_ok : string := (esc "36" ++ "OK" ++ esc "0" ++ newline)%string.

(** How a command is used *)
Definition usage_text (c : rcmd) : string :=
  match c with
  | RAst => ".ast BCDiceコマンド" | REval => ".eval BCDiceコマンド" | RRoll => ".roll 振る数 面の数" | RSetGame => ".set-game ゲーム識別子"
  | RListGames => ".list-games" | RSetDieFeeder => ".set-die-feeder mt/queue" | RSetDiceQueue => ".set-dice-queue [値/面数[, 値/面数]...]"
  | RHelp => ".help" | RQuit => ".quit"
  end.
Definition shown_usage (c : rcmd) : string := ("使用法: " ++ usage_text c ++ newline)%string.
(** The manual: command, arguments, description *)
Definition manual : list (string * string * string) :=
  [("ast", " BCDiceコマンド", "入力されたBCDiceコマンドのASTをS式の形で出力します");
   ("eval", " BCDiceコマンド", "入力されたBCDiceコマンドを評価します");
   ("roll", " 振る数 面の数", "ダイスロールを行い、出目を出力します");
   ("set-game", " ゲーム識別子", "指定されたゲームシステムのダイスボットを使用するように設定します");
   ("list-games", "", "利用可能なゲームシステムの識別子の一覧を出力します");
   ("set-die-feeder", " mt/queue", "ダイスの供給方法を設定します - mt: ランダム、queue: 手動指定");
   ("set-dice-queue", " [値/面数[, 値/面数]...]", "ダイスロール時に取り出されるダイスの列を設定します");
   ("help", "", "利用できるコマンドの使用法と説明を出力します");
   ("quit", "", "GoBCDiceREPLを終了します")]%string.
Definition manual_entry (e : string * string * string) : string :=
  let '(name, args, description) := e in (esc "1" ++ "." ++ name ++ esc "0" ++ args ++ newline ++ "    " ++ description ++ newline)%string.
(** The REPL goes on having printed these texts, and nothing else changed *)
Definition only_says (r : repl) (ss : list string) (t : turn) : Prop :=
  exists r', t = TNext r' /\ rp_out r' = rp_out r ++ ss /\ current r' = current r /\ same_feeder r' /\ rp_bot r' = rp_bot r /\ rp_terminated r' = false.
