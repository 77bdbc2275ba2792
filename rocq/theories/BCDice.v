(** pkg/bcdice, pkg/dicebot, pkg/dicebot/list, pkg/core/util *)
From Verif Require Export Grammar PegText Regex Command.
Open Scope list_scope.
Open Scope Z_scope.

(** util/secret_roll.go:8-21 [CheckIfInputMayBeASecretRoll].  [[]rune(input)] replaces invalid bytes by U+FFFD,
    [string(runes)] encodes them again. *)
Definition check_secret (input : string) : string * bool :=
  match decode input with
  | [] => (""%string, false)                        (* len(input) < 1 *)
  | c :: rest =>
      if (gc_rune c =? 83) || (gc_rune c =? 115) then (encode_runes rest, true) else (input, false)
  end.

(** bcdice.go:60: [\A([^\s]* )(\s.* )?] without the blanks *)
Definition command_first_part_re : re :=
  RSeqs [RBegin; RGroup 1 (RStar (RChar (fun r => negb (re_space r)))); ROpt (RGroup 2 (RSeq (RChar re_space) (RStar (RChar re_dot))))].
(** bcdice.go:66-67: the first group (the expression matches every text, so the index is in range) *)
Definition first_part (s : string) : string :=
  match find_submatch command_first_part_re s with Some cs => group cs 1 | None => EmptyString end.

(** Dice bots, dicebot.go:17-69: the parts that are observable here.  A constructor always builds
    the same bot, so it is identified with it. *)
Record dicebot := DiceBot { db_game_id : string; db_game_name : string; db_sort_key : string }.

(** gamesystem/basic/basic.go:10-31, 45-51 *)
Definition basic_bot : dicebot := DiceBot "DiceBot" "ダイスボット (指定無し)" "*たいすほつと".

(** dicebot.go:73-78 [DiceBotImpl.ExecuteCommand]: always an error *)
Definition dicebot_execute (b : dicebot) (c : string) : comp result := CErr "no game-system-specific command".

(** list/list.go:89: the registry, a map from identifiers; empty at this commit *)
Definition registry := list (string * dicebot).
Definition game_registry : registry := [].

(** map lookup *)
Fixpoint reg_find (reg : registry) (id : string) : option dicebot :=
  match reg with
  | [] => None
  | (k, b) :: reg' => if String.eqb k id then Some b else reg_find reg' id
  end.

(** list/list.go:27-38 [Find] *)
Definition find_bot (reg : registry) (id : string) : outcome dicebot :=
  if String.eqb id (db_game_id basic_bot) then Ok basic_bot
  else match reg_find reg id with
       | Some b => Ok b
       | None => Err ("unknown game system: " ++ id)%string
       end.

(** list/list.go:41-59 [AvailableGameIDs]; the order in which the map is traversed is that of [reg] *)
Definition available_game_ids (reg : registry) (include_basic : bool) : list string :=
  let ids := sort_strings (map fst reg) in
  if include_basic then db_game_id basic_bot :: ids else ids.

(** list/list.go:19-23 [SystemInfo] *)
Record system_info := SystemInfo { si_system : string; si_name : string; si_sort_key : string }.
Definition bot_info (b : dicebot) : system_info := SystemInfo (db_game_id b) (db_game_name b) (db_sort_key b).
(** list/list.go:72: sort.Slice by sort key.  The order among equal keys is unspecified in Go; here entries with equal keys
    keep the order in which the map is traversed. *)
Fixpoint insert_info (x : system_info) (l : list system_info) : list system_info :=
  match l with
  | [] => [x]
  | y :: l' => if string_leb (si_sort_key x) (si_sort_key y) then x :: l else y :: insert_info x l'
  end.
(** list/list.go:62-86 [AvailableGameInfos] *)
Definition available_game_infos (reg : registry) (include_basic : bool) : list system_info :=
  let games := fold_right insert_info [] (map (fun e => bot_info (snd e)) reg) in
  if include_basic then bot_info basic_bot :: games else games.

(** bcdice.go:18-23 [BCDice] (the feeder and the roller's feeder are the same object: SetDieFeeder) *)
Record bcdice := BCDice { bd_bot : dicebot; bd_feeder : feeder }.

(** bcdice.go:36-45 [SetDiceBotByGameID], for any content of the registry, and for the one of this commit *)
Definition set_dice_bot_in (reg : registry) (b : bcdice) (id : string) : outcome unit * bcdice :=
  match find_bot reg id with
  | Ok bot => (Ok tt, BCDice bot (bd_feeder b))
  | Err e => (Err e, b)
  | Panic p => (Panic p, b)
  end.
Definition set_dice_bot : bcdice -> string -> outcome unit * bcdice := set_dice_bot_in game_registry.

(** bcdice.go:54-57 [SetDieFeeder] *)
Definition set_die_feeder (b : bcdice) (f : feeder) : bcdice := BCDice (bd_bot b) f.

(** bcdice.go:26-33 [New] *)
Definition new_bcdice (f : feeder) : bcdice := BCDice basic_bot f.

(** Run an evaluator computation on a fresh environment (evaluator.NewEnvironment) with the given feeder *)
Definition with_fresh_env {A} (c : comp A) (f : feeder) : outcome A * feeder :=
  let '(o, s) := run c (EState f []) in (o, es_feeder s).

(** bcdice.go:96-106 [ExecuteDiceBotCommand] *)
Definition execute_dicebot_command (bot : dicebot) (c : string) (f : feeder) : outcome result * feeder :=
  with_fresh_env (dicebot_execute bot c) f.

(** bcdice.go:109-119 [ExecuteBasicCommand] *)
Definition execute_basic_command (bot : dicebot) (c : string) (f : feeder) : outcome result * feeder :=
  match parse_text "input" c with
  | Ok n => with_fresh_env (execute default_max_rerolls (db_game_id bot) n) f
  | Err e => (Err e, f)
  | Panic p => (Panic p, f)
  end.

Definition set_secret (r : result) (s : bool) : result :=
  Result (r_game_id r) (r_parts r) (r_dice r) (r_success r) s.

(** bcdice.go:63-93 [ExecuteCommand] *)
Definition execute_command_with (bot : dicebot) (input : string) (f : feeder) : outcome result * feeder :=
  let '(command, secret) := check_secret input in
  let first := first_part command in
  match execute_dicebot_command bot first f with
  | (Ok r, f1) => (Ok (set_secret r secret), f1)
  | (Panic p, f1) => (Panic p, f1)
  | (Err _, f1) =>
      match execute_basic_command bot command f1 with
      | (Ok r, f2) => (Ok (set_secret r secret), f2)
      | (Panic p, f2) => (Panic p, f2)
      | (Err _, f2) =>
          match execute_basic_command bot first f2 with
          | (Ok r, f3) => (Ok (set_secret r secret), f3)
          | (Panic p, f3) => (Panic p, f3)
          | (Err e, f3) => (Err e, f3)
          end
      end
  end.
Definition execute_command (b : bcdice) (input : string) : outcome result * bcdice :=
  let '(o, f) := execute_command_with (bd_bot b) input (bd_feeder b) in (o, BCDice (bd_bot b) f).
