(** What the test runner says about test cases. *)
From Verif Require Import GoBase Dice BCDice TestCase Quote SpecFiles.
Open Scope list_scope.
Open Scope Z_scope.

(** The basic bot executes the line with the dice of the case; [rest]: the dice that are left *)
Definition ends (c : test_case) (line : string) (o : outcome result) (rest : list die) : Prop :=
  execute_command (new_bcdice (FQueue (tc_dice c))) line = (o, new_bcdice (FQueue rest)).
(** What is compared with the expected output *)
Definition answer_text (r : result) : string := (message r ++ (if r_secret r then "###secret dice###" else ""))%string.
Definition quoted_text (s : string) : string := quote is_print s.

Definition not_right (got want : string) : string := ("got: " ++ quoted_text got ++ ", want: " ++ quoted_text want)%string.
Definition dice_over (rest : list die) : string := ("ダイス残り: " ++ format_dice rest)%string.
(** What is reported of a test case whose first line is [line]; nothing reported: it passes.  An empty output stands for an expected error. *)
Inductive judged (c : test_case) (line : string) : list string -> Prop :=
| judged_error e rest : ends c line (Err e) rest -> tc_output c = EmptyString -> judged c line []
| judged_unexpected e rest : ends c line (Err e) rest -> tc_output c <> EmptyString -> judged c line ["コマンド実行エラー: " ++ e]%string
| judged_no_error r rest : ends c line (Ok r) rest -> tc_output c = EmptyString -> judged c line ["エラーが発生しませんでした"%string]
| judged_right r : ends c line (Ok r) [] -> tc_output c = answer_text r -> judged c line []
| judged_wrong r : ends c line (Ok r) [] -> tc_output c <> EmptyString -> tc_output c <> answer_text r -> judged c line [not_right (answer_text r) (tc_output c)]
| judged_over r rest : ends c line (Ok r) rest -> rest <> [] -> tc_output c = answer_text r -> judged c line [dice_over rest]
| judged_both r rest : ends c line (Ok r) rest -> rest <> [] -> tc_output c <> EmptyString -> tc_output c <> answer_text r ->
    judged c line [not_right (answer_text r) (tc_output c); dice_over rest].
(** The subtest of a case: its name and what is reported *)
Definition subtest_of (c : test_case) (s : string * list string) : Prop :=
  exists line more, tc_input c = line :: more /\ judged c line (snd s) /\
    fst s = (tc_game_id c ++ "-" ++ itoa (tc_index c) ++ ":" ++ quoted_text line ++ "[" ++ format_dice_without_spaces (tc_dice c) ++ "]")%string.

(** An execution by a new basic bot, to be recorded: a line of text that is not empty and not the line separating test cases *)
Record execution := Execution { x_line : string; x_feeder : feeder; x_outcome : outcome result; x_after : feeder }.
Definition took_place (x : execution) : Prop :=
  x_line x <> EmptyString /\ x_line x <> rule_line /\ lacks "010" (x_line x) /\ Z.of_nat (String.length (x_line x)) < 2 ^ 61 /\
  execute_command (new_bcdice (x_feeder x)) (x_line x) = (x_outcome x, new_bcdice (x_after x)) /\ (forall p, x_outcome x <> Panic p).
Definition recorded_output (o : outcome result) : string := match o with Ok r => answer_text r | _ => EmptyString end.
