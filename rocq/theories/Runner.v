(** pkg/dicebot/testing/testing.go: the test runner and the paths of the test data. *)
From Verif Require Export TestCase.
From Verif Require Quote.
Open Scope list_scope.
Open Scope Z_scope.

(** testing.go:29-35: the name of a subtest.  (Package testing makes a name of it that can be typed: it replaces white space and unprintable
    characters, and numbers equal names; not modelled.) *)
Definition subtest_name (c : test_case) (line : string) : string :=
  (tc_game_id c ++ "-" ++ itoa (tc_index c) ++ ":" ++ Quote.quote Quote.is_print line ++ "[" ++ format_dice_without_spaces (tc_dice c) ++ "]")%string.

(** testing.go:36-76: the body of a subtest.  Ok: what it reports with t.Fatal, t.Fatalf (which end it), t.Errorf and t.Error (which do not); nothing
    reported: it passes.  A panic ends the whole test program. *)
Definition subtest (c : test_case) (line : string) : outcome (list string) :=
  let expect_err := String.eqb (tc_output c) "" in
  let '(o, b) := execute_command (new_bcdice (FQueue (new_queue (tc_dice c)))) line in
  match o with
  | Panic p => Panic p
  | Err e => if expect_err then Ok [] else Ok ["コマンド実行エラー: " ++ e]%string
  | Ok r =>
      if expect_err then Ok ["エラーが発生しませんでした"%string]
      else
        let expected := tc_output c in
        let actual := if r_secret r then (message r ++ "###secret dice###")%string else message r in
        let wrong := if String.eqb actual expected then []
                     else ["got: " ++ Quote.quote Quote.is_print actual ++ ", want: " ++ Quote.quote Quote.is_print expected]%string in
        let left := match bd_feeder b with
                    | FQueue q => if queue_is_empty q then [] else ["ダイス残り: " ++ format_dice (queue_dice q)]%string
                    | FRandom _ _ => []             (* not reachable: the feeder of the case is a queue *)
                    end in
        Ok (wrong ++ left)
  end.

(** What a run leaves behind: the failure to load the test data; or the subtests in order, each with its name and its reports; or those that
    ended and the one that crashed. *)
Inductive report :=
| Unloaded (msg : string)
| Ran (subtests : list (string * list string))
| Crash (subtests : list (string * list string)) (name panic : string).

(** testing.go:28-78: the loop *)
Fixpoint run_cases (cs : list test_case) (acc : list (string * list string)) : report :=
  match cs with
  | [] => Ran acc
  | c :: rest =>
      match tc_input c with
      | [] => Crash acc "" "index out of range [0] with length 0"
      | line :: _ =>
          match subtest c line with
          | Ok l => run_cases rest (acc ++ [(subtest_name c line, l)])
          | Err _ => Ran acc                        (* not reachable *)
          | Panic p => Crash acc (subtest_name c line) p
          end
      end
  end.
(** testing.go:21-79 [Run], given the names of the files with their contents, or the errors of reading them *)
Definition run_tests (game_id : string) (files : list (string * outcome string)) : report :=
  match parse_files files game_id with
  | Ok cs => run_cases cs []
  | Err e => Unloaded ("テストデータファイルの読み込み失敗: " ++ e)%string
  | Panic p => Crash [] "" p
  end.

(** Package path/filepath (Go 1.14) on systems with the separator "/" and no volume names *)
Definition slash : ascii := "/".
(** path.go [Clean]: the rest of an element, up to the next separator *)
Fixpoint take_element (s : string) : string * string :=
  match s with
  | EmptyString => (EmptyString, EmptyString)
  | String a s' => if Ascii.eqb a slash then (EmptyString, s) else let '(e, r) := take_element s' in (String a e, r)
  end.
(** path.go [Clean]: [out.w--; for out.w > dotdot && !IsPathSeparator(out.index(out.w)) { out.w-- }]: the output, kept in reverse, without its last
    element; [floor] characters stay *)
Fixpoint drop_back (floor : nat) (out : list ascii) : list ascii :=
  match out with
  | [] => []
  | a :: out' => if (length out' <=? floor)%nat || Ascii.eqb a slash then out' else drop_back floor out'
  end.
Definition push_text (s : string) (out : list ascii) : list ascii := rev_append (list_ascii_of_string s) out.
(** path.go [Clean]: the loop; [fuel] is at least the length of the rest, every turn reads a character.  The output is in reverse. *)
Fixpoint clean_loop (fuel : nat) (rooted : bool) (rest : string) (out : list ascii) (dotdot : nat) : list ascii :=
  match fuel, rest with
  | O, _ | _, EmptyString => out
  | S fuel', String a rest' =>
      if Ascii.eqb a slash then clean_loop fuel' rooted rest' out dotdot
      else
        let '(e, after) := take_element rest in
        if String.eqb e "." then clean_loop fuel' rooted after out dotdot
        else if String.eqb e ".." then
          if (dotdot <? length out)%nat then clean_loop fuel' rooted after (drop_back dotdot out) dotdot
          else if rooted then clean_loop fuel' rooted after out dotdot
          else
            let out' := push_text ".." (if (0 <? length out)%nat then slash :: out else out) in
            clean_loop fuel' rooted after out' (length out')
        else
          let out' := if (if rooted then negb (length out =? 1)%nat else negb (length out =? 0)%nat) then slash :: out else out in
          clean_loop fuel' rooted after (push_text e out') dotdot
  end.
(** path.go [Clean] *)
Definition clean (path : string) : string :=
  match path with
  | EmptyString => "."%string
  | String a rest =>
      let rooted := Ascii.eqb a slash in
      let out := if rooted then clean_loop (String.length path) true rest [slash] 1 else clean_loop (String.length path) false path [] 0 in
      match out with [] => "."%string | _ => string_of_list_ascii (rev out) end
  end.
(** path_unix.go [join] *)
Fixpoint filepath_join (elems : list string) : string :=
  match elems with
  | [] => EmptyString
  | e :: rest => if String.eqb e "" then filepath_join rest else clean (join "/" elems)
  end.
(** testing.go:82-90 [JoinWithTestData] *)
Definition join_with_test_data (basenames : list string) : list string :=
  fold_left (fun files b => files ++ [filepath_join ["testdata"%string; b]]) basenames [].
