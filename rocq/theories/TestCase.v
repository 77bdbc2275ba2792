(** pkg/dicebot/testing/testcase.go: test-case files and the dice notation (also used by the REPL). *)
From Verif Require Export BCDice.
From Verif Require Quote.
Open Scope list_scope.
Open Scope Z_scope.

(** [strings.Split(s, sep)] for a one-byte separator *)
Fixpoint split_byte (sep : ascii) (s : string) : list string :=
  match s with
  | EmptyString => [EmptyString]
  | String a s' =>
      if Ascii.eqb a sep then EmptyString :: split_byte sep s'
      else match split_byte sep s' with
           | w :: ws => String a w :: ws
           | [] => [String a EmptyString]     (* not reachable *)
           end
  end.

(** strconv.Atoi on a text of digits with the error ignored (saturates) *)
Fixpoint digits_value (acc : Z) (s : string) : Z :=
  match s with
  | EmptyString => acc
  | String a s' => digits_value (acc * 10 + (byte_val a - 48)) s'
  end.
Definition atoi_str (s : string) : Z := Z.min (digits_value 0 s) max_int.

Definition is_empty (s : string) : bool := match s with EmptyString => true | _ => false end.

(** testcase.go:30: [\A\s*(\d+)/(\d+)\s*\z] *)
Definition dice_re : re :=
  RSeqs [RBegin; RStar (RChar re_space); RGroup 1 (RPlus (RChar re_digit)); RText "/"; RGroup 2 (RPlus (RChar re_digit)); RStar (RChar re_space); REnd].
(** testcase.go:71-77 *)
Definition match_die (s : string) : option (string * string) :=
  match find_submatch dice_re s with Some cs => Some (group cs 1, group cs 2) | None => None end.

(** testcase.go:70-79: the loop of [ParseDice], [i] elements seen so far *)
Fixpoint parse_dice_loop (i : Z) (l : list string) (acc : list die) : outcome (list die) :=
  match l with
  | [] => Ok acc
  | s :: l' =>
      match match_die s with
      | None => Err ("ParseDice: #" ++ itoa (i + 1) ++ ": " ++ Quote.quote Quote.is_print s ++ ": ダイス構文エラー")%string
      | Some (v, d) => parse_dice_loop (i + 1) l' (acc ++ [Die (atoi_str v) (atoi_str d)])
      end
  end.
(** testcase.go:62-82 [ParseDice] (the error text quotes the entry with %q: Quote.v) *)
Definition parse_dice (s : string) : outcome (list die) :=
  if is_empty s then Ok [] else parse_dice_loop 0 (split_byte "," s) [].

(** Remove a prefix *)
Fixpoint strip_prefix (p s : string) : option string :=
  match p with
  | EmptyString => Some s
  | String a p' =>
      match s with
      | String b s' => if Ascii.eqb a b then strip_prefix p' s' else None
      | EmptyString => None
      end
  end.

Definition nl : string := String "010" EmptyString.

(** testcase.go:28: [(?s)\Ainput:\n(.+)\noutput:( .* )\nrand:( .* )] without the blanks *)
Definition source_re : re :=
  RSeqs [RBegin; RText ("input:" ++ nl)%string; RGroup 1 (RPlus (RChar re_any)); RText (nl ++ "output:")%string; RGroup 2 (RStar (RChar re_any));
         RText (nl ++ "rand:")%string; RGroup 3 (RStar (RChar re_any))].
(** testcase.go:39 *)
Definition match_source (s : string) : option (string * (string * string)) :=
  match find_submatch source_re s with Some cs => Some (group cs 1, (group cs 2, group cs 3)) | None => None end.

(** [strings.TrimLeft(s, "\n")] *)
Fixpoint trim_left_nl (s : string) : string :=
  match s with
  | String a s' => if Ascii.eqb a "010" then trim_left_nl s' else s
  | EmptyString => s
  end.
(** [strings.TrimRight(s, "\n")] *)
Fixpoint trim_right_nl (s : string) : string :=
  match s with
  | String a s' =>
      match trim_right_nl s' with
      | EmptyString => if Ascii.eqb a "010" then EmptyString else String a EmptyString
      | t => String a t
      end
  | EmptyString => EmptyString
  end.

(** testcase.go:13-24 *)
Record test_case := TestCase {
  tc_game_id : string;
  tc_index : Z;
  tc_input : list string;
  tc_output : string;
  tc_dice : list die
}.

(** testcase.go:38-59 [Parse] *)
Definition parse_test_case (source game_id : string) (index : Z) : outcome test_case :=
  match match_source source with
  | None => Err ("Parse: " ++ game_id ++ "#" ++ itoa index ++ ": テストケース構文エラー")%string
  | Some (i, (o, r)) =>
      match parse_dice r with
      | Ok ds => Ok (TestCase game_id index (split_byte "010" i) (trim_left_nl o) ds)
      | Err e => Err e
      | Panic p => Panic p
      end
  end.

(** [strings.Split(s, sep)] for a longer separator: leftmost, non-overlapping *)
Fixpoint find_first (sep s : string) : option (string * string) :=
  match strip_prefix sep s with
  | Some r => Some (EmptyString, r)
  | None =>
      match s with
      | EmptyString => None
      | String c s' => match find_first sep s' with Some (b, a) => Some (String c b, a) | None => None end
      end
  end.
Fixpoint split_fuel (fuel : nat) (sep s : string) : list string :=
  match fuel with
  | O => [s]
  | S fuel' => match find_first sep s with Some (b, a) => b :: split_fuel fuel' sep a | None => [s] end
  end.
Definition split_str (sep s : string) : list string := split_fuel (String.length s) sep s.

Definition separator : string := (nl ++ "============================" ++ nl)%string.

(** testcase.go:98-107 *)
Fixpoint parse_cases (i : Z) (game_id : string) (sources : list string) (acc : list test_case)
  : outcome (list test_case) :=
  match sources with
  | [] => Ok acc
  | s :: rest =>
      match parse_test_case s game_id (i + 1) with
      | Ok c => parse_cases (i + 1) game_id rest (acc ++ [c])
      | Err e => Err e
      | Panic p => Panic p
      end
  end.
(** testcase.go:88-110 [ParseFile], given the content of the file *)
Definition parse_file (content game_id : string) : outcome (list test_case) :=
  parse_cases 0 game_id (split_str separator (trim_right_nl content)) [].

(** testcase.go:120-132: the loop of [ParseFiles] over (name, content or read error) *)
Definition add_index (k : Z) (c : test_case) : test_case :=
  TestCase (tc_game_id c) (tc_index c + k) (tc_input c) (tc_output c) (tc_dice c).
Fixpoint parse_files_loop (game_id : string) (files : list (string * outcome string)) (acc : list test_case)
  : outcome (list test_case) :=
  match files with
  | [] => Ok acc
  | (name, content) :: rest =>
      match (match content with Ok c => parse_file c game_id | Err e => Err e | Panic p => Panic p end) with
      | Ok cs => parse_files_loop game_id rest (acc ++ map (add_index (Z.of_nat (length acc))) cs)
      | Err e => Err (name ++ ": " ++ e)%string
      | Panic p => Panic p
      end
  end.
(** testcase.go:116-135 [ParseFiles] *)
Definition parse_files (files : list (string * outcome string)) (game_id : string) : outcome (list test_case) :=
  parse_files_loop game_id files [].

(** testing.go:28-79: the verdict of [Run] on one test case *)
Inductive verdict := Passed | UnexpectedError | MissingError | Mismatch | DiceLeft | Crashed.
Definition run_test_case (c : test_case) : verdict :=
  let expect_err := is_empty (tc_output c) in
  match tc_input c with
  | [] => Crashed
  | line :: _ =>
      match execute_command (new_bcdice (FQueue (new_queue (tc_dice c)))) line with
      | (Panic _, _) => Crashed
      | (Err _, _) => if expect_err then Passed else UnexpectedError
      | (Ok r, b) =>
          if expect_err then MissingError
          else
            let actual := if r_secret r then (message r ++ "###secret dice###")%string else message r in
            if String.eqb actual (tc_output c) then
              match bd_feeder b with
              | FQueue [] => Passed
              | _ => DiceLeft
              end
            else Mismatch
      end
  end.
