(** Vocabulary for the dice notation and for test-case files. *)
From Verif Require Import GoBase Dice SpecText.
Open Scope list_scope.
Open Scope Z_scope.

Definition newline : string := String "010" EmptyString.
(** Texts of white space only *)
Definition blank (s : string) : Prop := Forall white (list_ascii_of_string s).
(** A character does not occur in a text *)
Definition lacks (a : ascii) (s : string) : Prop := ~ In a (list_ascii_of_string s).
(** A text occurs in another one *)
Definition occurs (p s : string) : Prop := exists a b, s = (a ++ p ++ b)%string.
(** The value of a decimal number, saturated at the greatest Go int *)
Definition saturated (s : string) : Z := Z.min (number_value s) max_int.
(** One entry "value/sides" of the dice notation, blanks around it allowed *)
Inductive die_entry : string -> die -> Prop :=
| entry b1 v n b2 : blank b1 -> digits v -> digits n -> blank b2 ->
    die_entry (b1 ++ v ++ "/" ++ n ++ b2)%string (Die (saturated v) (saturated n)).
(** The dice notation: nothing, or entries separated by commas *)
Definition dice_notation (s : string) (ds : list die) : Prop :=
  (s = EmptyString /\ ds = []) \/ (ds <> [] /\ exists entries, s = join "," entries /\ Forall2 die_entry entries ds).
(** Dice that can be written *)
Definition writable (d : die) : Prop := 0 <= die_value d <= max_int /\ 0 <= die_sides d <= max_int.

(** A test case as written in a file *)
Definition case_text (lines : list string) (output : string) (ds : list die) : string :=
  ("input:" ++ newline ++ join newline lines ++ newline ++ "output:" ++ newline ++ output ++ newline ++ "rand:" ++ format_dice_without_spaces ds)%string.
(** The line that separates test cases *)
Definition rule_line : string := "============================".
Definition case_separator : string := (newline ++ rule_line ++ newline)%string.
(** What can be written: at least one input line, not just one empty line; lines are lines; the output does not begin with a newline and has no
    line beginning with "output:"; the dice are writable; no line of the whole text is the separating line. *)
Record written_case := Written { w_lines : list string; w_output : string; w_dice : list die }.
Definition written_text (c : written_case) : string := case_text (w_lines c) (w_output c) (w_dice c).
Definition well_formed_case (c : written_case) : Prop :=
  w_lines c <> [] /\ w_lines c <> [EmptyString] /\ Forall (lacks "010"%char) (w_lines c) /\
  (forall t, w_output c <> String "010" t) /\ ~ occurs (newline ++ "output:") (newline ++ w_output c) /\
  Forall writable (w_dice c) /\ ~ occurs case_separator (written_text c ++ newline).
(** Newlines *)
Fixpoint newlines (n : nat) : string := match n with O => EmptyString | S n' => String "010" (newlines n') end.
(** A file: test cases separated by the separating line, followed by any number of newlines *)
Definition file_text (cs : list written_case) (n : nat) : string := (join case_separator (map written_text cs) ++ newlines n)%string.
(** The way a test-case source is cut into input, output and rand parts *)
Definition source_parts (s i o r : string) : Prop :=
  s = ("input:" ++ newline ++ i ++ (newline ++ "output:") ++ o ++ (newline ++ "rand:") ++ r)%string /\ i <> EmptyString.
