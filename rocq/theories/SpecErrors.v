(** What parser.Parse's error messages are, in words a user would use: places in a text, things one can type there. *)
From Verif Require Import GoBase Utf8 SpecGrammar.
Open Scope list_scope.
Open Scope Z_scope.

(** ** Places *)
Definition newline (c : gochar) : bool := gc_rune c =? 10.
Fixpoint line_tail (l : text) : text := match l with c :: l' => if newline c then [] else c :: line_tail l' | [] => [] end.
(** The place of the [k]-th character (from 0): line, column (in characters) and byte offset, as the tool counts them.
    A line feed counts as column 0 of the line it begins; the very first place is always 1:1 (0). *)
Definition place (t : text) (k : nat) : Z * Z * Z :=
  let before := firstn k t in
  let line := 1 + Z.of_nat (length (filter newline before)) in
  let column := 1 + Z.of_nat (length (line_tail (rev before))) in
  let offset := Z.of_nat (String.length (raw_text before)) in
  match k, skipn k t with
  | O, _ => (1, 1, 0)
  | _, c :: _ => if newline c then (line + 1, 0, offset) else (line, column, offset)
  | _, [] => (line, column, offset)
  end.

(** ** Messages *)
Definition place_text (p : Z * Z * Z) : string := let '(l, c, o) := p in (itoa l ++ ":" ++ itoa c ++ " (" ++ itoa o ++ ")")%string.
(** "a, b or c" *)
Fixpoint or_list (l : list string) : string :=
  match l with
  | [] => ""
  | [a] => a
  | [a; b] => a ++ " or " ++ b
  | a :: l' => a ++ ", " ++ or_list l'
  end%string.
Definition file_prefix (filename : string) : string := match filename with EmptyString => EmptyString | _ => (filename ++ ":")%string end.
Definition no_match_error (filename : string) (p : Z * Z * Z) (items : list string) : string :=
  (file_prefix filename ++ place_text p ++ ": no match found, expected: " ++ or_list items)%string.
(** The error of a text that reads as a sum of numbers without any dice; [rule] says if it was part of a comparison. *)
Definition no_dice_error (filename : string) (comparison : bool) : string :=
  (file_prefix filename ++ "1:1 (0): rule " ++ (if comparison then "DRollCompCommand" else "DRollExprCommand") ++ ": random element not found")%string.

(** ** Suggestions *)
Definition quoted (w : string) : string := String "034" (w ++ String "034" EmptyString).
(** The text begins with the word [w] (of ASCII characters); [fold]: capital letters count as small ones (and so does the Kelvin sign, see SpecGrammar.small_letter). *)
Fixpoint begins (fold : bool) (w : string) (t : text) : Prop :=
  match w, t with
  | EmptyString, _ => True
  | String a w', c :: t' => (if fold then small_letter (gc_rune c) else gc_rune c) = Z.of_N (N_of_ascii a) /\ begins fold w' t'
  | String _ _, [] => False
  end.
Definition first_is (P : Z -> Prop) (t : text) : Prop := match t with c :: _ => P (gc_rune c) | [] => False end.
(** [suggests item t]: [item] of an error message describes the beginning of [t]. *)
Inductive suggests : string -> text -> Prop :=
| sug_eof : suggests "EOF" []
| sug_word w t : begins false w t -> suggests (quoted w) t
| sug_word_i w t : begins true w t -> suggests (quoted w ++ "i")%string t
| sug_digit t : first_is (fun r => 48 <= r <= 57) t -> suggests "[0-9]" t
| sug_ur t : first_is (fun r => small_letter r = 117 \/ small_letter r = 114) t -> suggests "[ur]i" t
| sug_item t : first_is (fun r => r <> 93 /\ r <> 44) t -> suggests "[^\],]" t
| sug_space t : first_is (fun r => In r separators) t -> suggests "[\pZ]" t.

(** Everything a message may suggest: words and symbols in quotes ("i": in either case), classes of characters, the end of the text *)
Definition vocabulary : list string :=
  map quoted ["+"; "-"; "*"; "/"; "("; ")"; "["; "]"; ","; "..."; "="; "<>"; "<="; "<"; ">="; ">"]%string ++
  map (fun w => quoted w ++ "i")%string ["choice["; "c"; "d"; "b"; "r"; "u"]%string ++
  ["[0-9]"; "[ur]i"; "[^\],]"; "[\pZ]"; "EOF"]%string.

(** A word of several characters begins before the [k]-th character of the text and ends after it. *)
Definition straddles (t : text) (k : nat) : Prop :=
  exists fold w i, In (fold, w) [(true, "choice["); (false, "..."); (false, "<>"); (false, "<="); (false, ">=")]%string /\ (i < k < i + String.length w)%nat /\ begins fold w (skipn i t).

(** ** Where a number or an operator cannot go on *)
(** Upper-case letters of ASCII read as lower-case ones *)
Definition ascii_fold (r : Z) : Z := if in_range 65 90 r then r + 32 else r.
(** A character that occurs in no roll and no comparison: none of ( ) * + , - . / 0 ... 9 < = > [ ] and of the letters B D R U in either case *)
Definition foreign (c : gochar) : Prop :=
  let r := gc_rune c in ~ 40 <= r <= 57 /\ ~ 60 <= r <= 62 /\ r <> 91 /\ r <> 93 /\ ~ In (ascii_fold r) [98; 100; 114; 117].
(** The text is at its end, or such a character is next. *)
Definition ends_here (t : text) : Prop := match t with c :: _ => foreign c | [] => True end.
