(** What a successful command says: the parts of the message of each kind of command. *)
From Verif Require Import GoBase Dice Ast Command SpecSyntax SpecRoll SpecLists.
Open Scope list_scope.
Open Scope Z_scope.

(** ** Arithmetic expressions as shown to the user *)
Definition level (op : arith) : Z := match op with Plus | Minus => 1 | Times | Over _ => 2 end.
Definition put (op : arith) (l r : string) : string :=
  match op with
  | Plus => l ++ "+" ++ r | Minus => l ++ "-" ++ r | Times => l ++ "*" ++ r
  | Over RoundDown => l ++ "/" ++ r | Over RoundHalf => l ++ "/" ++ r ++ "R" | Over RoundUp => l ++ "/" ++ r ++ "U"
  end%string.
(** a - (b + c), a / (b * c), a / (b / c) need their parentheses; in a + (b - c) and a * (b / c) they are left out *)
Definition keeps_right (op : arith) : bool := match op with Minus | Over _ => true | _ => false end.
Definition in_parens (s : string) : string := ("(" ++ s ++ ")")%string.
(** [show word first e]; a negation needs no parentheses where the text begins ([first]) *)
Fixpoint show {L} (word : L -> string) (first : bool) (e : ae L) : string :=
  match e with
  | Leaf l => word l
  | Neg e => ("-" ++ match e with Leaf l => word l | _ => in_parens (show word true e) end)%string
  | Bin op a b =>
      put op
        (match a with
         | Leaf l => word l
         | Neg _ => if first then show word first a else in_parens (show word first a)
         | Bin c _ _ => if level c <? level op then in_parens (show word true a) else show word first a
         end)
        (match b with
         | Leaf l => word l
         | Neg _ => in_parens (show word false b)
         | Bin c _ _ => if (level c <? level op) || ((level c =? level op) && keeps_right op) then in_parens (show word true b) else show word false b
         end)
  end.
(** xDy; a rolled roll: its total and the dice *)
Definition mword (m : mleaf) : string := match m with MInt v => itoa v | MDice x y => (itoa x ++ "D" ++ itoa y)%string end.
Definition sword (s : sleaf) : string := match s with SInt v => itoa v | SRoll ds => (itoa (group_sum ds) ++ "[" ++ values_word ds ++ "]")%string end.

(** [reply c ds parts reported verdict]: the command c, having taken the dice ds, may answer with these message parts, reporting these dice and this verdict. *)
Inductive reply : command -> list die -> list string -> list die -> success_check -> Prop :=
| reply_calculation e v : has_value e v ->
    reply (Calculation e) [] ["C" ++ in_parens (show itoa true e); "計算結果"; itoa v]%string [] Unspecified
| reply_d e ops rolls mid fin v : d_value e ops rolls mid fin v ->
    reply (DExpr e) (ops ++ rolls) [in_parens (show mword true mid); show sword true fin; itoa v] (ops ++ rolls) Unspecified
| reply_d_success e op t ops rolls mid fin v w : comparable e -> d_value e ops rolls mid fin v -> has_value t w -> compares op v w ->
    reply (DComp e op t) (ops ++ rolls) [in_parens (show mword true mid ++ op ++ itoa w); show sword true fin; itoa v; "成功"]%string (ops ++ rolls) Success
| reply_d_failure e op t ops rolls mid fin v w : comparable e -> d_value e ops rolls mid fin v -> has_value t w -> ~ compares op v w ->
    reply (DComp e op t) (ops ++ rolls) [in_parens (show mword true mid ++ op ++ itoa w); show sword true fin; itoa v; "失敗"]%string (ops ++ rolls) Failure
| reply_b r rs ops ps groups : settle_rolls (r :: rs) ops ps -> rolled_each ps groups ->
    reply (BList r rs) (ops ++ concat groups) [in_parens (rolls_words "B" ps); values_word (concat groups)] (ops ++ concat groups) Unspecified
| reply_b_count r rs op t ops ps groups w : settle_rolls (r :: rs) ops ps -> rolled_each ps groups -> has_value t w ->
    reply (BComp r rs op t) (ops ++ concat groups)
      [in_parens (rolls_words "B" ps ++ op ++ itoa w); values_word (concat groups); "成功数" ++ itoa (matching op w (values (concat groups)))]%string (ops ++ concat groups) Unspecified
| reply_r r rs e ops ps v groups : settle_rolls (r :: rs) ops ps -> has_value e v -> v >= 2 -> rerolls v cap ps groups ->
    reply (RList r rs (Some e)) (ops ++ concat groups) [in_parens (rolls_words "R" ps ++ "[" ++ itoa v ++ "]"); join " + " (map values_word groups)]%string (ops ++ concat groups) Unspecified
| reply_r_count r rs th op t ops ps v w groups : settle_rolls (r :: rs) ops ps -> has_value t w ->
    match th with Some e => has_value e v | None => v = w end -> v >= 2 -> rerolls v cap ps groups ->
    reply (RComp r rs th op t) (ops ++ concat groups)
      [in_parens (rolls_words "R" ps ++ "[" ++ itoa v ++ "]" ++ op ++ itoa w); join " + " (map values_word groups);
       "成功数" ++ itoa (matching op w (values (concat groups)))]%string (ops ++ concat groups) Unspecified
| reply_u r rs e b ops ps v m groups s3 : settle_rolls (r :: rs) ops ps -> has_value e v -> v >= 2 -> bonus_value b m -> chains_each v cap ps groups ->
    max_and_total (concat groups) m s3 ->
    reply (UExpr r rs (Some e) b) (ops ++ concat (concat groups))
      [in_parens (rolls_words "U" ps ++ "[" ++ itoa v ++ "]" ++ bonus_word m); join "," (map group_word (concat groups)) ++ modifier_word m; s3]%string
      (ops ++ concat (concat groups)) Unspecified
| reply_u_count r rs e b op t ops ps v m w groups : settle_rolls (r :: rs) ops ps -> has_value e v -> v >= 2 -> bonus_value b m -> has_value t w -> chains_each v cap ps groups ->
    reply (UComp r rs (Some e) b op t) (ops ++ concat (concat groups))
      [in_parens (rolls_words "U" ps ++ "[" ++ itoa v ++ "]" ++ bonus_word m ++ op ++ itoa w); join "," (map group_word (concat groups)) ++ modifier_word m;
       "成功数" ++ itoa (matching op w (map (fun g => wrap64 (total_of g + m)) (concat groups)))]%string (ops ++ concat (concat groups)) Unspecified
(** No threshold, or a threshold below 2: a hint, and no dice reported (dice taken for operands are lost, see C25) *)
| reply_hint_r r rs th t h ops ps : settle_rolls (r :: rs) ops ps -> threshold_value th t -> hint hint_r t = Some h ->
    reply (RList r rs th) ops [in_parens (rolls_words "R" ps ++ threshold_word t); h]%string [] Unspecified
| reply_hint_r_count r rs th op t v w h ops ps : settle_rolls (r :: rs) ops ps -> has_value t w ->
    match th with Some e => has_value e v | None => v = w end -> hint hint_r (Some v) = Some h ->
    reply (RComp r rs th op t) ops [in_parens (rolls_words "R" ps ++ "[" ++ itoa v ++ "]" ++ op ++ itoa w); h]%string [] Unspecified
| reply_hint_u r rs th b t m h ops ps : settle_rolls (r :: rs) ops ps -> threshold_value th t -> bonus_value b m -> hint hint_u t = Some h ->
    reply (UExpr r rs th b) ops [in_parens (rolls_words "U" ps ++ threshold_word t ++ bonus_word m); h]%string [] Unspecified
| reply_hint_u_count r rs th b op tg t m w h ops ps : settle_rolls (r :: rs) ops ps -> threshold_value th t -> bonus_value b m -> has_value tg w -> hint hint_u t = Some h ->
    reply (UComp r rs th b op tg) ops [in_parens (rolls_words "U" ps ++ threshold_word t ++ bonus_word m ++ op ++ itoa w); h]%string [] Unspecified
(** The die may show anything here: a die showing d selects the item number d (from 1) *)
| reply_choice items d item : die_sides d = Z.of_nat (length items) -> 0 <= wrap64 (die_value d - 1) -> nth_error items (Z.to_nat (wrap64 (die_value d - 1))) = Some item ->
    reply (Choose items) [d] [in_parens ("CHOICE[" ++ join "," items ++ "]"); item]%string [d] Unspecified.
