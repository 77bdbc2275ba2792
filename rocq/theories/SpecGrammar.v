(** The command language, as a context-free grammar: which text spells which command.  Texts are decoded UTF-8
    ([decode] in Utf8.v); nothing here mentions the parser. *)
From Verif Require Import GoBase Utf8 Ast SpecSyntax.
Open Scope list_scope.
Open Scope Z_scope.

Definition text := list gochar.

(** The text is exactly this (ASCII) word. *)
Fixpoint codes (w : string) : list Z :=
  match w with EmptyString => [] | String a w' => Z.of_N (N_of_ascii a) :: codes w' end.
Definition word (w : string) (t : text) : Prop := map gc_rune t = codes w.
(** The same, ignoring case ([w] in lower case).  Besides A-Z, Unicode has two capital letters whose small letter is in ASCII: U+0130 (i) and
    U+212A (k). *)
Definition small_letter (r : Z) : Z :=
  if (65 <=? r) && (r <=? 90) then r + 32 else if r =? 304 then 105 else if r =? 8490 then 107 else r.
Definition word_i (w : string) (t : text) : Prop := map (fun c => small_letter (gc_rune c)) t = codes w.

(** The separators of Unicode (category Z: blank, no-break space, ..., ideographic space), and its white space (property White_Space: the separators
    and the control characters tab, line feed, vertical tab, form feed, carriage return, next line) *)
Definition separators : list Z :=
  [32; 160; 5760; 8192; 8193; 8194; 8195; 8196; 8197; 8198; 8199; 8200; 8201; 8202; 8232; 8233; 8239; 8287; 12288].
Definition white_spaces : list Z := [9; 10; 11; 12; 13; 133] ++ separators.
Definition separator_char (c : gochar) : Prop := In (gc_rune c) separators.
Definition white_char (c : gochar) : Prop := In (gc_rune c) white_spaces.
(** [m] is text [t] without the white space at its ends *)
Definition trimmed (t m : text) : Prop :=
  exists w1 w2, t = w1 ++ m ++ w2 /\ Forall white_char w1 /\ Forall white_char w2 /\
    (forall c l, m = c :: l -> ~ white_char c) /\ (forall l c, m = l ++ [c] -> ~ white_char c).

(** A decimal number; numbers beyond the range of int are read as the largest int. *)
Definition is_digit (c : gochar) : Prop := 48 <= gc_rune c <= 57.
Definition decimal (t : text) : Z := fold_left (fun n c => 10 * n + (gc_rune c - 48)) t 0.
Definition sp_number (v : Z) (t : text) : Prop := t <> [] /\ Forall is_digit t /\ v = Z.min (decimal t) max_int.

(** Arithmetic over some leaves: unary signs bind tightest, then * and /, then + and -; equal precedence associates to
    the left.  A division may carry a suffix r or u after its right operand. *)
Section Arith.
  Context {L : Type}.
  Variable leaf : L -> text -> Prop.
  Inductive sp_prim : ae L -> text -> Prop :=
  | sp_leaf l t : leaf l t -> sp_prim (Leaf l) t
  | sp_plus e s t : word "+" s -> sp_prim e t -> sp_prim e (s ++ t)
  | sp_minus e s t : word "-" s -> sp_prim e t -> sp_prim (Neg e) (s ++ t)
  | sp_paren e o t c : word "(" o -> sp_add e t -> word ")" c -> sp_prim e (o ++ t ++ c)
  with sp_mul : ae L -> text -> Prop :=
  | sp_mul_prim e t : sp_prim e t -> sp_mul e t
  | sp_times a b s t o : sp_mul a s -> word "*" o -> sp_prim b t -> sp_mul (Bin Times a b) (s ++ o ++ t)
  | sp_over a b s t o : sp_mul a s -> word "/" o -> sp_prim b t -> sp_mul (Bin (Over RoundDown) a b) (s ++ o ++ t)
  | sp_over_up a b s t o u : sp_mul a s -> word "/" o -> sp_prim b t -> word_i "u" u ->
      sp_mul (Bin (Over RoundUp) a b) (s ++ o ++ t ++ u)
  | sp_over_half a b s t o r : sp_mul a s -> word "/" o -> sp_prim b t -> word_i "r" r ->
      sp_mul (Bin (Over RoundHalf) a b) (s ++ o ++ t ++ r)
  with sp_add : ae L -> text -> Prop :=
  | sp_add_mul e t : sp_mul e t -> sp_add e t
  | sp_sum a b s t o : sp_add a s -> word "+" o -> sp_mul b t -> sp_add (Bin Plus a b) (s ++ o ++ t)
  | sp_diff a b s t o : sp_add a s -> word "-" o -> sp_mul b t -> sp_add (Bin Minus a b) (s ++ o ++ t).
End Arith.

(** Integer expressions *)
Definition sp_int : iexpr -> text -> Prop := sp_add sp_number.

(** Random numbers [lo...hi]: the bounds are numbers or parenthesized integer expressions *)
Inductive sp_bound : iexpr -> text -> Prop :=
| bound_number v t : sp_number v t -> sp_bound (Leaf v) t
| bound_paren e o t c : word "(" o -> sp_int e t -> word ")" c -> sp_bound e (o ++ t ++ c).
Inductive sp_random : iexpr -> iexpr -> text -> Prop :=
| random_ lo hi o s d t c : word "[" o -> sp_bound lo s -> word "..." d -> sp_bound hi t -> word "]" c ->
    sp_random lo hi (o ++ s ++ d ++ t ++ c).

(** Operands of rolls: a number, a random number, or a parenthesized expression of these *)
Definition sp_rleaf (l : rleaf) : text -> Prop :=
  match l with RInt v => sp_number v | RRand lo hi => sp_random lo hi end.
Definition sp_rexpr : rexpr -> text -> Prop := sp_add sp_rleaf.
Inductive sp_operand : rexpr -> text -> Prop :=
| operand_leaf l t : sp_rleaf l t -> sp_operand (Leaf l) t
| operand_paren e o t c : word "(" o -> sp_rexpr e t -> word ")" c -> sp_operand e (o ++ t ++ c).

(** Rolls: count, letter, sides *)
Inductive sp_roll (letter : string) : roll -> text -> Prop :=
| roll_ n s t u v : sp_operand n t -> word_i letter u -> sp_operand s v -> sp_roll letter (n, s) (t ++ u ++ v).
Inductive sp_rolls (letter : string) : list roll -> text -> Prop :=
| rolls_none : sp_rolls letter [] []
| rolls_more r rs o t u : word "+" o -> sp_roll letter r t -> sp_rolls letter rs u -> sp_rolls letter (r :: rs) (o ++ t ++ u).

(** Additive rolls *)
Definition sp_dleaf (l : dleaf) : text -> Prop :=
  match l with DInt v => sp_number v | DRand lo hi => sp_random lo hi | DDice n s => sp_roll "d" (n, s) end.
Definition sp_dexpr : dexpr -> text -> Prop := sp_add sp_dleaf.

(** Thresholds [e], bonuses +e and -e, comparisons op e *)
Inductive sp_threshold : option iexpr -> text -> Prop :=
| threshold_none : sp_threshold None []
| threshold_some e o t c : word "[" o -> sp_int e t -> word "]" c -> sp_threshold (Some e) (o ++ t ++ c).
Inductive sp_bonus : option (bool * iexpr) -> text -> Prop :=
| bonus_none : sp_bonus None []
| bonus_plus e o t : word "+" o -> sp_int e t -> sp_bonus (Some (true, e)) (o ++ t)
| bonus_minus e o t : word "-" o -> sp_int e t -> sp_bonus (Some (false, e)) (o ++ t).
Inductive sp_target : string -> iexpr -> text -> Prop :=
| target_ op e o t : is_compare_op op -> word op o -> sp_int e t -> sp_target op e (o ++ t).

(** CHOICE items: text without , and ]; white space around the item is removed.  Leading characters of the Unicode class Z do not count towards
    the item, so that there must be some other character. *)
Definition item_char (c : gochar) : Prop := gc_rune c <> 44 /\ gc_rune c <> 93.
Inductive sp_item : string -> text -> Prop :=
| item_ z t m : Forall separator_char z -> t <> [] -> Forall item_char t -> (forall c l, t = c :: l -> ~ separator_char c) -> trimmed t m ->
    sp_item (raw_text m) (z ++ t).
Inductive sp_items : list string -> text -> Prop :=
| items_none : sp_items [] []
| items_more s ss o t u : word "," o -> sp_item s t -> sp_items ss u -> sp_items (s :: ss) (o ++ t ++ u).
(** an optional final comma *)
Inductive sp_final_comma : text -> Prop :=
| comma_none : sp_final_comma []
| comma_some o z : word "," o -> Forall separator_char z -> sp_final_comma (o ++ z).

(** A random element in a D expression *)
Definition random_leaf (l : dleaf) : Prop := match l with DInt _ => False | _ => True end.
Definition has_random (e : dexpr) : Prop := exists l, part (Leaf l) e /\ random_leaf l.

(** Commands *)
Inductive spells : command -> text -> Prop :=
| spells_calc e k o t c : word_i "c" k -> word "(" o -> sp_int e t -> word ")" c -> spells (Calculation e) (k ++ o ++ t ++ c)
| spells_choice s ss k t u f c : word_i "choice[" k -> sp_item s t -> sp_items ss u -> sp_final_comma f -> word "]" c ->
    spells (Choose (s :: ss)) (k ++ t ++ u ++ f ++ c)
| spells_d e t : sp_dexpr e t -> has_random e -> spells (DExpr e) t
| spells_dc e op g t u : sp_dexpr e t -> has_random e -> sp_target op g u -> spells (DComp e op g) (t ++ u)
| spells_b r rs t u : sp_roll "b" r t -> sp_rolls "b" rs u -> spells (BList r rs) (t ++ u)
| spells_bc r rs op g t u v : sp_roll "b" r t -> sp_rolls "b" rs u -> sp_target op g v -> spells (BComp r rs op g) (t ++ u ++ v)
| spells_r r rs th t u v : sp_roll "r" r t -> sp_rolls "r" rs u -> sp_threshold th v -> spells (RList r rs th) (t ++ u ++ v)
| spells_rc r rs th op g t u v w : sp_roll "r" r t -> sp_rolls "r" rs u -> sp_threshold th v -> sp_target op g w ->
    spells (RComp r rs th op g) (t ++ u ++ v ++ w)
| spells_u r rs th b t u v w : sp_roll "u" r t -> sp_rolls "u" rs u -> sp_threshold th v -> sp_bonus b w ->
    spells (UExpr r rs th b) (t ++ u ++ v ++ w)
| spells_uc r rs th b op g t u v w x : sp_roll "u" r t -> sp_rolls "u" rs u -> sp_threshold th v -> sp_bonus b w -> sp_target op g x ->
    spells (UComp r rs th b op g) (t ++ u ++ v ++ w ++ x).

(** C(...) and CHOICE[...] may be followed by any text, the others by nothing. *)
Definition may_be_followed (c : command) : Prop := match c with Calculation _ | Choose _ => True | _ => False end.

(** Validly encoded characters *)
Definition valid (t : text) : Prop := Forall (fun c => gc_bad c = false) t.
(** The next character, if any, is validly encoded. *)
Definition valid_head (t : text) : Prop := match t with c :: _ => gc_bad c = false | [] => True end.
