(** Why the execution of an accepted command can fail: the messages, and what in the command causes each. *)
From Verif Require Import GoBase Dice SpecDice Ast SpecSyntax SpecRoll SpecCounts.
Open Scope list_scope.
Open Scope Z_scope.

Section Reasons.
  (** the dice that can turn up *)
  Variable D : die -> Prop.

  (** ** Quotients *)
  Definition zero_text (x : Z) : string := (itoa x ++ " divided by zero")%string.
  (** Somewhere in [e] a number is divided by zero; [value a x]: [a] can come out as [x]. *)
  Inductive by_zero {L} (value : ae L -> Z -> Prop) (e : ae L) : string -> Prop :=
  | by_zero_ m a b x : part (Bin (Over m) a b) e -> value a x -> value b 0 -> by_zero value e (zero_text x).

  (** ** Random numbers [lo...hi] *)
  Inductive random_reason (lo hi : iexpr) : string -> Prop :=
  | reason_low msg : by_zero has_value lo msg -> random_reason lo hi msg
  | reason_high msg : by_zero has_value hi msg -> random_reason lo hi msg
  | reason_empty a b : has_value lo a -> has_value hi b -> b <= a ->
      random_reason lo hi ("evalRandomNumber: min (" ++ itoa a ++ ") must be less than max (" ++ itoa b ++ ")")%string
  (** more numbers than an int can count *)
  | reason_wide a b : has_value lo a -> has_value hi b -> b - a + 1 > max_int ->
      random_reason lo hi (roll_call 1 (b - a + 1 - 2 ^ 64) ++ ": ダイスの面数が少なすぎます")%string.

  (** ** Operands of rolls *)
  Definition comes_out (e : rexpr) (x : Z) : Prop := exists ds, Forall D ds /\ operand_value e ds x.
  Inductive operand_reason (e : rexpr) : string -> Prop :=
  | reason_quotient msg : by_zero comes_out e msg -> operand_reason e msg
  | reason_random lo hi msg : part (Leaf (RRand lo hi)) e -> random_reason lo hi msg -> operand_reason e msg.

  (** ** Rolls; [name]: the function that complains *)
  Definition complaint (name : string) (x y : Z) : string := (name ++ "(num: " ++ itoa x ++ ", sides: " ++ itoa y ++ "): ")%string.
  Inductive roll_reason (name : string) (r : roll) : string -> Prop :=
  | reason_count msg : operand_reason (fst r) msg -> roll_reason name r msg
  | reason_sides msg : operand_reason (snd r) msg -> roll_reason name r msg
  | reason_few_sides x y : comes_out (fst r) x -> comes_out (snd r) y -> y < 1 -> roll_reason name r (complaint name x y ++ "ダイスの面数が少なすぎます")%string
  | reason_few_dice x y : comes_out (fst r) x -> comes_out (snd r) y -> 1 <= y -> x < 1 -> roll_reason name r (complaint name x y ++ "振るダイス数が少なすぎます")%string.
  (** U commands check the numbers before they roll. *)
  Definition roller (c : command) : string :=
    match c with UExpr _ _ _ _ | UComp _ _ _ _ _ _ => "evalCompoundingRoll" | _ => "RollDice" end.

  (** ** Plain numbers of a command: the calculation, thresholds, bonuses, targets *)
  Definition opt_list {A} (o : option A) : list A := match o with Some a => [a] | None => [] end.
  Definition numbers_of (c : command) : list iexpr :=
    match c with
    | Calculation e => [e]
    | DExpr _ | BList _ _ | Choose _ => []
    | DComp _ _ t | BComp _ _ _ t => [t]
    | RList _ _ th => opt_list th
    | RComp _ _ th _ t => opt_list th ++ [t]
    | UExpr _ _ th b => opt_list th ++ map snd (opt_list b)
    | UComp _ _ th b _ t => opt_list th ++ map snd (opt_list b) ++ [t]
    end.

  (** ** D commands *)
  Definition d_part (c : command) : option dexpr := match c with DExpr e | DComp e _ _ => Some e | _ => None end.
  (** [a], a part of a D command, can come out as [x]. *)
  Definition d_comes_out (a : dexpr) (x : Z) : Prop := exists ops rolls mid fin, Forall D ops /\ Forall D rolls /\ d_value a ops rolls mid fin x.
  (** What the tool calls an operand that is no literal *)
  Definition operand_name (e : rexpr) : string :=
    match e with
    | Leaf (RInt _) => "Int" | Leaf (RRand _ _) => "RandomNumber" | Neg _ => "UnaryMinus"
    | Bin Plus _ _ => "Add" | Bin Minus _ _ => "Subtract" | Bin Times _ _ => "Multiply"
    | Bin (Over RoundUp) _ _ => "DivideWithRoundingUp" | Bin (Over RoundHalf) _ _ => "DivideWithRounding" | Bin (Over RoundDown) _ _ => "DivideWithRoundingDown"
    end.
  Definition is_literal (e : rexpr) : Prop := exists v, e = Leaf (RInt v).
  Definition no_random_text : string := "evalVarArgsOfVariableExpr not implemented: RandomNumber".
  (** What D commands do not support: random numbers that are no operand; comparisons of a single roll whose operands are computed, or of a single
      random number or plain number. *)
  Inductive unsupported : command -> string -> Prop :=
  | loose_random c e lo hi : d_part c = Some e -> part (Leaf (DRand lo hi)) e -> unsupported c no_random_text
  | compared_random op t lo hi : unsupported (DComp (Leaf (DRand lo hi)) op t) "determineValueOfVariableExpr not implemented: RandomNumber"
  | compared_operand op t a b lo hi : part (Leaf (RRand lo hi)) a \/ part (Leaf (RRand lo hi)) b -> unsupported (DComp (Leaf (DDice a b)) op t) no_random_text
  | compared_count op t a b : ~ is_literal a -> unsupported (DComp (Leaf (DDice a b)) op t) ("num is not Int: " ++ operand_name a)%string
  | compared_sides op t a b : is_literal a -> ~ is_literal b -> unsupported (DComp (Leaf (DDice a b)) op t) ("sides is not Int: " ++ operand_name b)%string
  | compared_number op t v : unsupported (DComp (Leaf (DInt v)) op t) "EvalVarArgs not implemented: Int".

  (** ** The reasons *)
  Inductive reason (c : command) : string -> Prop :=
  | reason_number e msg : In e (numbers_of c) -> by_zero has_value e msg -> reason c msg
  | reason_roll r msg : In r (rolls_of c) -> roll_reason (roller c) r msg -> reason c msg
  | reason_total e msg : d_part c = Some e -> by_zero d_comes_out e msg -> reason c msg
  | reason_unsupported msg : unsupported c msg -> reason c msg.
End Reasons.

(** ** Dice given in advance that do not suffice: after [taken] of the dice [q] a roll found one with the wrong number of sides, or none *)
Definition unfit_dice (q : list die) (msg : string) : Prop :=
  exists num sides taken rest left, q = taken ++ rest /\ 1 <= num /\ 1 <= sides /\ roll_fails num sides rest msg left.

(** ** Commands with no reason to fail *)
(** Every quotient is one by a number other than 0 that is written down. *)
Definition safe_quotients {L} (number : Z -> L) (e : ae L) : Prop := forall m a b, part (Bin (Over m) a b) e -> exists v, b = Leaf (number v) /\ v <> 0.
(** nRs with written numbers, at least one die with at least one side (and not more dice than fit into memory) *)
Definition plain_dice (r : roll) : Prop := exists n s, r = (Leaf (RInt n), Leaf (RInt s)) /\ 1 <= n <= 2 ^ 44 /\ 1 <= s.
Definition unproblematic (c : command) : Prop :=
  Forall plain_dice (rolls_of c) /\ Forall (safe_quotients (fun v => v)) (numbers_of c) /\
  (forall e, d_part c = Some e -> safe_quotients DInt e /\ (forall lo hi, ~ part (Leaf (DRand lo hi)) e) /\ rolls_of c <> []).
