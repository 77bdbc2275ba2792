(** The parsing engine of Peg.v with the bookkeeping for error messages: positions, the stack of rules, the farthest
    failure and what was expected there (pkg/core/parser/parser.go:2360-3661), and the texts of parser.Parse's errors. *)
From Verif Require Export Grammar.
From Verif Require Quote.
Open Scope list_scope.
Open Scope Z_scope.

(** parser.go:2550-2552 [position] *)
Record position := Position { p_line : Z; p_col : Z; p_offset : Z }.
(** The terminals; [failAt] gets their text *)
Inductive want := WLit (lit : list Z) (ignore_case : bool) | WClass (c : charclass) | WAny.
(** parser.go:2729-2736 [parserError]: where, in which rule (the prefix shows both), what *)
Record perr (R : Type) := PErr { e_pos : position; e_rule : option R; e_text : string }.
Arguments PErr {R}. Arguments e_pos {R}. Arguments e_rule {R}. Arguments e_text {R}.

(** parser.go:2800-2850 [parser]: pt (the current rune is the head of the rest), cur.state, errs, the top of vstack, rstack,
    maxFailPos, maxFailExpected (with the mark for "!"), maxFailInvertExpected *)
Record dstate (R : Type) := DState {
  d_pt : position;
  d_rest : list gochar;
  d_st : gstate;
  d_errs : list (perr R);
  d_env : env;
  d_rstack : list R;
  d_fail : position;
  d_expected : list (bool * want);
  d_invert : bool
}.
Arguments DState {R}. Arguments d_pt {R}. Arguments d_rest {R}. Arguments d_st {R}. Arguments d_errs {R}. Arguments d_env {R}.
Arguments d_rstack {R}. Arguments d_fail {R}. Arguments d_expected {R}. Arguments d_invert {R}.

Section Engine.
  Context {R : Type}.
  Implicit Types d : dstate R.

  Definition d_set_point d (p : position) (r : list gochar) : dstate R :=
    DState p r (d_st d) (d_errs d) (d_env d) (d_rstack d) (d_fail d) (d_expected d) (d_invert d).
  Definition d_set_st d (g : gstate) : dstate R :=
    DState (d_pt d) (d_rest d) g (d_errs d) (d_env d) (d_rstack d) (d_fail d) (d_expected d) (d_invert d).
  Definition d_set_env d (e : env) : dstate R :=
    DState (d_pt d) (d_rest d) (d_st d) (d_errs d) e (d_rstack d) (d_fail d) (d_expected d) (d_invert d).
  Definition d_set_rstack d (l : list R) : dstate R :=
    DState (d_pt d) (d_rest d) (d_st d) (d_errs d) (d_env d) l (d_fail d) (d_expected d) (d_invert d).
  Definition d_set_invert d (b : bool) : dstate R :=
    DState (d_pt d) (d_rest d) (d_st d) (d_errs d) (d_env d) (d_rstack d) (d_fail d) (d_expected d) b.
  (** parser.go:2935-2957 [addErrAt]; the rule is the last one of rstack *)
  Definition d_err_at d (m : string) (p : position) : dstate R :=
    DState (d_pt d) (d_rest d) (d_st d) (d_errs d ++ [PErr p (hd_error (d_rstack d)) m]) (d_env d) (d_rstack d) (d_fail d) (d_expected d) (d_invert d).
  (** parser.go:2931-2933 [addErr] *)
  Definition d_add_err d (m : string) : dstate R := d_err_at d m (d_pt d).
  (** parser.go:2959-2976 [failAt] *)
  Definition fail_at d (failed : bool) (p : position) (w : want) : dstate R :=
    if Bool.eqb failed (d_invert d) then
      if p_offset p <? p_offset (d_fail d) then d
      else
        let far := p_offset (d_fail d) <? p_offset p in
        DState (d_pt d) (d_rest d) (d_st d) (d_errs d) (d_env d) (d_rstack d)
          (if far then p else d_fail d) ((if far then [] else d_expected d) ++ [(d_invert d, w)]) (d_invert d)
    else d.
  (** parser.go:2982-2995: the second part of [read], the next rune has become the current one *)
  Definition d_arrive d : dstate R :=
    let p := d_pt d in
    match d_rest d with
    | [] => d_set_point d (Position (p_line p) (p_col p + 1) (p_offset p)) (d_rest d)
    | c :: _ =>
        let p' := if gc_rune c =? 10 then Position (p_line p + 1) 0 (p_offset p) else Position (p_line p) (p_col p + 1) (p_offset p) in
        let d' := d_set_point d p' (d_rest d) in
        if gc_bad c then d_add_err d' "invalid encoding" else d'
    end.
  (** parser.go:2979-2995 [read] *)
  Definition d_read d : dstate R :=
    let p := d_pt d in
    let w := match d_rest d with c :: _ => Z.of_nat (String.length (gc_raw c)) | [] => 0 end in
    d_arrive (d_set_point d (Position (p_line p) (p_col p) (p_offset p + w)) (tl (d_rest d))).

  (** parser.go:3468-3479 *)
  Fixpoint d_lit_loop (lit : list Z) (ignore_case : bool) d : bool * dstate R :=
    match lit with
    | [] => (true, d)
    | want :: lit' =>
        match d_rest d with
        | [] => (false, d)
        | c :: _ =>
            let cur := if ignore_case then to_lower (gc_rune c) else gc_rune c in
            if cur =? want then d_lit_loop lit' ignore_case (d_read d) else (false, d)
        end
    end.

  Definition dout := option (pres * dstate R * N).
  Definition dret (r : pres) d (n : N) : dout := Some (r, d, n).

  (** parser.go:3569-3588 [parseSeqExpr] *)
  Fixpoint d_seq_loop (p : expr R -> dstate R -> dout) (es : list (expr R)) (d0 d : dstate R)
      (vals : list val) (cnt : N) : dout :=
    match es with
    | [] => dret (PMatch (VSlice vals)) d cnt
    | e :: es' =>
        match p e d with
        | None => None
        | Some (PMatch v, d', n) => d_seq_loop p es' d0 d' (vals ++ [v]) (cnt + n)
        | Some (PFail, d', n) => dret PFail (d_set_point (d_set_st d' (d_st d0)) (d_pt d0) (d_rest d0)) (cnt + n)
        | Some (PPanic m, d', n) => dret (PPanic m) d' (cnt + n)
        end
    end.
  (** parser.go:3418-3440 [parseChoiceExpr] *)
  Fixpoint d_choice_loop (p : expr R -> dstate R -> dout) (alts : list (expr R)) d (cnt : N) : dout :=
    match alts with
    | [] => dret PFail d cnt
    | e :: alts' =>
        match p e (d_set_env d []) with
        | None => None
        | Some (PMatch v, d', n) => dret (PMatch v) (d_set_env d' (d_env d)) (cnt + n)
        | Some (PFail, d', n) => d_choice_loop p alts' (d_set_env (d_set_st d' (d_st d)) (d_env d)) (cnt + n)
        | Some (PPanic m, d', n) => dret (PPanic m) d' (cnt + n)
        end
    end.
  (** parser.go:3618-3634, 3518-3538 [parseZeroOrMoreExpr], [parseOneOrMoreExpr] *)
  Fixpoint d_star_loop (k : nat) (p : dstate R -> dout) (need : bool) d (vals : list val) (cnt : N) : dout :=
    match k with
    | O => None
    | S k' =>
        match p (d_set_env d []) with
        | None => None
        | Some (PMatch v, d', n) => d_star_loop k' p need (d_set_env d' (d_env d)) (vals ++ [v]) (cnt + n)
        | Some (PFail, d', n) =>
            let d'' := d_set_env d' (d_env d) in
            match vals with
            | [] => if need then dret PFail d'' (cnt + n) else dret (PMatch (VSlice [])) d'' (cnt + n)
            | _ => dret (PMatch (VSlice vals)) d'' (cnt + n)
            end
        | Some (PPanic m, d', n) => dret (PPanic m) d' (cnt + n)
        end
    end.

  Variable rules : R -> expr R.
  (** parser.go:3199-3262 [parseExpr] and the functions it calls *)
  Fixpoint dexpr (fuel : nat) (e : expr R) d : dout :=
    match fuel with
    | O => None
    | S f =>
        match e with
        | EAction act e' =>                                      (* 3264-3287: the error is placed at the start of the match *)
            match dexpr f e' d with
            | Some (PMatch _, d', n) =>
                match act (d_env d') (slice_from (d_rest d) (d_rest d')) (d_st d') with
                | AVal v => dret (PMatch v) d' (1 + n)
                | AErr m => dret (PMatch VNil) (d_err_at d' m (d_pt d)) (1 + n)
                | APanic m => dret (PPanic m) d' (1 + n)
                end
            | Some (r, d', n) => dret r d' (1 + n)
            | None => None
            end
        | ELabel l e' =>                                         (* 3442-3455 *)
            match dexpr f e' (d_set_env d []) with
            | Some (PMatch v, d', n) => dret (PMatch v) (d_set_env d' ((l, v) :: d_env d)) (1 + n)
            | Some (r, d', n) => dret r (d_set_env d' (d_env d)) (1 + n)
            | None => None
            end
        | EChoice alts => d_choice_loop (dexpr f) alts d 1
        | ESeq es => d_seq_loop (dexpr f) es d d [] 1
        | ELit lit ic =>                                         (* 3457-3482: a failure is noted at the start of the literal *)
            match d_lit_loop lit ic d with
            | (true, d') => dret (PMatch (VBytes (raw_text (slice_from (d_rest d) (d_rest d'))))) (fail_at d' true (d_pt d) (WLit lit ic)) 1
            | (false, d') => dret PFail (d_set_point (fail_at d' false (d_pt d) (WLit lit ic)) (d_pt d) (d_rest d)) 1
            end
        | EClass c =>                                            (* 3337-3401 *)
            match d_rest d with
            | [] => dret PFail (fail_at d false (d_pt d) (WClass c)) 1
            | ch :: _ =>
                if class_match c (gc_rune ch) then dret (PMatch (VBytes (gc_raw ch))) (fail_at (d_read d) true (d_pt d) (WClass c)) 1
                else dret PFail (fail_at d false (d_pt d) (WClass c)) 1
            end
        | EAny =>                                                (* 3321-3335 *)
            match d_rest d with
            | [] => dret PFail (fail_at d false (d_pt d) WAny) 1
            | ch :: _ => dret (PMatch (VBytes (gc_raw ch))) (fail_at (d_read d) true (d_pt d) WAny) 1
            end
        | ERef r =>                                              (* 3552-3567, 3170-3197 *)
            match dexpr f (rules r) (d_set_rstack (d_set_env d []) (r :: d_rstack d)) with
            | Some (PPanic m, d', n) => dret (PPanic m) (d_set_env d' (d_env d)) (1 + n)
            | Some (res, d', n) => dret res (d_set_rstack (d_set_env d' (d_env d)) (d_rstack d)) (1 + n)
            | None => None
            end
        | EStar e' => d_star_loop f (dexpr f e') false d [] 1
        | EPlus e' => d_star_loop f (dexpr f e') true d [] 1
        | EOpt e' =>                                             (* 3636-3646 *)
            match dexpr f e' (d_set_env d []) with
            | Some (PMatch v, d', n) => dret (PMatch v) (d_set_env d' (d_env d)) (1 + n)
            | Some (PFail, d', n) => dret (PMatch VNil) (d_set_env d' (d_env d)) (1 + n)
            | Some (PPanic m, d', n) => dret (PPanic m) d' (1 + n)
            | None => None
            end
        | ENot e' =>                                             (* 3500-3516 *)
            match dexpr f e' (d_set_invert (d_set_env d []) (negb (d_invert d))) with
            | Some (PPanic m, d', n) => dret (PPanic m) d' (1 + n)
            | Some (r, d', n) =>
                dret (match r with PMatch _ => PFail | _ => PMatch VNil end)
                     (d_set_point (d_set_st (d_set_env (d_set_invert d' (d_invert d)) (d_env d)) (d_st d)) (d_pt d) (d_rest d)) (1 + n)
            | None => None
            end
        | Peg.EState g =>                                          (* 3590-3600 *)
            match g (d_st d) with
            | (AVal _, st') => dret (PMatch VNil) (d_set_st d st') 1
            | (AErr m, st') => dret (PMatch VNil) (d_add_err (d_set_st d st') m) 1
            | (APanic m, st') => dret (PPanic m) d 1
            end
        end
    end.

  (** parser.go:2744-2772 [newParser]; 3132: the first [read] *)
  Definition d_start (input : string) : dstate R :=
    d_arrive (DState (Position 1 0 0) (decode input) None [] [] [] (Position 1 1 0) [] false).
End Engine.

(** ** Texts *)
(** Go's string comparison: bytewise lexicographic *)
Fixpoint string_leb (s t : string) : bool :=
  match s, t with
  | EmptyString, _ => true
  | String _ _, EmptyString => false
  | String a s', String b t' =>
      let x := byte_val a in let y := byte_val b in
      if x <? y then true else if y <? x then false else string_leb s' t'
  end.
(** sort.Sort(sort.StringSlice): insertion sort stands for any sorting algorithm (the result is the same) *)
Fixpoint insert_sorted (s : string) (l : list string) : list string :=
  match l with
  | [] => [s]
  | t :: l' => if string_leb s t then s :: l else t :: insert_sorted s l'
  end.
Definition sort_strings (l : list string) : list string := fold_right insert_sorted [] l.
(** The [val] of the character classes in the generated table (the texts they have in parser.pigeon:80, 98, 102, 233, 265, 289, 356) *)
Definition class_text (c : charclass) : string :=
  if cc_Z c then "[\pZ]" else if cc_inverted c then "[^\],]" else if cc_ignore_case c then "[ur]i" else "[0-9]".
Fixpoint text_of_runes (l : list Z) : string := match l with [] => EmptyString | r :: l' => (encode_rune r ++ text_of_runes l')%string end.
(** parser.go:3462-3466, 3344, 3328: the text of a terminal; 2971-2973 the mark *)
Definition want_text (w : want) : string :=
  match w with
  | WLit lit ic => (Quote.quote Quote.is_print (text_of_runes lit) ++ if ic then "i" else "")%string
  | WClass c => class_text c
  | WAny => "."
  end.
Definition expected_text (x : bool * want) : string := ((if fst x then "!" else "") ++ want_text (snd x))%string.
(** The [name] of a rule in the generated table (none has a display name) *)
Definition rule_name (r : rule) : string :=
  match r with
  | Command => "Command" | CommandWithExpression => "CommandWithExpression" | Choice => "Choice" | ChoiceItems => "ChoiceItems"
  | ChoiceItem => "ChoiceItem" | ChoiceItemChars => "ChoiceItemChars" | Calc => "Calc" | DRollExprCommand => "DRollExprCommand"
  | DRollCompCommand => "DRollCompCommand" | BRollList => "BRollList" | BRollComp => "BRollComp" | RRollList => "RRollList"
  | RRollComp => "RRollComp" | URollComp => "URollComp" | URollExpr => "URollExpr" | URollList => "URollList" | IntExpr => "IntExpr"
  | IntExprAdditive => "IntExprAdditive" | IntExprMultitive => "IntExprMultitive" | IntExprPrimary => "IntExprPrimary"
  | ParenthesizedIntExpr => "ParenthesizedIntExpr" | IntExprUnaryPlus => "IntExprUnaryPlus" | IntExprUnaryMinus => "IntExprUnaryMinus"
  | DRollComp => "DRollComp" | DRollExpr => "DRollExpr" | DRollExprAdditive => "DRollExprAdditive"
  | DRollExprMultitive => "DRollExprMultitive" | DRollExprPrimary => "DRollExprPrimary"
  | ParenthesizedDRollExpr => "ParenthesizedDRollExpr" | DRollExprUnaryPlus => "DRollExprUnaryPlus"
  | DRollExprUnaryMinus => "DRollExprUnaryMinus" | IntRandExpr => "IntRandExpr" | IntRandExprAdditive => "IntRandExprAdditive"
  | IntRandExprMultitive => "IntRandExprMultitive" | IntRandExprPrimary => "IntRandExprPrimary"
  | ParenthesizedIntRandExpr => "ParenthesizedIntRandExpr" | IntRandExprUnaryPlus => "IntRandExprUnaryPlus"
  | IntRandExprUnaryMinus => "IntRandExprUnaryMinus" | DRoll => "DRoll" | BRoll => "BRoll" | RRoll => "RRoll" | URoll => "URoll"
  | RollOperand => "RollOperand" | RandomNumber => "RandomNumber" | RandomNumberOperand => "RandomNumberOperand"
  | ResetRandCount => "ResetRandCount" | IncRandCount => "IncRandCount" | Integer => "Integer" | CompareOp => "CompareOp" | EOT => "EOT"
  end.
(** parser.go:2935-2956, 2739-2741 [addErrAt], [Error] *)
Definition err_text (filename : string) (e : perr rule) : string :=
  ((if String.eqb filename "" then "" else filename ++ ":") ++
   itoa (p_line (e_pos e)) ++ ":" ++ itoa (p_col (e_pos e)) ++ " (" ++ itoa (p_offset (e_pos e)) ++ ")" ++
   (match e_rule e with Some r => ": rule " ++ rule_name r | None => "" end) ++ ": " ++ e_text e)%string.
(** parser.go:2698-2708 [dedupe] *)
Fixpoint dedupe (seen l : list string) : list string :=
  match l with
  | [] => []
  | s :: l' => if existsb (String.eqb s) seen then dedupe seen l' else s :: dedupe (s :: seen) l'
  end.
(** parser.go:2690-2727 [err], [Error] of the list *)
Definition errs_text (filename : string) (es : list (perr rule)) : string :=
  join (String "010" EmptyString) (dedupe [] (map (err_text filename) es)).
(** parser.go:3159-3168 [listJoin] *)
Definition list_join (l : list string) (sep last_sep : string) : string :=
  match rev l with
  | [] => ""
  | [s] => s
  | s :: l' => (join sep (rev l') ++ " " ++ last_sep ++ " " ++ s)%string
  end.
(** parser.go:3137-3153: the expected texts as a set, sorted, the end of the text last *)
Definition expected_list (l : list (bool * want)) : list string :=
  let texts := dedupe [] (map expected_text l) in
  sort_strings (filter (fun s => negb (String.eqb s "!.")) texts) ++ (if existsb (String.eqb "!.") texts then ["EOF"%string] else []).
(** parser.go:3133-3156: the errors after a failed match *)
Definition final_errs (d : dstate rule) : list (perr rule) :=
  match d_errs d with
  | [] => [PErr (d_fail d) (hd_error (d_rstack d)) ("no match found, expected: " ++ list_join (expected_list (d_expected d)) ", " "or")%string]
  | es => es
  end.
(** parser.go:2545-2547, 3093-3157 [Parse] and the type assertion of its callers *)
Definition parse_text (filename input : string) : outcome node :=
  match dexpr rules (parse_fuel input) (rules Command) (d_set_rstack (d_start input) [Command]) with
  | None => Panic "out of fuel"
  | Some (PMatch v, d, _) =>
      match d_errs d with
      | [] => match v with VNode n => Ok n | _ => Panic "interface conversion: not ast.Node" end
      | es => Err (errs_text filename es)
      end
  | Some (PFail, d, _) => Err (errs_text filename (final_errs (d_set_rstack d (tl (d_rstack d)))))
  | Some (PPanic m, d, _) => Err (errs_text filename (d_errs (d_add_err d m)))
  end.
