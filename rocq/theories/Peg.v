(** The parsing engine generated by pigeon, pkg/core/parser/parser.go:2360-3661
    (the same for every grammar).  Options are never used by the project: no memoisation, no debugging,
    invalid UTF-8 not allowed, panics recovered. *)
From Verif Require Export Utf8 Ast.
Open Scope list_scope.
Open Scope Z_scope.

(** Dynamic values [interface{}] built by the parser and its actions. *)
Inductive val :=
| VNil                       (* nil *)
| VBytes (s : string)        (* []byte *)
| VSlice (l : list val)      (* []interface{} *)
| VNode (n : node).          (* an ast.Node *)

(** Labels of the innermost rule/choice/repetition: parser.vstack's top map *)
Definition env := list (string * val).
(** [stack["label"]]: a missing label reads as nil *)
Fixpoint lookup (l : string) (e : env) : val :=
  match e with
  | [] => VNil
  | (k, v) :: e' => if String.eqb k l then v else lookup l e'
  end.

(** What an action can do: return a value, return (nil, error), or panic. *)
Inductive ares := AVal (v : val) | AErr (msg : string) | APanic (msg : string).

(** State variables of the grammar: c.state["RandCount"], absent before ResetRandCount. *)
Definition gstate := option Z.

(** Expressions (parser.go:2575-2660: actionExpr, labeledExpr, choiceExpr, seqExpr, litMatcher,
    charClassMatcher, anyMatcher, ruleRefExpr, zeroOrMoreExpr, oneOrMoreExpr, zeroOrOneExpr, notExpr,
    stateCodeExpr; the other kinds are not used by the grammar). *)
Record charclass := CharClass {
  cc_chars : list Z;
  cc_ranges : list (Z * Z);
  cc_Z : bool;               (* the Unicode class Z is listed *)
  cc_ignore_case : bool;
  cc_inverted : bool
}.

Inductive expr (R : Type) :=
| EAction (act : env -> list gochar -> gstate -> ares) (e : expr R)
| ELabel (l : string) (e : expr R)
| EChoice (alts : list (expr R))
| ESeq (es : list (expr R))
| ELit (lit : list Z) (ignore_case : bool)
| EClass (c : charclass)
| EAny
| ERef (r : R)
| EStar (e : expr R)
| EPlus (e : expr R)
| EOpt (e : expr R)
| ENot (e : expr R)
| EState (f : gstate -> ares * gstate).
Arguments EAction {R} act e.
Arguments ELabel {R} l e.
Arguments EChoice {R} alts.
Arguments ESeq {R} es.
Arguments ELit {R} lit ignore_case.
Arguments EClass {R} c.
Arguments EAny {R}.
Arguments ERef {R} r.
Arguments EStar {R} e.
Arguments EPlus {R} e.
Arguments EOpt {R} e.
Arguments ENot {R} e.
Arguments EState {R} f.

(** Parser state: the input not yet read (its head is the current rune), the state variables, the errors
    recorded so far (texts only, without the position prefix), the labels.  The bookkeeping for
    error messages (maxFailPos etc.) is not modelled. *)
Record pstate := PState {
  ps_rest : list gochar;
  ps_st : gstate;
  ps_errs : list string;
  ps_env : env
}.

Definition set_rest (s : pstate) (r : list gochar) : pstate := PState r (ps_st s) (ps_errs s) (ps_env s).
Definition set_st (s : pstate) (g : gstate) : pstate := PState (ps_rest s) g (ps_errs s) (ps_env s).
Definition set_env (s : pstate) (e : env) : pstate := PState (ps_rest s) (ps_st s) (ps_errs s) e.
Definition add_err (s : pstate) (m : string) : pstate :=
  PState (ps_rest s) (ps_st s) (ps_errs s ++ [m]) (ps_env s).

(** parser.go:2979-2995 [read]: the error for an invalid byte is recorded when the byte becomes current *)
Definition arrive (s : pstate) : pstate :=
  match ps_rest s with
  | c :: _ => if gc_bad c then add_err s "invalid encoding" else s
  | [] => s
  end.
Definition read (s : pstate) : pstate := arrive (set_rest s (tl (ps_rest s))).

(** parser.go:3058-3060 [sliceFrom] *)
Definition slice_from (start now : list gochar) : list gochar :=
  firstn (length start - length now) start.

(** Result of parsing an expression *)
Inductive pres := PMatch (v : val) | PFail | PPanic (msg : string).

(** parser.go:3337-3401 [parseCharClassMatcher]: does the class match the rune? *)
Definition class_hit (c : charclass) (rn : Z) : bool :=
  let cur := if cc_ignore_case c then to_lower rn else rn in
  existsb (Z.eqb cur) (cc_chars c)
  || existsb (fun p => in_range (fst p) (snd p) cur) (cc_ranges c)
  || (cc_Z c && is_Z cur).
Definition class_match (c : charclass) (rn : Z) : bool := xorb (cc_inverted c) (class_hit c rn).

(** parser.go:3468-3479: the loop of [parseLitMatcher] *)
Fixpoint lit_loop (lit : list Z) (ignore_case : bool) (s : pstate) : bool * pstate :=
  match lit with
  | [] => (true, s)
  | want :: lit' =>
      match ps_rest s with
      | [] => (false, s)     (* at the end the current rune is U+FFFD, which no literal contains *)
      | c :: _ =>
          let cur := if ignore_case then to_lower (gc_rune c) else gc_rune c in
          if cur =? want then lit_loop lit' ignore_case (read s) else (false, s)
      end
  end.

(** Values returned by a parsing function: result, state, number of expressions tried (ExprCnt).
    [None]: fuel exhausted. *)
Definition pout := option (pres * pstate * N).

Definition ret (r : pres) (s : pstate) (n : N) : pout := Some (r, s, n).

(** parser.go:3569-3588 [parseSeqExpr]; [s0] is the state at the start *)
Fixpoint seq_loop {R} (p : expr R -> pstate -> pout) (es : list (expr R)) (s0 s : pstate)
    (vals : list val) (cnt : N) : pout :=
  match es with
  | [] => ret (PMatch (VSlice vals)) s cnt
  | e :: es' =>
      match p e s with
      | None => None
      | Some (PMatch v, s', n) => seq_loop p es' s0 s' (vals ++ [v]) (cnt + n)
      | Some (PFail, s', n) => ret PFail (set_rest (set_st s' (ps_st s0)) (ps_rest s0)) (cnt + n)
      | Some (PPanic m, s', n) => ret (PPanic m) s' (cnt + n)
      end
  end.

(** parser.go:3418-3440 [parseChoiceExpr]; pushV/popV give each alternative its own labels *)
Fixpoint choice_loop {R} (p : expr R -> pstate -> pout) (alts : list (expr R)) (s : pstate) (cnt : N) : pout :=
  match alts with
  | [] => ret PFail s cnt
  | e :: alts' =>
      match p e (set_env s []) with
      | None => None
      | Some (PMatch v, s', n) => ret (PMatch v) (set_env s' (ps_env s)) (cnt + n)
      | Some (PFail, s', n) => choice_loop p alts' (set_env (set_st s' (ps_st s)) (ps_env s)) (cnt + n)
      | Some (PPanic m, s', n) => ret (PPanic m) s' (cnt + n)
      end
  end.

(** parser.go:3618-3634 [parseZeroOrMoreExpr], 3518-3538 [parseOneOrMoreExpr] ([need]: at least one) *)
Fixpoint star_loop (k : nat) (p : pstate -> pout) (need : bool) (s : pstate) (vals : list val) (cnt : N) : pout :=
  match k with
  | O => None
  | S k' =>
      match p (set_env s []) with
      | None => None
      | Some (PMatch v, s', n) => star_loop k' p need (set_env s' (ps_env s)) (vals ++ [v]) (cnt + n)
      | Some (PFail, s', n) =>
          let s'' := set_env s' (ps_env s) in
          match vals with
          | [] => if need then ret PFail s'' (cnt + n) else ret (PMatch (VSlice [])) s'' (cnt + n)
          | _ => ret (PMatch (VSlice vals)) s'' (cnt + n)
          end
      | Some (PPanic m, s', n) => ret (PPanic m) s' (cnt + n)
      end
  end.

Section Engine.
  Context {R : Type}.
  Variable rules : R -> expr R.

  (** parser.go:3199-3262 [parseExpr] and the functions it calls *)
  Fixpoint pexpr (fuel : nat) (e : expr R) (s : pstate) : pout :=
    match fuel with
    | O => None
    | S f =>
        match e with
        | EAction act e' =>                                      (* 3264-3287 *)
            match pexpr f e' s with
            | Some (PMatch _, s', n) =>
                match act (ps_env s') (slice_from (ps_rest s) (ps_rest s')) (ps_st s') with
                | AVal v => ret (PMatch v) s' (1 + n)
                | AErr m => ret (PMatch VNil) (add_err s' m) (1 + n)
                | APanic m => ret (PPanic m) s' (1 + n)
                end
            | Some (r, s', n) => ret r s' (1 + n)
            | None => None
            end
        | ELabel l e' =>                                         (* 3442-3455 *)
            match pexpr f e' (set_env s []) with
            | Some (PMatch v, s', n) => ret (PMatch v) (set_env s' ((l, v) :: ps_env s)) (1 + n)
            | Some (r, s', n) => ret r (set_env s' (ps_env s)) (1 + n)
            | None => None
            end
        | EChoice alts => choice_loop (pexpr f) alts s 1
        | ESeq es => seq_loop (pexpr f) es s s [] 1
        | ELit lit ic =>                                         (* 3457-3482 *)
            match lit_loop lit ic s with
            | (true, s') => ret (PMatch (VBytes (raw_text (slice_from (ps_rest s) (ps_rest s'))))) s' 1
            | (false, s') => ret PFail (set_rest s' (ps_rest s)) 1
            end
        | EClass c =>                                            (* 3337-3401 *)
            match ps_rest s with
            | [] => ret PFail s 1
            | ch :: _ =>
                if class_match c (gc_rune ch) then ret (PMatch (VBytes (gc_raw ch))) (read s) 1
                else ret PFail s 1
            end
        | EAny =>                                                (* 3321-3335 *)
            match ps_rest s with
            | [] => ret PFail s 1
            | ch :: _ => ret (PMatch (VBytes (gc_raw ch))) (read s) 1
            end
        | ERef r =>                                              (* 3552-3567, 3170-3197 *)
            match pexpr f (rules r) (set_env s []) with
            | Some (res, s', n) => ret res (set_env s' (ps_env s)) (1 + n)
            | None => None
            end
        | EStar e' => star_loop f (pexpr f e') false s [] 1
        | EPlus e' => star_loop f (pexpr f e') true s [] 1
        | EOpt e' =>                                             (* 3636-3646 *)
            match pexpr f e' (set_env s []) with
            | Some (PMatch v, s', n) => ret (PMatch v) (set_env s' (ps_env s)) (1 + n)
            | Some (PFail, s', n) => ret (PMatch VNil) (set_env s' (ps_env s)) (1 + n)
            | Some (PPanic m, s', n) => ret (PPanic m) s' (1 + n)
            | None => None
            end
        | ENot e' =>                                             (* 3500-3516 *)
            match pexpr f e' (set_env s []) with
            | Some (PPanic m, s', n) => ret (PPanic m) s' (1 + n)
            | Some (r, s', n) =>
                ret (match r with PMatch _ => PFail | _ => PMatch VNil end)
                    (set_rest (set_st (set_env s' (ps_env s)) (ps_st s)) (ps_rest s)) (1 + n)
            | None => None
            end
        | EState g =>                                            (* 3590-3600 *)
            match g (ps_st s) with
            | (AVal _, st') => ret (PMatch VNil) (set_st s st') 1
            | (AErr m, st') => ret (PMatch VNil) (add_err (set_st s st') m) 1
            | (APanic m, st') => ret (PPanic m) s 1
            end
        end
    end.

  (** parser.go:3093-3157 [parse] from the start rule.  [None]: fuel exhausted (proved impossible for enough fuel).
      Of the error only the recorded texts are kept, joined. *)
  Definition parse (fuel : nat) (start : R) (input : string) : option (outcome val) :=
    let s0 := arrive (PState (decode input) None [] []) in
    match pexpr fuel (rules start) s0 with
    | None => None
    | Some (PMatch v, s, _) =>
        Some (match ps_errs s with
              | [] => Ok v
              | es => Err (join (String "010" EmptyString) es)
              end)
    | Some (PFail, s, _) =>
        Some (Err (match ps_errs s with
                   | [] => "no match found"
                   | es => join (String "010" EmptyString) es
                   end))
    | Some (PPanic m, s, _) => Some (Err (join (String "010" EmptyString) (ps_errs s ++ [m])))
    end.

  (** ExprCnt after parsing (Stats.ExprCnt, parser.go:2790-2794, 3211) *)
  Definition expr_cnt (fuel : nat) (start : R) (input : string) : option N :=
    match pexpr fuel (rules start) (arrive (PState (decode input) None [] [])) with
    | None => None
    | Some (_, _, n) => Some n
    end.
End Engine.
