(** The parsing engine with its options, parser.go:2380-2515 and 2744-3661: MaxExpressions, Memoize, AllowInvalidUTF8, Recover, Entrypoint, InitState.
    The project never sets any; [Peg.v] is the engine without them (PegOptionsProofs.v).  Error texts are kept without positions, as in [Peg.v]. *)
From Verif Require Export Grammar Peg.
Open Scope list_scope.
Open Scope Z_scope.

(** The expression nodes and rules have an identity in Go (pointers): here the rule and the way from its expression down to the node, last step first *)
Inductive pnode (R : Type) := PRule (r : R) | PExpr (r : R) (path : list nat).
Arguments PRule {R} r.
Arguments PExpr {R} r path.
(** parser.go:2783-2787 [resultTuple], kept for a node and an offset (the offset is told by the number of characters left) *)
Definition memo (R : Type) := list (nat * pnode R * (pres * list gochar)).

Record options (R : Type) := Options {
  o_max : N;                 (* MaxExpressions; 0: no limit (2757-2759) *)
  o_memoize : bool;          (* Memoize *)
  o_allow : bool;            (* AllowInvalidUTF8 *)
  o_recover : bool;          (* Recover, true by default (2752) *)
  o_entry : R;               (* Entrypoint, the first rule by default *)
  o_state : gstate           (* InitState("RandCount", _) *)
}.
Arguments Options {R}.
Arguments o_max {R} o.
Arguments o_memoize {R} o.
Arguments o_allow {R} o.
Arguments o_recover {R} o.
Arguments o_entry {R} o.
Arguments o_state {R} o.

(** The parser: [Peg.pstate], ExprCnt and the memo table *)
Record ostate (R : Type) := OState { os_p : pstate; os_cnt : N; os_memo : memo R }.
Arguments OState {R}.
Arguments os_p {R} o.
Arguments os_cnt {R} o.
Arguments os_memo {R} o.
Definition with_p {R} (s : ostate R) (p : pstate) : ostate R := OState p (os_cnt s) (os_memo s).

Definition max_message : string := "max number of expresssions parsed".

Section Options.
  Context {R : Type}.
  Variable same_rule : R -> R -> bool.
  Variable rules : R -> expr R.
  Variable o : options R.

  Fixpoint same_path (p q : list nat) : bool :=
    match p, q with
    | [], [] => true
    | x :: p', y :: q' => Nat.eqb x y && same_path p' q'
    | _, _ => false
    end.
  Definition same_node (a b : pnode R) : bool :=
    match a, b with
    | PRule r, PRule r' => same_rule r r'
    | PExpr r p, PExpr r' p' => same_rule r r' && same_path p p'
    | _, _ => false
    end.
  (** parser.go:3062-3072 [getMemoized] *)
  Fixpoint get_memo (m : memo R) (left : nat) (n : pnode R) : option (pres * list gochar) :=
    match m with
    | [] => None
    | (l, k, x) :: m' => if Nat.eqb l left && same_node k n then Some x else get_memo m' left n
    end.
  Definition hit (s : ostate R) (n : pnode R) : option (pres * list gochar) :=
    if o_memoize o then get_memo (os_memo s) (length (ps_rest (os_p s))) n else None.
  (** parser.go:3074-3084 [setMemoized], after [r] at [now]; a panic does not come here *)
  Definition remember (start : pstate) (n : pnode R) (out : option (pres * ostate R)) : option (pres * ostate R) :=
    match out with
    | Some (PPanic m, s) => Some (PPanic m, s)
    | Some (r, s) => if o_memoize o then Some (r, OState (os_p s) (os_cnt s) ((length (ps_rest start), n, (r, ps_rest (os_p s))) :: os_memo s)) else Some (r, s)
    | None => None
    end.

  (** parser.go:2979-2995 [read] *)
  Definition o_arrive (s : pstate) : pstate := if o_allow o then s else arrive s.
  Definition o_read (s : pstate) : pstate := o_arrive (set_rest s (tl (ps_rest s))).
  (** parser.go:3468-3479 *)
  Fixpoint o_lit_loop (lit : list Z) (ignore_case : bool) (s : pstate) : bool * pstate :=
    match lit with
    | [] => (true, s)
    | want :: lit' =>
        match ps_rest s with
        | [] => (false, s)
        | c :: _ =>
            let cur := if ignore_case then to_lower (gc_rune c) else gc_rune c in
            if cur =? want then o_lit_loop lit' ignore_case (o_read s) else (false, s)
        end
    end.
  Definition oout := option (pres * ostate R).
  (** parser.go:3569-3588 [parseSeqExpr] *)
  Fixpoint o_seq (p : nat -> expr R -> ostate R -> oout) (i : nat) (es : list (expr R)) (s0 : pstate) (s : ostate R) (vals : list val) : oout :=
    match es with
    | [] => Some (PMatch (VSlice vals), s)
    | e :: es' =>
        match p i e s with
        | None => None
        | Some (PMatch v, s') => o_seq p (S i) es' s0 s' (vals ++ [v])
        | Some (PFail, s') => Some (PFail, with_p s' (set_rest (set_st (os_p s') (ps_st s0)) (ps_rest s0)))
        | Some (PPanic m, s') => Some (PPanic m, s')
        end
    end.
  (** parser.go:3418-3440 [parseChoiceExpr] *)
  Fixpoint o_choice (p : nat -> expr R -> ostate R -> oout) (i : nat) (alts : list (expr R)) (s : ostate R) : oout :=
    match alts with
    | [] => Some (PFail, s)
    | e :: alts' =>
        match p i e (with_p s (set_env (os_p s) [])) with
        | None => None
        | Some (PMatch v, s') => Some (PMatch v, with_p s' (set_env (os_p s') (ps_env (os_p s))))
        | Some (PFail, s') => o_choice p (S i) alts' (with_p s' (set_env (set_st (os_p s') (ps_st (os_p s))) (ps_env (os_p s))))
        | Some (PPanic m, s') => Some (PPanic m, s')
        end
    end.
  (** parser.go:3618-3634 [parseZeroOrMoreExpr], 3518-3538 [parseOneOrMoreExpr] *)
  Fixpoint o_star (k : nat) (p : ostate R -> oout) (need : bool) (s : ostate R) (vals : list val) : oout :=
    match k with
    | O => None
    | S k' =>
        match p (with_p s (set_env (os_p s) [])) with
        | None => None
        | Some (PMatch v, s') => o_star k' p need (with_p s' (set_env (os_p s') (ps_env (os_p s)))) (vals ++ [v])
        | Some (PFail, s') =>
            let s'' := with_p s' (set_env (os_p s') (ps_env (os_p s))) in
            match vals with
            | [] => if need then Some (PFail, s'') else Some (PMatch (VSlice []), s'')
            | _ => Some (PMatch (VSlice vals), s'')
            end
        | Some (PPanic m, s') => Some (PPanic m, s')
        end
    end.

  (** parser.go:3199-3262 [parseExpr] and the functions it calls; the expression is the node [path] of the rule [r] *)
  Fixpoint oexpr (fuel : nat) (r : R) (path : list nat) (e : expr R) (s : ostate R) : oout :=
    match fuel with
    | O => None
    | S f =>
        match hit s (PExpr r path) with
        | Some (res, end_) => Some (res, with_p s (set_rest (os_p s) end_))                       (* 3202-3209 *)
        | None =>
            let s := OState (os_p s) (os_cnt s + 1) (os_memo s) in                              (* 3211 *)
            if negb (o_max o =? 0)%N && (o_max o <? os_cnt s)%N then Some (PPanic max_message, s)      (* 3212-3214 *)
            else
              let p := os_p s in
              remember p (PExpr r path)
                match e with
                | EAction act e' =>                                      (* 3264-3287 *)
                    match oexpr f r (0%nat :: path) e' s with
                    | Some (PMatch _, s') =>
                        match act (ps_env (os_p s')) (slice_from (ps_rest p) (ps_rest (os_p s'))) (ps_st (os_p s')) with
                        | AVal v => Some (PMatch v, s')
                        | AErr m => Some (PMatch VNil, with_p s' (add_err (os_p s') m))
                        | APanic m => Some (PPanic m, s')
                        end
                    | x => x
                    end
                | ELabel l e' =>                                         (* 3442-3455 *)
                    match oexpr f r (0%nat :: path) e' (with_p s (set_env p [])) with
                    | Some (PMatch v, s') => Some (PMatch v, with_p s' (set_env (os_p s') ((l, v) :: ps_env p)))
                    | Some (x, s') => Some (x, with_p s' (set_env (os_p s') (ps_env p)))
                    | None => None
                    end
                | EChoice alts => o_choice (fun i => oexpr f r (i :: path)) 0 alts s
                | ESeq es => o_seq (fun i => oexpr f r (i :: path)) 0 es p s []
                | ELit lit ic =>                                         (* 3457-3482 *)
                    match o_lit_loop lit ic p with
                    | (true, p') => Some (PMatch (VBytes (raw_text (slice_from (ps_rest p) (ps_rest p')))), with_p s p')
                    | (false, p') => Some (PFail, with_p s (set_rest p' (ps_rest p)))
                    end
                | EClass c =>                                            (* 3337-3401 *)
                    match ps_rest p with
                    | [] => Some (PFail, s)
                    | ch :: _ => if class_match c (gc_rune ch) then Some (PMatch (VBytes (gc_raw ch)), with_p s (o_read p)) else Some (PFail, s)
                    end
                | EAny =>                                                (* 3321-3335 *)
                    match ps_rest p with
                    | [] => Some (PFail, s)
                    | ch :: _ => Some (PMatch (VBytes (gc_raw ch)), with_p s (o_read p))
                    end
                | ERef r' =>                                             (* 3552-3567, 3170-3197 *)
                    match hit s (PRule r') with
                    | Some (res, end_) => Some (res, with_p s (set_rest p end_))
                    | None =>
                        remember p (PRule r')
                          match oexpr f r' [] (rules r') (with_p s (set_env p [])) with
                          | Some (res, s') => Some (res, with_p s' (set_env (os_p s') (ps_env p)))
                          | None => None
                          end
                    end
                | EStar e' => o_star f (oexpr f r (0%nat :: path) e') false s []
                | EPlus e' => o_star f (oexpr f r (0%nat :: path) e') true s []
                | EOpt e' =>                                             (* 3636-3646 *)
                    match oexpr f r (0%nat :: path) e' (with_p s (set_env p [])) with
                    | Some (PMatch v, s') => Some (PMatch v, with_p s' (set_env (os_p s') (ps_env p)))
                    | Some (PFail, s') => Some (PMatch VNil, with_p s' (set_env (os_p s') (ps_env p)))
                    | x => x
                    end
                | ENot e' =>                                             (* 3500-3516 *)
                    match oexpr f r (0%nat :: path) e' (with_p s (set_env p [])) with
                    | Some (PPanic m, s') => Some (PPanic m, s')
                    | Some (x, s') =>
                        Some (match x with PMatch _ => PFail | _ => PMatch VNil end,
                              with_p s' (set_rest (set_st (set_env (os_p s') (ps_env p)) (ps_st p)) (ps_rest p)))
                    | None => None
                    end
                | EState g =>                                            (* 3590-3600 *)
                    match g (ps_st p) with
                    | (AVal _, st') => Some (PMatch VNil, with_p s (set_st p st'))
                    | (AErr m, st') => Some (PMatch VNil, with_p s (add_err (set_st p st') m))
                    | (APanic m, st') => Some (PPanic m, s)
                    end
                end
        end
    end.

  (** parser.go:2545-2547, 2744-2765, 3093-3157 [Parse] with options.  The state of the start rule is not looked up in the (empty) memo table. *)
  Definition o_run (fuel : nat) (input : string) : oout :=
    oexpr fuel (o_entry o) [] (rules (o_entry o)) (OState (o_arrive (PState (decode input) (o_state o) [] [])) 0 []).
  Definition parse_with (fuel : nat) (input : string) : option (outcome val) :=
    match o_run fuel input with
    | None => None
    | Some (PMatch v, s) =>
        Some (match ps_errs (os_p s) with
              | [] => Ok v
              | es => Err (join (String "010" EmptyString) es)
              end)
    | Some (PFail, s) =>
        Some (Err (match ps_errs (os_p s) with
                   | [] => "no match found"
                   | es => join (String "010" EmptyString) es
                   end))
    | Some (PPanic m, s) => Some (if o_recover o then Err (join (String "010" EmptyString) (ps_errs (os_p s) ++ [m])) else Panic m)
    end.
  (** Stats.ExprCnt afterwards *)
  Definition count_with (fuel : nat) (input : string) : option N := match o_run fuel input with Some (_, s) => Some (os_cnt s) | None => None end.
End Options.

(** The rules of GoBCDice's grammar are told apart (rules are pointers in Go) *)
Scheme Boolean Equality for rule.
(** Parse of package parser with options; the fuel is that of [parse_val] *)
Definition parse_options (o : options rule) (input : string) : option (outcome val) := parse_with rule_beq rules o (parse_fuel input) input.
(** Stats.ExprCnt after it (option Statistics) *)
Definition count_options (o : options rule) (input : string) : option N := count_with rule_beq rules o (parse_fuel input) input.
