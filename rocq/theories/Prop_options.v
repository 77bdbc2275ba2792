(** Property C89: the options of Parse. *)
From Coq Require Import NArith Nnat.
From Verif Require Import Grammar ProofBase Peg PegText PegProofs PegOptions PegOptionsProofs SpecText SpecSyntax SpecNesting SpecBroken DecodeProofs PegTotal ParseSound ErrErase ErrTop MendSim CostProofs Prop_parse Prop_cost Prop_linear Prop_broken.
Open Scope list_scope.
Open Scope Z_scope.

(** ** Errors of the actions *)
Ltac no_err := let H := fresh in intros H; discriminate H.
Lemma abind_clean {A} (x : A + string) k m : abind x k = AErr m -> exists a, x = inl a /\ k a = AErr m.
Proof. destruct x as [a|p]; cbn; [intros H; exists a; auto|discriminate]. Qed.
Ltac unbind := repeat match goal with H : abind _ _ = AErr _ |- _ => apply abind_clean in H as (? & _ & H); cbv beta in H end.
Lemma additive_clean l : forall n m, additive_loop n l = AErr m -> False.
Proof. induction l as [|v l IH]; intros n m H; cbn [additive_loop] in H; [discriminate H|]. unbind. eapply IH, H. Qed.
Lemma multitive_clean l : forall n m, multitive_loop n l = AErr m -> False.
Proof. induction l as [|v l IH]; intros n m H; cbn [multitive_loop] in H; [discriminate H|]. unbind. eapply IH, H. Qed.
Lemma items_clean l : forall n m, items_loop n l = AErr m -> False.
Proof. induction l as [|v l IH]; intros n m H; cbn [items_loop] in H; [discriminate H|]. unbind. eapply IH, H. Qed.
Lemma rolls_clean k l : forall n m, rolls_loop k n l = AErr m -> False.
Proof. induction l as [|v l IH]; intros n m H; cbn [rolls_loop] in H; [discriminate H|]. unbind. eapply IH, H. Qed.
Lemma bonus_clean v t st m : act_u_roll_expr v t st = AErr m -> about_bytes m = false.
Proof.
  unfold act_u_roll_expr. intros H. apply abind_clean in H as (bs & _ & H). cbv beta zeta in H.
  assert (forall b, match lookup "uRollList" v with VNode (NRRollList rolls th) => AVal (VNode (NURollExpr rolls th b)) | _ => APanic "interface conversion: not *ast.RRollList" end = AErr m -> False) as Hf.
  { intros b. destruct (lookup "uRollList" v) as [| | |nd]; try discriminate. destruct nd; discriminate. }
  destruct bs as [l|]; [|destruct (Hf _ H)]. unbind. destruct (String.eqb _ "+"); [destruct (Hf _ H)|]. destruct (String.eqb _ "-"); [destruct (Hf _ H)|]. injection H as <-. reflexivity.
Qed.
Lemma d_command_clean c v t st m : act_d_command c v t st = AErr m -> about_bytes m = false.
Proof. unfold act_d_command. destruct st as [k|]; [|discriminate]. destruct (k <? 1); [intros [= <-]; reflexivity|]. intros H. unbind. discriminate H. Qed.
Ltac clean_act := intros ? ? ? ? Hact; first [exact (bonus_clean _ _ _ _ Hact)|exact (d_command_clean _ _ _ _ _ Hact)|
  exfalso; unfold act_label, act_node, act_unary_minus, act_choice_items, act_choice_chars, act_calc, act_b_roll_list, act_compare, act_r_roll_list, act_var, act_integer, act_first_rest, left_assoc_additive, left_assoc_multitive in Hact;
  unbind; first [discriminate Hact|eapply additive_clean; exact Hact|eapply multitive_clean; exact Hact|eapply items_clean; exact Hact|eapply rolls_clean; exact Hact]].
Ltac clean_step := match goal with
  | |- clean (EAction _ _) => apply c_action; [clean_act|]
  | |- clean (ELabel _ _) => apply c_label
  | |- clean (EChoice _) => apply c_choice
  | |- clean (ESeq _) => apply c_seq
  | |- clean (ELit _ _) => apply c_lit
  | |- clean (EClass _) => apply c_class
  | |- clean EAny => apply c_any
  | |- clean (ERef _) => apply c_ref
  | |- clean (EStar _) => apply c_star
  | |- clean (EPlus _) => apply c_plus
  | |- clean (EOpt _) => apply c_opt
  | |- clean (ENot _) => apply c_not
  | |- clean (Peg.EState _) => apply c_state; intros [k|] m Hm; discriminate Hm
  | |- Forall clean [] => apply Forall_nil
  | |- Forall clean (_ :: _) => apply Forall_cons
  end.
Lemma grammar_clean r : clean (rules r).
Proof.
  destruct r; cbn [rules]; unfold additive, multitive, parenthesized, unary_plus, unary_minus, roll_rule, compare_rule, r_list_rule, lit, lit_i, cls_Z, cls_not_item, cls_ur, cls_digit; repeat clean_step.
Qed.

(** ** The initial state does not matter to a command *)
Lemma arrive_st p st : arrive (set_st p st) = set_st (arrive p) st.
Proof. unfold arrive. cbn [ps_rest set_st]. destruct (ps_rest p) as [|c l]; [reflexivity|]. destruct (gc_bad c); reflexivity. Qed.
Lemma reset_run f s : pexpr rules (S (S f)) (ERef ResetRandCount) s = Some (PMatch VNil, set_st s (Some 0), 2%N).
Proof. destruct s. reflexivity. Qed.
Lemma px_seq2 f a b s : pexpr rules (S f) (ESeq [a; b]) s =
  match pexpr rules f a s with
  | None => None
  | Some (PMatch v, s1, n) => seq_loop (pexpr rules f) [b] s s1 [v] (1 + n)
  | Some (PFail, s1, n) => Some (PFail, set_rest (set_st s1 (ps_st s)) (ps_rest s), (1 + n)%N)
  | Some (PPanic m, s1, n) => Some (PPanic m, s1, (1 + n)%N)
  end.
Proof. cbn [pexpr seq_loop]. destruct (pexpr rules f a s) as [[[[v| |m] s1] n]|]; reflexivity. Qed.
Lemma px_action f a e s : pexpr rules (S f) (EAction a e) s =
  match pexpr rules f e s with
  | Some (PMatch _, s', n) =>
      match a (ps_env s') (slice_from (ps_rest s) (ps_rest s')) (ps_st s') with
      | AVal v => Some (PMatch v, s', (1 + n)%N)
      | AErr m => Some (PMatch VNil, add_err s' m, (1 + n)%N)
      | APanic m => Some (PPanic m, s', (1 + n)%N)
      end
  | Some (r, s', n) => Some (r, s', (1 + n)%N)
  | None => None
  end.
Proof. cbn [pexpr]. destruct (pexpr rules f e s) as [[[[v| |m] s1] n]|]; reflexivity. Qed.
Lemma state_forgotten f s st : (4 <= f)%nat ->
  match pexpr rules f (rules Command) s, pexpr rules f (rules Command) (set_st s st) with
  | Some (r, p, n), Some (r', p', n') => r = r' /\ n = n' /\ ps_errs p = ps_errs p'
  | None, None => True
  | _, _ => False
  end.
Proof.
  intros Hf. destruct f as [|[|[|[|f]]]]; try lia. clear Hf.
  change (rules Command) with (EAction (act_label "n") (ESeq [ERef ResetRandCount; ELabel "n" (EChoice [ERef Choice; ERef Calc; ERef CommandWithExpression])])).
  generalize (ELabel "n" (EChoice [ERef Choice; ERef Calc; ERef CommandWithExpression])). intros e.
  rewrite !px_action, !px_seq2, !reset_run. cbn [seq_loop]. change (set_st (set_st s st) (Some 0)) with (set_st s (Some 0)).
  destruct (pexpr rules (S (S f)) e (set_st s (Some 0))) as [[[[v| |m] s1] n]|]; cbn [ret]; try exact I; repeat split; reflexivity.
Qed.

(** ** Parse with options against Parse *)
Lemma fuel_enough s : (4 <= parse_fuel s)%nat.
Proof. unfold parse_fuel. lia. Qed.
Lemma command_run s : exists r p k, pexpr rules (parse_fuel s) (rules Command) (arrive (PState (decode s) None [] [])) = Some (r, p, k) /\ (forall m, r <> PPanic m).
Proof.
  pose proof (parse_enough s) as Hf. unfold parse_val, parse in Hf. set (s0 := arrive _) in *.
  assert (ps_rest s0 = decode s) as Hr by apply arrive_rest.
  pose proof (command_top (parse_fuel s) s0) as Ht. rewrite Hr in Ht. specialize (Ht (decode_plain s)). unfold wq in Ht.
  destruct (pexpr rules (parse_fuel s) (rules Command) s0) as [[[r p] k]|]; [|exfalso; apply Hf; reflexivity]. exists r, p, k. split; [reflexivity|]. intros m ->. exact Ht.
Qed.
Lemma options_run max al rc st s : let o := Options max false al rc Command st in
  exists r p k, pexpr rules (parse_fuel s) (rules Command) (arrive (PState (decode s) None [] [])) = Some (r, p, k) /\ (forall m, r <> PPanic m) /\
    ((max = 0 \/ k <= max)%N -> exists q, o_run rule_beq rules o (parse_fuel s) s = Some (r, OState q k []) /\ ps_errs q = (if al then without_bytes (ps_errs p) else ps_errs p)) /\
    (~ (max = 0 \/ k <= max)%N -> exists q, o_run rule_beq rules o (parse_fuel s) s = Some (PPanic max_message, OState q (max + 1) [])).
Proof.
  intros o. destruct (command_run s) as (r & p & k & E & Hr). exists r, p, k. split; [exact E|]. split; [exact Hr|].
  set (a := PState (decode s) None [] []) in *. pose proof (state_forgotten (parse_fuel s) (arrive a) st (fuel_enough s)) as F. rewrite E, <- arrive_st in F.
  destruct (pexpr rules (parse_fuel s) (rules Command) (arrive (set_st a st))) as [[[r' p'] k']|] eqn:E'; [|destruct F]. destruct F as (<- & <- & Fe).
  assert (alike o (arrive (set_st a st)) (o_arrive o (set_st a st))) as Ha.
  { apply alike_arrive. unfold alike, same_errs. cbn. destruct al; repeat split; reflexivity. }
  pose proof (engine_tied rule_beq rules o eq_refl grammar_clean (parse_fuel s) (rules Command) Command [] (grammar_clean Command) 0%N [] _ _ (or_intror (N.le_0_l _)) Ha) as T.
  unfold tied in T. rewrite E' in T. rewrite N.add_0_l in T. destruct T as (T1 & T2).
  split; intros W.
  - destruct (T1 W) as (q & Eq & (_ & _ & _ & Q)). exists q. split; [exact Eq|]. unfold same_errs in Q. cbn [o_allow o] in Q. rewrite Fe. destruct al; [exact Q|symmetry; exact Q].
  - destruct (T2 W) as (q & Eq). exists q. exact Eq.
Qed.

(** C89, MaxExpressions. Let k be the number of expressions Parse tries on the text. With a limit of at least k the result
    is that of Parse and k expressions are counted. With a lower one exactly one expression more than the limit is counted
    and the parser gives up: with an error that ends with the message about the limit, or, if panics are not to be
    recovered from, with a panic. The state the parser is given at first makes no difference. *)
Theorem C89_limit max rc st s : let o := Options max false false rc Command st in
  exists k, expr_cnt rules (parse_fuel s) Command s = Some k /\
    ((max = 0 \/ k <= max)%N -> parse_options o s = parse_val s /\ count_options o s = Some k) /\
    ((0 < max < k)%N -> count_options o s = Some (max + 1)%N /\
      if rc then exists errors, parse_options o s = Some (Err (join (String "010" EmptyString) (errors ++ ["max number of expresssions parsed"%string])))
      else parse_options o s = Some (Panic "max number of expresssions parsed")).
Proof.
  intros o. destruct (options_run max false rc st s) as (r & p & k & E & Hr & H1 & H2). fold o in H1, H2. exists k. unfold expr_cnt, parse_val, parse, parse_options, parse_with, count_options, count_with. rewrite E. split; [reflexivity|]. split.
  - intros W. destruct (H1 W) as (q & -> & Q). cbn [os_p os_cnt]. rewrite Q. split; [|reflexivity]. destruct r as [v| |m]; [reflexivity..|]. exfalso. eapply Hr. reflexivity.
  - intros W. destruct (H2 ltac:(lia)) as (q & ->). cbn [os_p os_cnt o_recover o]. split; [reflexivity|]. destruct rc; [|reflexivity]. exists (ps_errs q). reflexivity.
Qed.
Print Assumptions C89_limit.
(** C89. No option: Parse. *)
Theorem C89_defaults s : parse_options (Options 0 false false true Command None) s = parse_val s.
Proof. destruct (C89_limit 0 true None s) as (k & _ & H & _). apply H. left. reflexivity. Qed.
Print Assumptions C89_defaults.
(** C89. A limit that is proportional to the length for each depth of nesting never gets in the way, ... *)
Theorem C89_generous max rc st s : (3311 * N.of_nat (String.length s + 1) * 3 ^ N.of_nat (nesting s) <= max)%N ->
  parse_options (Options max false false rc Command st) s = parse_val s.
Proof. intros Hm. destruct (C89_limit max rc st s) as (k & Hk & H & _). destruct (C81_work s) as (k' & Hk' & B). rewrite Hk in Hk'. injection Hk' as <-. apply H. right. eapply N.le_trans; eassumption. Qed.
Print Assumptions C89_generous.
(** ... and no limit (it is a uint64) lets all correct commands through: there is one of 4 (log2 max + 1) + 4 bytes that Parse
    accepts and on which the parser gives up. *)
Theorem C89_strict max : (0 < max < 2 ^ 64)%N -> exists s n, String.length s = (4 * S (N.to_nat (N.log2 max)) + 4)%nat /\ parse_command s = Ok n /\
  forall rc st, let o := Options max false false rc Command st in
    count_options o s = Some (max + 1)%N /\ forall v, parse_options o s <> Some (Ok v).
Proof.
  intros (Hm & Hm2). set (n := S (N.to_nat (N.log2 max))). exists (nested_input n). destruct (C45_exponential n) as (Hl & k & Hk & Hb).
  assert (N.log2 max < 64)%N as Hg by (apply N.log2_lt_pow2; assumption).
  assert (fits (nested_input n)) as F by (unfold fits; rewrite Hl; unfold n; lia).
  eexists. split; [exact Hl|]. split; [apply C45_accepted, F|].
  intros rc st o. destruct (C89_limit max rc st (nested_input n)) as (k' & Hk' & _ & H). fold o in H. rewrite Hk in Hk'. injection Hk' as <-.
  assert (max < 2 ^ N.of_nat n)%N as Hp. { unfold n. rewrite Nat2N.inj_succ, N2Nat.id. apply N.log2_spec, Hm. }
  destruct (H ltac:(lia)) as (H1 & H2). split; [exact H1|]. intros v. destruct rc; [destruct H2 as (er & ->)|rewrite H2]; discriminate.
Qed.
Print Assumptions C89_strict.

(** C89, AllowInvalidUTF8. A text is accepted if and only if it is when the broken bytes are replaced by question marks;
    otherwise the error is that of the mended text.  What Parse accepts is accepted, with the same tree. *)
Theorem C89_broken_bytes rc st s : let o := Options 0 false true rc Command st in
  match parse_options o s, parse_val (mend s) with
  | Some (Ok (VNode _)), Some (Ok (VNode _)) => True
  | Some (Err e), Some (Err e') => e = e'
  | _, _ => False
  end /\ (forall v, parse_val s = Some (Ok v) -> parse_options o s = Some (Ok v)).
Proof.
  intros o. destruct (options_run 0 true rc st s) as (r & p & k & E & Hr & H & _). fold o in H. destruct (H (or_introl eq_refl)) as (q & Eq & Q). clear H.
  unfold parse_options, parse_with. rewrite Eq. cbn [os_p]. split.
  - pose proof (parse_no_panic (mend s)) as Np. unfold parse_command in Np. destruct (command_run (mend s)) as (r' & p' & k' & E' & Hr'). unfold parse_val, parse in *. rewrite E' in *. clear Eq.
    rewrite run_erase in E, E'. unfold run_of in E, E'. rewrite (mend_fuel s) in E'.
    pose proof (dexpr_sim rules_good (parse_fuel s) (rules Command) _ _ (rules_good Command) (start_sim s)) as X. unfold state_of in X.
    destruct (PegText.dexpr rules (parse_fuel s) (rules Command) (d_set_rstack (d_start s) [Command])) as [((r0, d), n0)|]; [|discriminate E]. destruct (PegText.dexpr rules (parse_fuel s) (rules Command) (d_set_rstack (d_start (mend s)) [Command])) as [((r1, d'), n1)|]; [|discriminate E'].
    cbn [erase_out] in E, E'. injection E as <- <- <-. injection E' as <- <- <-. cbn [outsim] in X. destruct X as (X1 & X2 & _).
    assert (ps_errs q = ps_errs (erase d')) as Eqq.
    { rewrite Q. assert (d_errs d' = filter keep (d_errs d)) as Ee by (destruct X2; reflexivity). unfold erase. cbn [ps_errs]. rewrite Ee. clear. induction (d_errs d) as [|e l IH]; [reflexivity|]. unfold without_bytes in *. cbn [map filter]. change (keep e) with (negb (about_bytes (e_text e))). destruct (negb (about_bytes (e_text e))); cbn [map]; [f_equal; exact IH|exact IH]. }
    rewrite Eqq. destruct r0 as [v| |m0], r1 as [v'| |m1]; cbn [rsim] in X1; try contradiction; [|destruct (ps_errs (erase d')); reflexivity|exfalso; eapply Hr; reflexivity].
    destruct (ps_errs (erase d')) as [|e0 er]; [|reflexivity]. destruct X1 as [| | |n n' K]; try (exfalso; eapply Np; reflexivity). exact I.
  - intros v. unfold parse_val, parse. rewrite E. destruct r as [w| |m]; [|discriminate|discriminate]. destruct (ps_errs p) as [|e er]; [|discriminate]. rewrite Q. intros [= ->]. reflexivity.
Qed.
Print Assumptions C89_broken_bytes.

(** C89, Memoize. Remembering the results of expressions is not harmless here: the count of dice that decides whether a sum
    is a command is part of the state of the parser, and remembered results do not restore it. *)
Theorem C89_memoize_refuted : ~ forall s n, parse_val s = Some (Ok (VNode n)) -> parse_options (Options 0 true false true Command None) s = Some (Ok (VNode n)).
Proof.
  intros H. assert (exists n, parse_val "2D6" = Some (Ok (VNode n))) as (n & Hn) by (eexists; vm_compute; reflexivity). specialize (H _ _ Hn). revert H. vm_compute. discriminate.
Qed.
Print Assumptions C89_memoize_refuted.

Definition verdict (x : option (outcome val)) : string :=
  match x with Some (Ok (VNode _)) => "accepted" | Some (Ok _) => "no tree" | Some (Err e) => "error: " ++ e | Some (Panic p) => "panic: " ++ p | None => "no end" end%string.
Definition memoized (s : string) := parse_options (Options 0 true false true Command None) s.
Example C89_memoize_example : (map (fun s => (s, verdict (memoized s), verdict (parse_val s))) ["2D6"; "2D6>=7"; "2B6"; "[1...3]D6"; "C(1+2)"; "choice[a,b]"] =
  [("2D6", "error: random element not found", "accepted"); ("2D6>=7", "accepted", "accepted"); ("2B6", "accepted", "accepted"); ("[1...3]D6", "error: random element not found", "accepted");
   ("C(1+2)", "accepted", "accepted"); ("choice[a,b]", "accepted", "accepted")])%string.
Proof. vm_compute. reflexivity. Qed.
(** It does save work on nested divisions *)
Example C89_memoize_saves : count_options (Options 0 true false true Command None) (nested_input 7) = Some 468%N /\ count_options (Options 0 false false true Command None) (nested_input 7) = Some 8430%N.
Proof. split; vm_compute; reflexivity. Qed.
(** Limits around the number of expressions *)
Example C89_limit_example : expr_cnt rules (parse_fuel "2D6") Command "2D6" = Some 252%N /\
  verdict (parse_options (Options 252 false false true Command None) "2D6") = "accepted"%string /\
  verdict (parse_options (Options 251 false false true Command None) "2D6") = "error: max number of expresssions parsed"%string /\
  verdict (parse_options (Options 251 false false false Command None) "2D6") = "panic: max number of expresssions parsed"%string.
Proof. vm_compute. repeat split. Qed.
Example C89_bytes_example : verdict (parse_options (Options 0 false true true Command None) ("choice[a," ++ x255 ++ "]")) = "accepted"%string /\
  verdict (parse_val ("choice[a," ++ x255 ++ "]")) = "error: invalid encoding"%string /\ verdict (parse_val (mend ("choice[a," ++ x255 ++ "]"))) = "accepted"%string.
Proof. vm_compute. repeat split. Qed.
(** Other rules can be used as the start, but those that count dice want the state to be set *)
Example C89_entrypoint_example :
  verdict (parse_options (Options 0 false false true IntExpr None) "1+2*3") = "accepted"%string /\
  verdict (parse_options (Options 0 false false true DRollExpr None) "2D6") = "error: interface conversion: interface {} is nil, not int"%string /\
  verdict (parse_options (Options 0 false false true DRollExpr (Some 0)) "2D6") = "accepted"%string.
Proof. vm_compute. repeat split. Qed.
