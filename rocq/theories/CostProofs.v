(** Lower bounds for the number of expressions the parser tries. *)
From Coq Require Import NArith Nnat.
From Verif Require Import Grammar ProofBase SpecText SpecSyntax SpecGrammar PegProofs GrammarSound PegTotal PegForward ParseSound ParseComplete ParseLang ParseCmd ParseTop DecodeProofs
  ParseFacts NumberText NotationText.
Open Scope list_scope.
Open Scope Z_scope.

(** [cost e l m]: on the remaining input l, e makes the parser try at least m expressions. *)
Definition cost (e : expr rule) (l : text) (m : N) : Prop :=
  forall k er E f r s' n, in_int64 k -> pexpr rules f e (PState l (Some k) er E) = Some (r, s', n) -> (m <= n)%N.

Lemma M_run e l D v l' j : M e l D v l' j -> forall k er E f r s' n, in_int64 k -> pexpr rules f e (PState l (Some k) er E) = Some (r, s', n) ->
  r = PMatch v /\ s' = PState l' (Some (wrap64 (k + j))) er (D ++ E).
Proof.
  intros H k er E f r s' n Hk Hf. destruct (H k er E Hk) as (f0 & H0). destruct (H0 f0 (le_n _)) as (n0 & E0). pose proof (pexpr_det _ _ _ _ _ _ _ Hf E0) as X. injection X as -> -> _. split; reflexivity.
Qed.
Lemma Fl_run e l : Fl e l -> forall k er E f r s' n, in_int64 k -> pexpr rules f e (PState l (Some k) er E) = Some (r, s', n) -> r = PFail /\ exists E', s' = PState l (Some k) er E'.
Proof.
  intros H k er E f r s' n Hk Hf. destruct (H k er E Hk) as (E' & f0 & H0). destruct (H0 f0 (le_n _)) as (n0 & E0). pose proof (pexpr_det _ _ _ _ _ _ _ Hf E0) as X. injection X as -> -> _. split; [reflexivity|eauto].
Qed.
Lemma seq_loop_cnt (p : expr rule -> pstate -> pout) es s0 : forall s vals cnt r s' n, seq_loop p es s0 s vals cnt = Some (r, s', n) -> (cnt <= n)%N.
Proof.
  induction es as [|e es IH]; intros s vals cnt r s' n; cbn [seq_loop]; unfold ret; [intros [= _ _ <-]; lia|].
  destruct (p e s) as [[[[v| |m] s1] n1]|]; try discriminate; [|intros [= _ _ <-]; lia..]. intros H. apply IH in H. lia.
Qed.
Lemma choice_loop_cnt (p : expr rule -> pstate -> pout) es : forall s cnt r s' n, choice_loop p es s cnt = Some (r, s', n) -> (cnt <= n)%N.
Proof.
  induction es as [|e es IH]; intros s cnt r s' n; cbn [choice_loop]; unfold ret; [intros [= _ _ <-]; lia|].
  destruct (p e (set_env s [])) as [[[[v| |m] s1] n1]|]; try discriminate; [intros [= _ _ <-]; lia| |intros [= _ _ <-]; lia]. intros H. apply IH in H. lia.
Qed.
Lemma star_loop_cnt k : forall (p : pstate -> pout) need s vals cnt r s' n, star_loop k p need s vals cnt = Some (r, s', n) -> (cnt <= n)%N.
Proof.
  induction k as [|k IH]; intros p need s vals cnt r s' n; cbn [star_loop]; unfold ret; [discriminate|].
  destruct (p (set_env s [])) as [[[[v| |m] s1] n1]|]; try discriminate.
  - intros H. apply IH in H. lia.
  - destruct vals; [destruct need|]; intros [= _ _ <-]; lia.
  - intros [= _ _ <-]; lia.
Qed.

Lemma cost_ref r l m : cost (rules r) l m -> cost (ERef r) l m.
Proof.
  intros H k er E f x s' n Hk. destruct f as [|f]; [discriminate|]. cbn [pexpr]. unfold set_env at 1. cbn [ps_rest ps_st ps_errs]. unfold ret.
  destruct (pexpr rules f (rules r) (PState l (Some k) er [])) as [[[x1 s1] n1]|] eqn:E1; [|discriminate]. intros [= _ _ <-]. apply H in E1; [lia|exact Hk].
Qed.
Lemma cost_label x e l m : cost e l m -> cost (ELabel x e) l m.
Proof.
  intros H k er E f r s' n Hk. destruct f as [|f]; [discriminate|]. cbn [pexpr]. unfold set_env at 1. cbn [ps_rest ps_st ps_errs]. unfold ret.
  destruct (pexpr rules f e (PState l (Some k) er [])) as [[[x1 s1] n1]|] eqn:E1; [|discriminate]. apply H in E1; [|exact Hk]. destruct x1; intros [= _ _ <-]; lia.
Qed.
Lemma cost_action act e l m : cost e l m -> cost (EAction act e) l m.
Proof.
  intros H k er E f r s' n Hk. destruct f as [|f]; [discriminate|]. cbn [pexpr]. unfold ret.
  destruct (pexpr rules f e (PState l (Some k) er E)) as [[[x1 s1] n1]|] eqn:E1; [|discriminate]. apply H in E1; [|exact Hk]. destruct x1; [|intros [= _ _ <-]; lia..].
  destruct (act _ _ _); intros [= _ _ <-]; lia.
Qed.
(** sequences *)
Definition Cs (es : list (expr rule)) (l : text) (m : N) : Prop :=
  forall s0 k er E f vals cnt r s' n, in_int64 k -> seq_loop (pexpr rules f) es s0 (PState l (Some k) er E) vals cnt = Some (r, s', n) -> (cnt + m <= n)%N.
Lemma Cs_here e es l m : cost e l m -> Cs (e :: es) l m.
Proof.
  intros H s0 k er E f vals cnt r s' n Hk. cbn [seq_loop]. unfold ret. destruct (pexpr rules f e (PState l (Some k) er E)) as [[[[v| |x] s1] n1]|] eqn:E1; try discriminate;
  apply H in E1; try exact Hk; [|intros [= _ _ <-]; lia..]. intros X. apply seq_loop_cnt in X. lia.
Qed.
Lemma Cs_next e es l D v l' j m : M e l D v l' j -> Cs es l' m -> Cs (e :: es) l m.
Proof.
  intros H1 H2 s0 k er E f vals cnt r s' n Hk. cbn [seq_loop]. destruct (pexpr rules f e (PState l (Some k) er E)) as [[[x s1] n1]|] eqn:E1; [|discriminate].
  destruct (M_run _ _ _ _ _ _ H1 _ _ _ _ _ _ _ Hk E1) as (-> & ->). intros X. apply H2 in X; [lia|apply wrap64_range].
Qed.
Lemma cost_seq es l m : Cs es l m -> cost (ESeq es) l m.
Proof. intros H k er E f r s' n Hk. destruct f as [|f]; [discriminate|]. cbn [pexpr]. intros X. apply H in X; [lia|exact Hk]. Qed.
(** ordered choice *)
Definition Cc (es : list (expr rule)) (l : text) (m : N) : Prop :=
  forall k er E f cnt r s' n, in_int64 k -> choice_loop (pexpr rules f) es (PState l (Some k) er E) cnt = Some (r, s', n) -> (cnt + m <= n)%N.
Lemma Cc_here e es l m : cost e l m -> Cc (e :: es) l m.
Proof.
  intros H k er E f cnt r s' n Hk. cbn [choice_loop]. unfold set_env at 1. cbn [ps_rest ps_st ps_errs]. unfold ret.
  destruct (pexpr rules f e (PState l (Some k) er [])) as [[[[v| |x] s1] n1]|] eqn:E1; try discriminate;
  apply H in E1; try exact Hk; [intros [= _ _ <-]; lia| |intros [= _ _ <-]; lia]. intros X. apply choice_loop_cnt in X. lia.
Qed.
Lemma Cc_both e es l m m' : Fl e l -> cost e l m -> Cc es l m' -> Cc (e :: es) l (m + m').
Proof.
  intros H0 H1 H2 k er E f cnt r s' n Hk. cbn [choice_loop]. unfold set_env at 1. cbn [ps_rest ps_st ps_errs].
  destruct (pexpr rules f e (PState l (Some k) er [])) as [[[x s1] n1]|] eqn:E1; [|discriminate]. destruct (Fl_run _ _ H0 _ _ _ _ _ _ _ Hk E1) as (-> & E' & ->).
  apply H1 in E1; [|exact Hk]. unfold set_env, set_st. cbn [ps_rest ps_st ps_errs ps_env]. intros X. apply H2 in X; [lia|exact Hk].
Qed.
Lemma Cc_next e es l m : Fl e l -> Cc es l m -> Cc (e :: es) l m.
Proof. intros H1 H2. replace m with (0 + m)%N by lia. apply Cc_both; [exact H1| |exact H2]. intros k er E f r s' n _ _. lia. Qed.
Lemma cost_choice es l m : Cc es l m -> cost (EChoice es) l m.
Proof. intros H k er E f r s' n Hk. destruct f as [|f]; [discriminate|]. cbn [pexpr]. intros X. apply H in X; [lia|exact Hk]. Qed.
Lemma cost_star e l m : cost e l m -> cost (EStar e) l m.
Proof.
  intros H k er E f r s' n Hk. destruct f as [|f]; [discriminate|]. cbn [pexpr]. destruct f as [|f]; [discriminate|]. cbn [star_loop]. unfold set_env at 1. cbn [ps_rest ps_st ps_errs].
  destruct (pexpr rules (S f) e (PState l (Some k) er [])) as [[[x s1] n1]|] eqn:E1; [|discriminate]. apply H in E1; [|exact Hk]. unfold ret. destruct x.
  - intros X. apply star_loop_cnt in X. lia.
  - intros [= _ _ <-]. lia.
  - intros [= _ _ <-]. lia.
Qed.

(** ** Nested divisions *)
(** "1", "(1/1)", "(1/(1/1))", ... *)
Fixpoint nested (n : nat) : string := match n with O => "1" | S n' => "(1/" ++ nested n' ++ ")" end.
Fixpoint nested_expr (n : nat) : iexpr := match n with O => Leaf 1 | S n' => Bin (Over RoundDown) (Leaf 1) (nested_expr n') end.
Lemma nested_ascii n : ascii_text (nested n).
Proof. induction n as [|n IH]; cbn [nested]; [repeat constructor|]. apply ascii_app; [repeat constructor|]. apply ascii_app; [exact IH|repeat constructor]. Qed.
Lemma nested_atext n : atext (nested (S n)) = atext "(" ++ (atext "1" ++ atext "/" ++ atext (nested n)) ++ atext ")".
Proof. cbn [nested]. rewrite !atext_app. reflexivity. Qed.
Lemma atext_good s : ascii_text s -> good (atext s).
Proof. intros H. pose proof (valid_ascii s H) as Hv. pose proof (decode_plain s) as Hp. rewrite (decode_ascii s H) in Hv, Hp. split; assumption. Qed.
Lemma one_sp : sp_prim sp_number (Leaf 1) (atext "1").
Proof. apply sp_leaf. apply (itoa_sp 1). unfold max_int, two63. lia. Qed.
Lemma nested_inner n : sp_prim sp_number (nested_expr n) (atext (nested n)) -> sp_int (nested_expr (S n)) (atext "1" ++ atext "/" ++ atext (nested n)).
Proof. intros H. apply sp_add_mul, sp_over; [apply sp_mul_prim, one_sp|reflexivity|exact H]. Qed.
Lemma nested_sp n : sp_prim sp_number (nested_expr n) (atext (nested n)).
Proof. induction n as [|n IH]; [apply one_sp|]. rewrite nested_atext. apply sp_paren; [reflexivity|apply nested_inner, IH|reflexivity]. Qed.
Lemma nested_match n l : valid_head l -> not_head nP l -> M (ERef IntExprPrimary) (atext (nested n) ++ l) [] (VNode (itree (nested_expr n))) l 0.
Proof.
  intros Hv Hn. destruct n as [|n].
  - apply (int_leaf 1 (atext "1") l); try assumption; [apply (itoa_sp 1); unfold max_int, two63; lia|apply atext_good; repeat constructor].
  - assert (good (atext (nested (S n)))) as Hg by (apply atext_good, nested_ascii). rewrite nested_atext in *. rewrite <- !app_assoc. rewrite (app_assoc (atext "1")), (app_assoc _ _ (atext ")" ++ l)), <- (app_assoc (atext "1")).
    eapply (int_paren (nested_expr (S n))); [reflexivity|apply nested_inner, nested_sp|reflexivity|exact Hg|exact Hv|exact Hn|].
    apply int_parens; [reflexivity|apply nested_inner, nested_sp|reflexivity|exact Hg|exact Hv].
Qed.
Lemma M_char a l : byte_val a < 128 -> (N_of_ascii a <? 128)%N = true -> valid_head l -> M (lit (String a EmptyString)) (atext (String a EmptyString) ++ l) [] (VBytes (String a EmptyString)) l 0.
Proof. intros Ha Hb Hv. apply M_one; [reflexivity|exact Hb| |exact Hv]. apply atext_good. repeat constructor. exact Ha. Qed.
Lemma not_head_char (P : gochar -> Prop) a l : ~ P (ascii_char a) -> not_head P (atext (String a EmptyString) ++ l).
Proof. intros H. exact H. Qed.
Lemma vh_char a l : byte_val a < 128 -> valid_head (atext (String a EmptyString) ++ l).
Proof. intros H. cbn. unfold gc_bad, ascii_char. cbn [gc_rune]. unfold rune_error. lia. Qed.
Ltac byte_lt := vm_compute; reflexivity.
Ltac not_char := apply not_head_char; unfold nP, nI, is_ur, is_digit, ascii_char; cbn [gc_rune]; vm_compute; intuition congruence.

Theorem nested_cost n l : valid_head l -> cost (ERef IntExprPrimary) (atext (nested n) ++ l) (2 ^ N.of_nat n).
Proof.
  revert l. induction n as [|n IH]; intros l Hl.
  - intros k er E f r s' x _. destruct f as [|f]; [discriminate|]. cbn [pexpr]. destruct (pexpr rules f _ _) as [[[y s1] n1]|]; [|discriminate]. unfold ret. intros [= _ _ <-]. change (2 ^ N.of_nat 0)%N with 1%N. lia.
  - rewrite nested_atext, <- !app_assoc. set (rest := atext ")" ++ l). assert (valid_head rest) as Hr by (apply vh_char; byte_lt).
    assert (valid_head (atext (nested n) ++ rest)) as Hv2 by (apply vh_app; [apply atext_good, nested_ascii|exact Hr]).
    apply cost_ref. cbn [rules]. apply cost_choice.
    apply Cc_next; [apply Fl_integer; not_char|]. apply Cc_next; [eapply Fl_unary_plus; [reflexivity|not_char]|]. apply Cc_next; [eapply Fl_unary_minus; [reflexivity|not_char]|].
    apply Cc_here, cost_ref. cbn [rules]. unfold parenthesized. apply cost_action, cost_seq.
    eapply Cs_next; [apply M_char; [byte_lt|reflexivity|apply vh_char; byte_lt]|]. apply Cs_here, cost_label, cost_ref. cbn [rules]. apply cost_ref. cbn [rules]. unfold additive.
    apply cost_action, cost_seq, Cs_here, cost_label, cost_ref. cbn [rules]. unfold multitive. apply cost_action, cost_seq.
    eapply Cs_next; [eapply M_label, (nested_match 0); [apply vh_char; byte_lt|not_char]|]. apply Cs_here, cost_label, cost_star, cost_choice.
    replace (2 ^ N.of_nat (S n))%N with (2 ^ N.of_nat n + 2 ^ N.of_nat n)%N by (rewrite Nat2N.inj_succ, N.pow_succ_r'; lia).
    assert (M (ERef IntExprPrimary) (atext (nested n) ++ rest) [] (VNode (itree (nested_expr n))) rest 0) as Hm by (apply nested_match; [exact Hr|not_char]).
    apply Cc_both.
    + eapply (Fl_seq [lit "/"; ERef IntExprPrimary] cls_ur []).
      * eapply Ms_cons; [apply M_char; [byte_lt|reflexivity|exact Hv2]|eapply Ms_cons; [exact Hm|apply Ms_nil]].
      * apply Fl_class. apply not_head_char. vm_compute. discriminate.
    + apply cost_seq. eapply Cs_next; [apply M_char; [byte_lt|reflexivity|exact Hv2]|]. apply Cs_here, IH, Hr.
    + apply Cc_here, cost_seq. eapply Cs_next; [apply M_choice, Mc_next; [apply Fl_lit; cbn [runes]; not_char|eapply Mc_here; apply M_char; [byte_lt|reflexivity|exact Hv2]]|]. apply Cs_here, IH, Hr.
Qed.

(** The input C(...) *)
Definition nested_input (n : nat) : string := ("C(" ++ nested n ++ ")")%string.
Theorem nested_input_cost n : exists k, expr_cnt rules (parse_fuel (nested_input n)) Command (nested_input n) = Some k /\ (2 ^ N.of_nat n <= k)%N.
Proof.
  unfold expr_cnt. pose proof (parse_enough (nested_input n)) as He. unfold parse_val, parse in He.
  assert (decode (nested_input n) = atext "C" ++ atext "(" ++ atext (nested n) ++ atext ")") as Hd.
  { rewrite decode_ascii; [|unfold nested_input; apply ascii_app; [repeat constructor|]; apply ascii_app; [apply nested_ascii|repeat constructor]].
    change (atext (nested_input n) = atext "C" ++ atext "(" ++ atext (nested n) ++ atext ")"). unfold nested_input. change "C("%string with ("C" ++ "(")%string. rewrite !atext_app, <- app_assoc. reflexivity. }
  rewrite Hd in *. set (l := atext "C" ++ atext "(" ++ atext (nested n) ++ atext ")") in *.
  assert (valid_head (atext (nested n) ++ atext ")")) as Hv2 by (apply vh_app; [apply atext_good, nested_ascii|apply (vh_char ")" []); byte_lt]).
  assert (valid_head l) as Hv by (apply vh_char; byte_lt).
  replace (arrive (PState l None [] [])) with (PState l None [] []) in * by (unfold arrive; cbn [ps_rest]; unfold l; reflexivity).
  destruct (pexpr rules (parse_fuel (nested_input n)) (rules Command) (PState l None [] [])) as [[[r s] k]|] eqn:E; [|contradiction]. exists k. split; [reflexivity|]. clear He.
  assert (cost (ELabel "n" (EChoice [ERef Choice; ERef Calc; ERef CommandWithExpression])) l (2 ^ N.of_nat n)) as Hc.
  { apply cost_label, cost_choice. apply Cc_next.
    - apply (Fl_choice_second (ascii_char "C") (ascii_char "(") (atext (nested n) ++ atext ")")); [reflexivity|]. vm_compute. discriminate.
    - apply Cc_here, cost_ref. cbn [rules]. apply cost_action, cost_seq.
      eapply Cs_next; [apply (M_lit_i "c" (atext "C")); [reflexivity|apply atext_good; repeat constructor|apply vh_char; byte_lt]|].
      eapply Cs_next; [apply M_char; [byte_lt|reflexivity|exact Hv2]|]. apply Cs_here, cost_label, cost_ref. cbn [rules]. apply cost_ref. cbn [rules]. unfold additive.
      apply cost_action, cost_seq, Cs_here, cost_label, cost_ref. cbn [rules]. unfold multitive. apply cost_action, cost_seq, Cs_here, cost_label, nested_cost. apply (vh_char ")" []); byte_lt. }
  destruct (parse_fuel (nested_input n)) as [|f]; [discriminate|]. cbn [rules pexpr] in E. destruct f as [|f]; [discriminate|]. cbn [pexpr] in E.
  destruct (seq_loop (pexpr rules f) _ _ _ _ _) as [[[r1 s1] n1]|] eqn:E1; [|discriminate]. assert (n1 <= k)%N as Hle.
  { unfold ret in E. destruct r1; [destruct (act_label _ _ _ _)|..]; injection E as _ _ <-; lia. }
  cbn [seq_loop] in E1. destruct (run_reset (PState l None [] [])) as (f0 & H0). destruct (H0 f0 (le_n _)) as (n0 & E0).
  destruct (pexpr rules f (ERef ResetRandCount) (PState l None [] [])) as [[[r2 s2] n2]|] eqn:E2; [|discriminate]. pose proof (pexpr_det _ _ _ _ _ _ _ E2 E0) as X. injection X as -> -> _.
  unfold set_st in E1. cbn [ps_rest ps_errs ps_env] in E1.
  destruct (pexpr rules f (ELabel "n" _) (PState l (Some 0) [] [])) as [[[r3 s3] n3]|] eqn:E3; [|discriminate]. apply Hc in E3; [|unfold in_int64, min_int, max_int, two63; lia].
  unfold ret in E1. destruct r3; injection E1 as _ _ <-; lia.
Qed.
