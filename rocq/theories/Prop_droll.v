(** Properties C15-C20: additive (D) rolls. *)
From Coq Require Import Reals.
From Verif Require Import Grammar ProofBase Dice SpecDice DiceProofs Comp CompProofs Ast Eval Notation NotationProofs Command
  SpecSyntax SpecArith ArithProofs SpecRoll SpecLists YieldsProofs DRollProofs WpProofs WpEval.
Open Scope list_scope.
Open Scope Z_scope.

(** * C15 *)
(** C15: exactly the dice sequences and results a D expression command can have: first one die for each random
    number in a roll operand (left to right), then the dice of each roll (left to right); the three message parts
    are the expression with settled operands, the expression with the rolled dice, and its arithmetic value. *)
Theorem C15_d_expr_exact gid e ds r : dok e ->
  (gives gid (command_tree (DExpr e)) ds r <->
   exists ops rolls mid fin v s1 s2,
     ds = ops ++ rolls /\ d_value e ops rolls mid fin v /\
     infix_notation (tree mleaf_tree mid) true = Ok s1 /\ infix_notation (tree sleaf_tree fin) true = Ok s2 /\
     r = Result gid [parenthesize s1; s2; itoa v] ds Unspecified false).
Proof. apply gives_d_expr. Qed.
Print Assumptions C15_d_expr_exact.

(** C15 with any feeder (queue or random): a success takes from it exactly such dice. *)
Theorem C15_d_expr_any_feeder gid e f r f' : dok e ->
  run_command gid (command_tree (DExpr e)) f = (Ok r, f') ->
  exists ops rolls mid fin v s1 s2,
    draws f (ops ++ rolls) f' /\ d_value e ops rolls mid fin v /\
    infix_notation (tree mleaf_tree mid) true = Ok s1 /\ infix_notation (tree sleaf_tree fin) true = Ok s2 /\
    r = Result gid [parenthesize s1; s2; itoa v] (ops ++ rolls) Unspecified false.
Proof.
  intros Hok H. destruct (run_command_gives _ _ _ _ _ H) as (ds & Hd & Hg).
  apply (gives_d_expr gid e ds r Hok) in Hg as (ops & rolls & mid & fin & v & s1 & s2 & -> & H1 & H2 & H3 & ->).
  exists ops, rolls, mid, fin, v, s1, s2. repeat split; assumption || apply H1.
Qed.
Print Assumptions C15_d_expr_any_feeder.

(** Substituting the total of the rolled dice for each roll *)
Definition total (s : sleaf) : Z := match s with SInt v => v | SRoll ds => fold_right Z.add 0 (map die_value ds) end.
Lemma visit_leaves {L M} (leaf : L -> list die -> M -> Prop) (P : M -> Prop) e ds e' :
  visit leaf e ds e' -> all_leaves (fun l => forall ds m, leaf l ds m -> P m) e -> all_leaves P e'.
Proof. induction 1; cbn; intros HP; [eapply HP; eassumption|auto|]. destruct HP. split; auto. Qed.
Lemma ae_map_ext {L M} (f g : L -> M) e : all_leaves (fun l => f l = g l) e -> ae_map f e = ae_map g e.
Proof. induction e; cbn; intros H; [f_equal; exact H|f_equal; auto|]. destruct H. f_equal; auto. Qed.
Lemma ordinary_leaves e : ordinary e -> all_leaves in_int64 e.
Proof. induction e; cbn; [tauto|tauto|]. intros (_ & H1 & H2 & _). split; auto. Qed.
Lemma all_leaves_map {L M} (f : L -> M) (P : M -> Prop) e : all_leaves P (ae_map f e) <-> all_leaves (fun l => P (f l)) e.
Proof. induction e; cbn; [reflexivity|assumption|]. rewrite IHe1, IHe2. reflexivity. Qed.
Lemma all_leaves_impl {L} (P R : L -> Prop) e : (forall l, P l -> R l) -> all_leaves P e -> all_leaves R e.
Proof. intros H. induction e; cbn; [apply H|assumption|]. intros (H1 & H2). split; auto. Qed.

(** C15, mathematically: if the expression with every roll replaced by the total of its dice is ordinary integer
    arithmetic (SpecArith), the total shown is its mathematical value. *)
Theorem C15_d_total_math gid e ops rolls mid fin v : dok e ->
  visit settle_operands e ops mid -> visit roll_leaf mid rolls fin ->
  ordinary (ae_map total fin) -> math_value (ae_map total fin) = Some v ->
  exists s1 s2,
    infix_notation (tree mleaf_tree mid) true = Ok s1 /\ infix_notation (tree sleaf_tree fin) true = Ok s2 /\
    gives gid (command_tree (DExpr e)) (ops ++ rolls) (Result gid [parenthesize s1; s2; itoa v] (ops ++ rolls) Unspecified false).
Proof.
  intros Hok H1 H2 Ho Hv. destruct (notates_mtree mid true) as (s1 & Hs1). destruct (notates_stree fin true) as (s2 & Hs2).
  exists s1, s2. split; [exact Hs1|]. split; [exact Hs2|]. apply (gives_d_expr gid e _ _ Hok).
  exists ops, rolls, mid, fin, v, s1, s2. split; [reflexivity|]. split; [|repeat split; assumption].
  split; [exact H1|]. split; [exact H2|]. apply has_value_mach.
  assert (ae_map sum_leaf fin = ae_map total fin) as ->.
  { apply ae_map_ext. pose proof (ordinary_leaves _ Ho) as HL. apply (all_leaves_map total in_int64 fin) in HL. eapply all_leaves_impl; [|exact HL].
    intros [w|ds] Hl; [reflexivity|]. cbn in *. apply wrap64_id. exact Hl. }
  pose proof (mach_math _ Ho) as H. rewrite Hv in H. apply H.
Qed.
Print Assumptions C15_d_total_math.

(** Non-trivial instance: ([1...3]+1)D6 - 2*1D(4+6), dice 2/3 for the operand, then 5/6 1/6 4/6, then 9/10. *)
Example C15_example :
  let e := Bin Minus (Leaf (DDice (Bin Plus (Leaf (RRand (Leaf 1) (Leaf 3))) (Leaf (RInt 1))) (Leaf (RInt 6))))
             (Bin Times (Leaf (DInt 2)) (Leaf (DDice (Leaf (RInt 1)) (Bin Plus (Leaf (RInt 4)) (Leaf (RInt 6)))))) in
  parse_command "([1...3]+1)D6-2*1D(4+6)" = Ok (command_tree (DExpr e)) /\
  run_command "DiceBot" (command_tree (DExpr e)) (FQueue [Die 2 3; Die 5 6; Die 1 6; Die 4 6; Die 9 10; Die 1 2]) =
    (Ok (Result "DiceBot" ["(3D6-2*1D10)"; "10[5,1,4]-2*9[9]"; "-8"]%string
       [Die 2 3; Die 5 6; Die 1 6; Die 4 6; Die 9 10] Unspecified false), FQueue [Die 1 2]).
Proof. vconj. Qed.

(** * C16 *)
(** C16: exactly the dice sequences and results a D comparison command can have. *)
Theorem C16_d_comp_exact gid e op t ds r : dok e -> iok t -> is_compare_op op ->
  (gives gid (command_tree (DComp e op t)) ds r <->
   comparable e /\
   exists ops rolls mid fin v w s1 s2 (b : bool),
     ds = ops ++ rolls /\ d_value e ops rolls mid fin v /\ has_value t w /\ (b = true <-> compares op v w) /\
     infix_notation (tree mleaf_tree mid) true = Ok s1 /\ infix_notation (tree sleaf_tree fin) true = Ok s2 /\
     r = Result gid [parenthesize (s1 ++ op ++ itoa w); s2; itoa v; if b then "成功" else "失敗"]%string ds
           (if b then Success else Failure) false).
Proof.
  intros Hok Ht Hop. rewrite (gives_d_comp gid e op t ds r Hok Ht Hop). split.
  - intros (Hc & ops & rolls & mid & fin & v & w & s1 & s2 & -> & H1 & H2 & H3 & H4 & ->). split; [exact Hc|].
    exists ops, rolls, mid, fin, v, w, s1, s2, (compareb op v w). repeat split; try assumption; try apply H1; apply compareb_spec; exact Hop.
  - intros (Hc & ops & rolls & mid & fin & v & w & s1 & s2 & b & -> & H1 & H2 & Hb & H3 & H4 & ->). split; [exact Hc|].
    exists ops, rolls, mid, fin, v, w, s1, s2. repeat split; try assumption; try apply H1.
    assert (b = compareb op v w) as ->; [|reflexivity].
    pose proof (compareb_spec op v w Hop). apply Bool.eq_iff_eq_true. tauto.
Qed.
Print Assumptions C16_d_comp_exact.

(** C16, the verdict, with any feeder: the third part shows a value v, the target evaluates to w, the flag is SUCCESS
    exactly if v op w, else FAILURE, and the last part is the matching word. *)
Theorem C16_verdict gid e op t f r f' : dok e -> iok t -> is_compare_op op ->
  run_command gid (command_tree (DComp e op t)) f = (Ok r, f') ->
  exists ops rolls mid fin v w,
    draws f (ops ++ rolls) f' /\ d_value e ops rolls mid fin v /\ has_value t w /\
    nth_error (r_parts r) 2 = Some (itoa v) /\
    (compares op v w -> r_success r = Success /\ nth_error (r_parts r) 3 = Some "成功"%string) /\
    (~ compares op v w -> r_success r = Failure /\ nth_error (r_parts r) 3 = Some "失敗"%string).
Proof.
  intros Hok Ht Hop H. destruct (run_command_gives _ _ _ _ _ H) as (ds & Hd & Hg).
  apply (C16_d_comp_exact gid e op t ds r Hok Ht Hop) in Hg as (_ & ops & rolls & mid & fin & v & w & s1 & s2 & b & -> & H1 & H2 & Hb & _ & _ & ->).
  exists ops, rolls, mid, fin, v, w. split; [exact Hd|]. split; [exact H1|]. split; [exact H2|]. split; [reflexivity|].
  cbn [r_success r_parts nth_error]. destruct b; split; intros Hc; try (split; reflexivity).
  - exfalso. apply Hc, Hb. reflexivity.
  - exfalso. apply Hb in Hc. discriminate.
Qed.
Print Assumptions C16_verdict.
Example C16_example :
  let e := Bin Plus (Leaf (DDice (Leaf (RInt 2)) (Leaf (RInt 6)))) (Leaf (DInt 1)) in
  parse_command "2d6+1>=4+4" = Ok (command_tree (DComp e ">=" (Bin Plus (Leaf 4) (Leaf 4)))) /\
  run_command "DiceBot" (command_tree (DComp e ">=" (Bin Plus (Leaf 4) (Leaf 4)))) (FQueue [Die 3 6; Die 4 6]) =
    (Ok (Result "DiceBot" ["(2D6+1>=8)"; "7[3,4]+1"; "8"; "成功"]%string [Die 3 6; Die 4 6] Success false), FQueue []) /\
  run_command "DiceBot" (command_tree (DComp e ">=" (Bin Plus (Leaf 4) (Leaf 4)))) (FQueue [Die 2 6; Die 4 6]) =
    (Ok (Result "DiceBot" ["(2D6+1>=8)"; "6[2,4]+1"; "7"; "失敗"]%string [Die 2 6; Die 4 6] Failure false), FQueue []).
Proof. vconj. Qed.

(** * C17 *)
(** C17 is false of the code: a comparison whose left side is a single roll with an operand that is not a plain
    number fails for every feeder, without taking a die. *)
Theorem C17_computed_operands_fail gid n s op t f :
  (forall v, n <> Leaf (RInt v)) \/ (forall v, s <> Leaf (RInt v)) ->
  exists msg, run_command gid (command_tree (DComp (Leaf (DDice n s)) op t)) f = (Err msg, f).
Proof.
  intros H. unfold run_command. cbn [command_tree execute]. unfold execute_d_roll_comp, eval_var_args_notation.
  change (dtree (Leaf (DDice n s))) with (NInfix (OpVar KD) (rtree n) (rtree s)).
  change (eval_var_args default_max_rerolls (NInfix (OpCmp op) (NInfix (OpVar KD) (rtree n) (rtree s)) (itree t))) with
    (l' <- eval_var_args default_max_rerolls (NInfix (OpVar KD) (rtree n) (rtree s)) ;;
     ro <- eval default_max_rerolls (itree t) ;; rv <- obj_int ro ;; CRet (NInfix (OpCmp op) l' (NInt rv))).
  rewrite eval_var_args_var.
  destruct (va_rtree default_max_rerolls n) as [->|(m & ->)]; [|eexists; reflexivity].
  destruct (va_rtree default_max_rerolls s) as [->|(m & ->)]; [|eexists; reflexivity].
  cbn [cbind]. rewrite eval_itree. destruct (mach t) as [w|m|p] eqn:E; [|eexists; reflexivity|exfalso; eapply mach_no_panic; exact E].
  cbn [oint obind clift cbind obj_int].
  destruct (notates_cmp op (NInfix (OpVar KD) (rtree n) (rtree s)) (NInt w)
    (notates_var KD _ _ (notates_rtree n) (notates_rtree s)) (notates_int w) true) as (s1 & ->).
  cbn [clift cbind]. rewrite determine_infix.
  change (dv_child (NInfix (OpVar KD) (rtree n) (rtree s))) with (determine_d_roll (rtree n) (rtree s)).
  assert (exists m, determine_d_roll (rtree n) (rtree s) = CErr m) as (m & ->); [|eexists; reflexivity].
  destruct n as [[x|lo hi]|n|op1 a b]; try (eexists; reflexivity).
  destruct s as [[y|lo hi]|s|op1 a b]; try (eexists; reflexivity).
  destruct H as [H|H]; exfalso; eapply H; reflexivity.
Qed.
Print Assumptions C17_computed_operands_fail.
(** The example of the README is such a command, and is accepted by the parser. *)
Theorem C17_documented_example_refuted gid f :
  exists n, parse_command "(8/2)D(4+6)<=(5*3)" = Ok n /\ exists msg, run_command gid n f = (Err msg, f).
Proof.
  exists (command_tree (DComp (Leaf (DDice (Bin (Over RoundDown) (Leaf (RInt 8)) (Leaf (RInt 2)))
     (Bin Plus (Leaf (RInt 4)) (Leaf (RInt 6))))) "<=" (Bin Times (Leaf 5) (Leaf 3)))).
  split; [vmc|]. apply C17_computed_operands_fail. left. discriminate.
Qed.
Print Assumptions C17_documented_example_refuted.

(** * C18 *)
(** C18: with a < b the evaluation of [a...b] takes exactly one die, with b-a+1 sides, and its value is a-1+d; it
    lies in the range if the die is legal. *)
Theorem C18_random_number_in_range mr lo hi a b s o s' :
  iok lo -> iok hi -> has_value lo a -> has_value hi b -> a < b ->
  run (eval mr (NInfix (OpVar KRand) (itree lo) (itree hi))) s = (Ok o, s') ->
  exists d, draws (es_feeder s) [d] (es_feeder s') /\ es_log s' = es_log s ++ [d] /\ die_sides d = b - a + 1 /\
    (legal d -> o = OInt (a - 1 + die_value d) /\ a <= a - 1 + die_value d <= b).
Proof.
  intros Hlo Hhi Ha Hb Hab H. apply run_any_yields in H as (ds & Hy & Hl & Hd).
  apply (yields_random _ mr lo hi ds o Hlo Hhi) in Hy as (v & -> & a' & b' & d & Ha' & Hb' & _ & Hm & -> & Hs & ->).
  apply has_value_mach in Ha, Hb, Ha', Hb'. rewrite Ha in Ha'. rewrite Hb in Hb'. injection Ha' as <-. injection Hb' as <-.
  exists d. split; [exact Hd|]. split; [exact Hl|]. split; [exact Hs|]. unfold legal. intros HL. split; [|lia].
  f_equal. apply wrap64_id. pose proof (mach_range _ _ Hlo Ha). pose proof (mach_range _ _ Hhi Hb). unfold in_int64 in *. lia.
Qed.
Print Assumptions C18_random_number_in_range.
(** C18: every value of the range is reached by a legal die. *)
Theorem C18_every_value_reachable mr lo hi a b v q l :
  iok lo -> iok hi -> has_value lo a -> has_value hi b -> b - a + 1 <= max_int -> a < b -> a <= v <= b ->
  let d := Die (v - a + 1) (b - a + 1) in
  legal d /\ run (eval mr (NInfix (OpVar KRand) (itree lo) (itree hi))) (EState (FQueue (d :: q)) l) =
    (Ok (OInt v), EState (FQueue q) (l ++ [d])).
Proof.
  intros Hlo Hhi Ha Hb Hm Hab Hv d. split; [unfold legal, d; cbn; lia|].
  apply (yields_run _ l [d]). apply (yields_random l mr lo hi [d] _ Hlo Hhi). exists v. split; [reflexivity|].
  exists a, b, d. repeat split; try assumption. unfold d. cbn [die_value].
  replace (a - 1 + (v - a + 1)) with v by lia. symmetry. apply wrap64_id.
  apply has_value_mach in Ha, Hb. pose proof (mach_range _ _ Hlo Ha). pose proof (mach_range _ _ Hhi Hb). unfold in_int64 in *. lia.
Qed.
Print Assumptions C18_every_value_reachable.
(** C18: an empty or singleton range, or one too large for an int, is an error; no die is taken or recorded. *)
Theorem C18_bad_range mr lo hi a b s :
  iok lo -> iok hi -> has_value lo a -> has_value hi b -> a >= b \/ b - a + 1 > max_int ->
  exists msg, run (eval mr (NInfix (OpVar KRand) (itree lo) (itree hi))) s = (Err msg, s).
Proof.
  intros Hlo Hhi Ha Hb H. apply has_value_mach in Ha, Hb.
  pose proof (mach_range _ _ Hlo Ha) as Ra. pose proof (mach_range _ _ Hhi Hb) as Rb.
  cbn [eval]. rewrite !itree_not_null. unfold eval_infix. cbn [eval_operands]. rewrite !eval_itree, Ha, Hb.
  cbn [oint obind clift cbind]. change (eval_int_infix (op_string (OpVar KRand)) a b) with (eval_random_number a b).
  unfold eval_random_number. destruct (b <=? a) eqn:E; [eexists; reflexivity|].
  assert (wrap64 (wrap64 (b - a) + 1) < 1) as Hw.
  { rewrite wrap64_add_l. unfold wrap64, in_int64, min_int, max_int, two63, two64 in *. lia. }
  cbn [run]. unfold roll_dice. replace (wrap64 (wrap64 (b - a) + 1) <? 1) with true by lia.
  eexists. destruct s. reflexivity.
Qed.
Print Assumptions C18_bad_range.
Example C18_example :
  has_value (Bin Minus (Leaf 2) (Leaf 4)) (-2) /\ has_value (Leaf 5) 5 /\
  run (eval 10000 (NInfix (OpVar KRand) (itree (Bin Minus (Leaf 2) (Leaf 4))) (itree (Leaf 5)))) (EState (FQueue [Die 8 8]) []) =
    (Ok (OInt 5), EState (FQueue []) [Die 8 8]).
Proof. vconj. Qed.

(** * C19 *)
(** C19: a D expression or comparison with a random number standing outside a roll operand always ends in an error. *)
Theorem C19_loose_random_fails gid e lo hi f : part (Leaf (DRand lo hi)) e ->
  exists msg f', run_command gid (command_tree (DExpr e)) f = (Err msg, f').
Proof.
  intros Hp. unfold run_command.
  destruct (run (execute default_max_rerolls gid (command_tree (DExpr e))) (EState f [])) as [o s'] eqn:E.
  assert (wp (fun _ => True) (fun _ => False) (execute default_max_rerolls gid (command_tree (DExpr e))) (fun _ => False)) as H.
  { cbn [command_tree execute]. unfold execute_d_roll_expr, eval_var_args_notation. rewrite eval_var_args_command.
    apply wp_bind. apply wp_bind. apply wp_bind. eapply wp_mono; [apply wp_va_dtree|].
    intros n (Hn & _). exfalso. eapply loose_random_part; eassumption. }
  pose proof (wp_run _ _ _ _ H (EState f []) _ _ (feeds_all f) E) as Ho. destruct o; try contradiction. eexists _, _. reflexivity.
Qed.
Print Assumptions C19_loose_random_fails.
Theorem C19_loose_random_fails_comp gid e op t lo hi f : part (Leaf (DRand lo hi)) e ->
  exists msg f', run_command gid (command_tree (DComp e op t)) f = (Err msg, f').
Proof.
  intros Hp. unfold run_command.
  destruct (run (execute default_max_rerolls gid (command_tree (DComp e op t))) (EState f [])) as [o s'] eqn:E.
  assert (wp (fun _ => True) (fun _ => False) (execute default_max_rerolls gid (command_tree (DComp e op t))) (fun _ => False)) as H.
  { cbn [command_tree execute]. unfold execute_d_roll_comp, eval_var_args_notation. cbn [eval_var_args].
    eapply wp_bind_with with (R := fun p => exists lo hi w, fst p = NInfix (OpCmp op) (NInfix (OpVar KRand) (itree lo) (itree hi)) (NInt w)).
    - eapply wp_bind_with with (R := fun n => exists lo hi w, n = NInfix (OpCmp op) (NInfix (OpVar KRand) (itree lo) (itree hi)) (NInt w)).
      + eapply wp_bind_with; [apply wp_va_top|]. intros n [(Hn & _)|[(lo' & hi' & ->)|(a & b & -> & ->)]].
        * exfalso. eapply loose_random_part; eassumption.
        * eapply wp_bind_with; [apply wp_itree|]. intros o' (w & ->). cbn. exists lo', hi', w. reflexivity.
        * inversion Hp.
      + intros n (lo' & hi' & w & ->). apply wp_bind. apply wp_clift.
        * intros s _. cbn. exists lo', hi', w. reflexivity.
        * destruct (notates_cmp op _ _ (notates_var KRand _ _ (notates_itree lo') (notates_itree hi')) (notates_int w) true) as (s1 & ->). discriminate.
    - intros (n & s1) (lo' & hi' & w & Hn). cbn [fst] in Hn. subst n. exact I. }
  pose proof (wp_run _ _ _ _ H (EState f []) _ _ (feeds_all f) E) as Ho. destruct o; try contradiction. eexists _, _. reflexivity.
Qed.
Print Assumptions C19_loose_random_fails_comp.
Example C19_example :
  let e := Bin Plus (Leaf (DDice (Leaf (RInt 1)) (Leaf (RInt 6)))) (Leaf (DRand (Leaf 1) (Leaf 3))) in
  parse_command "1D6+[1...3]" = Ok (command_tree (DExpr e)) /\ part (Leaf (DRand (Leaf 1) (Leaf 3))) e.
Proof. split; [vmc|]. apply part_r, part_self. Qed.

(** * C20 *)
(** Every roll in the tree has plain numbers as operands; there is no random number. *)
Fixpoint literal_rolls (n : node) : Prop :=
  match n with
  | NInt _ => True
  | NNeg r => literal_rolls r
  | NInfix (OpVar KD) l r => (exists x, l = NInt x) /\ (exists y, r = NInt y)
  | NInfix (OpVar _) _ _ => False
  | NInfix _ l r => literal_rolls l /\ literal_rolls r
  | NCommand _ e => literal_rolls e
  | _ => False
  end.
Lemma literal_mtree mid : literal_rolls (tree mleaf_tree mid).
Proof.
  induction mid as [[v|x y]|e IH|op a IHa b IHb]; cbn; [exact I|split; eexists; reflexivity|exact IH|].
  destruct op; split; assumption.
Qed.
Lemma no_variable_stree fin : is_variable (tree sleaf_tree fin) = false.
Proof.
  induction fin as [[v|x]|e IH|op a IHa b IHb]; cbn; [reflexivity|reflexivity|exact IH|].
  destruct op; cbn; rewrite IHa, IHb; reflexivity.
Qed.
(** C20: operand evaluation leaves plain numbers as operands; determining the values leaves no random element, and the
    evaluation after it neither depends on nor changes the feeder and the log. *)
Theorem C20_phases mr e s n1 s1 n2 s2 : dok e ->
  run (eval_var_args mr (command_tree (DExpr e))) s = (Ok n1, s1) ->
  run (determine_values n1) s1 = (Ok n2, s2) ->
  literal_rolls n1 /\ is_variable n2 = false /\ exists o, forall s, run (eval mr n2) s = (o, s).
Proof.
  intros Hok H1 H2. apply run_any_yields in H1 as (d1 & Hy1 & _). apply run_any_yields in H2 as (d2 & Hy2 & _).
  cbn [command_tree] in Hy1. rewrite eval_var_args_command in Hy1. apply yields_bind_ret in Hy1 as (m & Hy1 & ->).
  apply (yields_va_dtree mr e Hok) in Hy1 as (mid & _ & ->).
  rewrite determine_command in Hy2. apply yields_bind_ret in Hy2 as (m & Hy2 & ->). apply yields_dv in Hy2 as (fin & _ & ->).
  split; [apply literal_mtree|]. split; [apply no_variable_stree|].
  cbn [eval]. rewrite eval_stree, eval_itree. eexists. intros s'. apply run_clift.
Qed.
Print Assumptions C20_phases.
Example C20_example :
  let e := Bin Plus (Leaf (DDice (Bin Plus (Leaf (RInt 1)) (Leaf (RInt 1))) (Leaf (RInt 6)))) (Leaf (DInt 3)) in
  exists n1 s1 n2 s2,
  run (eval_var_args 10000 (command_tree (DExpr e))) (EState (FQueue [Die 3 6; Die 5 6]) []) = (Ok n1, s1) /\
  run (determine_values n1) s1 = (Ok n2, s2) /\ run (eval 10000 n2) s2 = (Ok (OInt 11), s2).
Proof. do 4 eexists. vconj. Qed.
