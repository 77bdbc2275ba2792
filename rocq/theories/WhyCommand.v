(** The errors of commands, continued: execution. *)
From Verif Require Import ProofBase Dice SpecDice DiceProofs Comp CompProofs Ast Eval Notation NotationProofs Command
  SpecSyntax ArithProofs SpecRoll SpecLists SpecCounts SpecReasons YieldsProofs DRollProofs WpProofs WpEval ListProofs RerollProofs ExplodeProofs WpCommand WhyProofs.
Open Scope list_scope.
Open Scope Z_scope.

Section S.
  Variable D : die -> Prop.
  Variable W : string -> Prop.
  Notation ep := (ep D W).
  Notation mr := default_max_rerolls.
  Lemma ep_va_cmp op n t (P : node -> Prop) : ep (eval_var_args mr n) P -> zero_ok W t ->
    ep (eval_var_args mr (NInfix (OpCmp op) n (itree t))) (fun n' => exists m w, P m /\ n' = NInfix (OpCmp op) m (NInt w)).
  Proof.
    intros H Ht. rewrite cmp_va. eapply ep_bind_with; [exact H|]. intros m Hm. eapply ep_bind_with; [apply ep_itree; exact Ht|]. intros o (w & -> & _). cbn. exists m, w. split; [exact Hm|reflexivity].
  Qed.
  Lemma ep_args_notation n (P : node -> Prop) : ep (eval_var_args mr n) P -> (forall n', P n' -> is_ok (infix_notation n' true)) -> ep (eval_var_args_notation mr n) (fun p => P (fst p)).
  Proof. intros H Hn. unfold eval_var_args_notation. eapply ep_bind_with; [exact H|]. intros n' Hn'. destruct (Hn n' Hn') as (s & ->). cbn. exact Hn'. Qed.
  Notation fine_pairs name := (Forall (fun p : Z * Z => fine_for W name (fst p) (snd p))).
  Definition es_b (n : node) : Prop := exists ps, fine_pairs "RollDice" ps /\ n = NBRollList (map (lit_roll KB) ps).
  Definition es_r (n : node) : Prop := exists ps t, fine_pairs "RollDice" ps /\ n = NRRollList (map (lit_roll KR) ps) (opt_node t).
  Definition es_u (n : node) : Prop := exists ps t m, fine_pairs "evalCompoundingRoll" ps /\ in_int64 m /\ n = NURollExpr (map (lit_roll KU) ps) (opt_node t) (lit_bonus m).
  Lemma ep_va_b rs : Forall (ready D W "RollDice") rs -> ep (eval_var_args mr (NBRollList (map (roll_tree KB) rs))) es_b.
  Proof. intros Hr. cbn [eval_var_args]. eapply ep_bind_with; [apply (ep_va_rolls D W mr KB "RollDice" rs); [discriminate|exact Hr]|]. intros vs (ps & Hp & ->). cbn. exists ps. split; [eapply pairs_fine; eassumption|reflexivity]. Qed.
  Lemma ep_va_r rs th : Forall (ready D W "RollDice") rs -> Forall (zero_ok W) (opt_list th) -> ep (eval_var_args mr (NRRollList (map (roll_tree KR) rs) (th_tree th))) es_r.
  Proof.
    intros Hr Ht. cbn [eval_var_args]. eapply ep_bind_with; [apply ep_va_threshold; exact Ht|]. intros n (t & ->).
    eapply ep_bind_with; [apply (ep_va_rolls D W mr KR "RollDice" rs); [discriminate|exact Hr]|]. intros vs (ps & Hp & ->). cbn. exists ps, t. split; [eapply pairs_fine; eassumption|reflexivity].
  Qed.
  Lemma ep_va_u rs th b : Forall (ready D W "evalCompoundingRoll") rs -> Forall (zero_ok W) (opt_list th) -> Forall (zero_ok W) (map snd (opt_list b)) ->
    ep (eval_var_args mr (NURollExpr (map (roll_tree KU) rs) (th_tree th) (bonus_tree b))) es_u.
  Proof.
    intros Hr Ht Hb. cbn [eval_var_args]. eapply ep_bind_with; [apply ep_va_threshold; exact Ht|]. intros n (t & ->).
    eapply ep_bind_with; [apply (ep_va_rolls D W mr KU "evalCompoundingRoll" rs); [discriminate|exact Hr]|]. intros vs (ps & Hp & ->).
    eapply ep_bind_with; [apply ep_va_bonus; exact Hb|]. intros o (m & Hm & ->). cbn. exists ps, t, m. split; [eapply pairs_fine; eassumption|]. split; [exact Hm|reflexivity].
  Qed.
  Lemma eok_b n : es_b n -> forall w, is_ok (infix_notation n w).
  Proof. intros (ps & _ & ->) w. rewrite notation_blist. unfold rolls_text. rewrite collect_lit by discriminate. apply is_ok_ok. Qed.
  Lemma eok_r n : es_r n -> forall w, is_ok (infix_notation n w).
  Proof. intros (ps & t & _ & ->) w. rewrite notation_rlist, rlist_text_lit by discriminate. apply is_ok_ok. Qed.
  Lemma eok_u n : es_u n -> forall w, is_ok (infix_notation n w).
  Proof. intros (ps & t & m & _ & _ & ->) w. rewrite notation_uexpr_lit. apply is_ok_ok. Qed.
  Lemma ep_eval_uexpr ps v m : fine_pairs "evalCompoundingRoll" ps -> in_int64 m -> ep (eval mr (NURollExpr (map (lit_roll KU) ps) (NInt v) (lit_bonus m))) (fun o => exists gs, o = OURollExpr (map ints gs) m).
  Proof. intros Hc Hm. rewrite (eval_uexpr ps v m Hm). eapply ep_bind_with; [apply (ep_u_rolls D W mr v ps Hc [])|]. intros o (gs & ->). cbn. exists gs. reflexivity. Qed.

  (** ** The left side of a D comparison *)
  Definition d_left (e : dexpr) (op : string) (t : iexpr) (m : node) : Prop :=
    (exists ops mid, Forall D ops /\ visit settle_operands e ops mid /\ all_leaves (fine_leaf W) mid /\ m = tree mleaf_tree mid) \/
    (exists lo hi, e = Leaf (DRand lo hi) /\ m = NInfix (OpVar KRand) (itree lo) (itree hi)) \/
    (exists a b, e = Leaf (DDice a b) /\ m = NInfix (OpVar KD) (rtree a) (rtree b)).
  Lemma va_rtree_error mr' e msg : va_child mr' (rtree e) = CErr msg -> msg = no_random_text /\ exists lo hi, part (Leaf (RRand lo hi)) e.
  Proof.
    revert msg. induction e as [[v|lo hi]|e IH|op a IHa b IHb]; intros msg H.
    - discriminate H.
    - cbn in H. injection H as <-. split; [reflexivity|]. exists lo, hi. constructor.
    - change (rtree (Neg e)) with (NNeg (rtree e)) in H. rewrite va_child_neg, eval_var_args_neg in H. destruct (va_rtree mr' e) as [E|(m & E)]; rewrite E in *; cbn in H; [discriminate H|].
      injection H as <-. destruct (IH _ eq_refl) as (H1 & lo & hi & H2). split; [exact H1|]. exists lo, hi. constructor. exact H2.
    - change (rtree (Bin op a b)) with (NInfix (arith_op op) (rtree a) (rtree b)) in H. rewrite va_child_arith, eval_var_args_arith in H.
      destruct (va_rtree mr' a) as [E|(m & E)]; rewrite E in *; cbn [cbind] in H.
      + destruct (va_rtree mr' b) as [E2|(m & E2)]; rewrite E2 in *; cbn [cbind] in H; [discriminate H|]. injection H as <-. destruct (IHb _ eq_refl) as (H1 & lo & hi & H2). split; [exact H1|]. exists lo, hi. apply part_r. exact H2.
      + injection H as <-. destruct (IHa _ eq_refl) as (H1 & lo & hi & H2). split; [exact H1|]. exists lo, hi. apply part_l. exact H2.
  Qed.
  Lemma ep_va_top e op t : d_ready D W e -> (forall msg, unsupported (DComp e op t) msg -> W msg) -> ep (eval_var_args mr (dtree e)) (d_left e op t).
  Proof.
    intros Hr HU. destruct e as [[v|lo hi|a b]|e|op0 a b].
    - exact (HU _ (compared_number op t v)).
    - change (dtree (Leaf (DRand lo hi))) with (NInfix (OpVar KRand) (itree lo) (itree hi)). rewrite eval_var_args_var, !va_child_itree. cbn. right. left. exists lo, hi. split; reflexivity.
    - change (dtree (Leaf (DDice a b))) with (NInfix (OpVar KD) (rtree a) (rtree b)). rewrite eval_var_args_var.
      destruct (va_rtree mr a) as [E|(m & E)]; rewrite E; cbn [cbind].
      2:{ destruct (va_rtree_error _ _ _ E) as (-> & lo & hi & H). apply (HU _ (compared_operand op t a b lo hi (or_introl H))). }
      destruct (va_rtree mr b) as [E2|(m & E2)]; rewrite E2; cbn [cbind].
      2:{ destruct (va_rtree_error _ _ _ E2) as (-> & lo & hi & H). apply (HU _ (compared_operand op t a b lo hi (or_intror H))). }
      right. right. exists a, b. split; reflexivity.
    - eapply ep_mono; [apply (ep_va_dtree D W mr (Neg e) Hr)|]. intros n (ops & mid & H1 & H2 & ->). left. exists ops, mid. split; [exact H1|]. split; [exact H2|]. split; [|reflexivity]. eapply settled_fine; [apply Hr|exact H1|exact H2].
    - pose proof (ep_va_dtree D W mr (Bin op0 a b) Hr) as H. unfold dtree in H. cbn [tree] in H. rewrite va_child_arith in H.
      eapply ep_mono; [exact H|]. intros n (ops & mid & H1 & H2 & ->). left. exists ops, mid. split; [exact H1|]. split; [exact H2|]. split; [|reflexivity]. eapply settled_fine; [apply Hr|exact H1|exact H2].
  Qed.
  Lemma operand_type a : node_type (rtree a) = operand_name a.
  Proof. destruct a as [[v|lo hi]|a|[| | |[| |]] a b]; reflexivity. Qed.
  Lemma ep_dv_left e op t m : d_ready D W e -> (forall msg, unsupported (DComp e op t) msg -> W msg) -> d_left e op t m ->
    ep (dv_child m) (fun n => exists ops mid rolls fin, Forall D ops /\ Forall D rolls /\ visit settle_operands e ops mid /\ visit roll_leaf mid rolls fin /\ n = tree sleaf_tree fin).
  Proof.
    intros Hr HU [(ops & mid & H1 & H2 & H3 & ->)|[(lo & hi & -> & ->)|(a & b & -> & ->)]].
    - eapply ep_mono; [apply (ep_dv D W mid H3)|]. intros n (rolls & fin & H4 & H5 & ->). exists ops, mid, rolls, fin. auto.
    - exact (HU _ (compared_random op t lo hi)).
    - change (dv_child (NInfix (OpVar KD) (rtree a) (rtree b))) with (determine_d_roll (rtree a) (rtree b)). unfold determine_d_roll.
      destruct a as [[x|lo hi]|a|op1 a1 a2].
      2-4: (match goal with |- context [rtree ?a] => pose proof (HU _ (compared_count op t a b ltac:(intros (v & Hv); discriminate Hv))) as HX; rewrite <- operand_type in HX; exact HX end).
      cbn [rtree tree rleaf_tree]. destruct b as [[y|lo hi]|b|op1 b1 b2].
      2-4: (match goal with |- context [CErr (_ ++ node_type ?n)%string] => idtac | _ => idtac end;
            match type of HU with context [DDice _ ?b] => pose proof (HU _ (compared_sides op t (Leaf (RInt x)) b (ex_intro _ x eq_refl) ltac:(intros (v & Hv); discriminate Hv))) as HX; rewrite <- operand_type in HX; exact HX end).
      assert (visit settle_operands (Leaf (DDice (Leaf (RInt x)) (Leaf (RInt y)))) [] (Leaf (MDice x y))) as Hv.
      { constructor. exists [], []. split; [reflexivity|]. split; apply operand_leaf_value; split; reflexivity. }
      eapply ep_mono; [apply (ep_dv D W (Leaf (MDice x y))); eapply settled_fine; [apply Hr|apply Forall_nil|exact Hv]|]. intros n (rolls & fin & H4 & H5 & ->).
      exists [], (Leaf (MDice x y)), rolls, fin. split; [constructor|]. auto.
  Qed.
End S.

Notation mr := default_max_rerolls.
Lemma ep_execute D gid c : command_ok c -> ep D (reason D c) (execute mr gid (command_tree c)) (fun _ => True).
Proof.
  intros Hok. set (W := reason D c).
  assert (Forall (zero_ok W) (numbers_of c)) as HN by (apply Forall_forall; intros e He msg H; eapply reason_number; eassumption).
  assert (Forall (fun r => forall msg, roll_reason D (roller c) r msg -> W msg) (rolls_of c)) as HR by (apply Forall_forall; intros r Hr msg H; eapply reason_roll; eassumption).
  assert (Forall roll_ok (rolls_of c) -> Forall (ready D W (roller c)) (rolls_of c)) as HRR.
  { intros H. rewrite Forall_forall in *. intros r Hr. destruct (H r Hr) as (H1 & H2). split; [exact (conj H1 H2)|apply HR, Hr]. }
  assert (forall msg, unsupported c msg -> W msg) as HU by (intros msg H; apply reason_unsupported, H).
  assert (forall e, d_part c = Some e -> forall msg, by_zero (d_comes_out D) e msg -> W msg) as HT by (intros e He msg H; eapply reason_total; eassumption).
  assert (forall e, d_part c = Some e -> dok e -> rolls_of c = d_rolls e -> roller c = "RollDice"%string -> d_ready D W e) as HDr.
  { intros e He Hd Hro Hn. split; [exact Hd|]. split; [rewrite <- Hro, <- Hn; exact HR|]. intros lo hi Hp. apply HU. eapply loose_random; eassumption. }
  assert (HWd : W = reason D c) by reflexivity. clearbody W.
  destruct c as [e|e|e op t|r rs|r rs op t|r rs th|r rs th op t|r rs th b|r rs th b op t|items]; cbn [command_tree execute rolls_of numbers_of roller d_part] in *.
  - unfold execute_calc. apply ep_ok; [apply (notates_command_tree (Calculation e))|]. intros s. cbn [eval]. inversion_clear HN. eapply ep_bind_with; [apply ep_itree; assumption|]. intros; exact I.
  - specialize (HDr e eq_refl Hok eq_refl eq_refl). specialize (HT e eq_refl).
    unfold execute_d_roll_expr. eapply ep_bind_with with (R := fun p => exists ops mid, fst p = NCommand CDRollExpr (tree mleaf_tree mid) /\ Forall D ops /\ visit settle_operands e ops mid).
    + apply ep_args_notation with (P := fun n => exists ops mid, n = NCommand CDRollExpr (tree mleaf_tree mid) /\ Forall D ops /\ visit settle_operands e ops mid).
      * rewrite eval_var_args_command. eapply ep_bind_with; [apply (ep_va_dtree D W mr e HDr)|]. intros n (ops & mid & H1 & H2 & ->). cbn. exists ops, mid. auto.
      * intros n' (ops & mid & -> & _). apply notates_command, notates_mtree.
    + intros (n1 & s1) (ops & mid & Hn & Ho & Hv). cbn [fst] in Hn. subst n1. rewrite determine_command.
      eapply ep_bind_with with (R := fun n => exists rolls fin, n = NCommand CDRollExpr (tree sleaf_tree fin) /\ Forall D rolls /\ visit roll_leaf mid rolls fin).
      * eapply ep_bind_with; [apply ep_dv; eapply settled_fine; [apply HDr|exact Ho|exact Hv]|]. intros n (rolls & fin & H1 & H2 & ->). cbn. exists rolls, fin. auto.
      * intros n (rolls & fin & -> & Hro & Hf). apply ep_ok; [apply notates_command, notates_stree|]. intros s2. cbn [eval]. rewrite eval_stree.
        eapply ep_bind_with; [apply ep_itree; intros msg H; apply HT; eapply total_by_zero; [exact Ho|exact Hro|exact Hv|exact Hf|exact H]|]. intros; exact (fun _ => I).
  - destruct Hok as (Hd & Hop & Ht). specialize (HDr e eq_refl Hd eq_refl eq_refl). specialize (HT e eq_refl). inversion_clear HN as [|? ? Hz _]. unfold execute_d_roll_comp.
    eapply ep_bind_with with (R := fun p => exists m w, fst p = NInfix (OpCmp op) m (NInt w) /\ d_left D W e op t m).
    + apply ep_args_notation with (P := fun n => exists m w, n = NInfix (OpCmp op) m (NInt w) /\ d_left D W e op t m).
      * eapply ep_mono; [apply ep_va_cmp with (P := d_left D W e op t); [apply ep_va_top; assumption|exact Hz]|]. intros n (m & w & Hm & ->). exists m, w. split; [reflexivity|exact Hm].
      * intros n (m & w & -> & Hm). apply notates_cmp; [|apply notates_int]. destruct Hm as [(ops & mid & _ & _ & _ & ->)|[(lo & hi & _ & ->)|(a & b & _ & ->)]]; [apply notates_mtree|apply notates_var; apply notates_itree|apply notates_var; apply notates_rtree].
    + intros (n1 & s1) (m & w & Hn & Hm). cbn [fst] in Hn. subst n1. rewrite determine_infix.
      eapply ep_bind_with with (R := fun n => exists ops mid rolls fin, Forall D ops /\ Forall D rolls /\ visit settle_operands e ops mid /\ visit roll_leaf mid rolls fin /\ n = NInfix (OpCmp op) (tree sleaf_tree fin) (NInt w)).
      * eapply ep_bind_with; [exact (ep_dv_left D W e op t m HDr HU Hm)|]. intros n (ops & mid & rolls & fin & H1 & H2 & H3 & H4 & ->). cbn. exists ops, mid, rolls, fin. auto 6.
      * intros n (ops & mid & rolls & fin & H1 & H2 & H3 & H4 & ->). apply ep_ok; [apply notates_stree|]. intros s2. unfold eval_compare_left. rewrite eval_stree.
        eapply ep_bind_with with (R := fun _ => True).
        -- eapply ep_bind_with; [apply ep_itree; intros msg H; apply HT; eapply total_by_zero; [exact H1|exact H2|exact H3|exact H4|exact H]|]. intros o (v & -> & _). exact I.
        -- intros v _. cbn [eval is_null]. unfold eval_infix. cbn [eval_operands cbind op_string]. rewrite (eval_compare op _ _ Hop). cbn. intros; exact I.
  - unfold execute_b_roll_list. eapply ep_bind_with; [apply ep_args_notation with (P := es_b W); [apply (ep_va_b D W (r :: rs) (HRR Hok))|intros; eapply eok_b; eassumption]|].
    intros (n1 & s1) (ps & Hps & Hn). cbn [fst] in Hn. subst n1. rewrite eval_blist, to_qroll_lit.
    eapply ep_bind_with; [apply (ep_b_list D W KB ps (or_introl eq_refl) Hps [])|]. intros o (vs & ->). cbn. intros; exact I.
  - destruct Hok as (Hro & Hop & _). inversion_clear HN as [|? ? Hz _]. unfold execute_b_roll_comp. cbn [is_basic_op].
    eapply ep_bind_with; [apply ep_args_notation with (P := fun n => exists m w, es_b W m /\ n = NInfix (OpCmp op) m (NInt w)); [apply ep_va_cmp; [apply (ep_va_b D W (r :: rs) (HRR Hro))|exact Hz]|intros n (m & w & Hm & ->); apply ok_cmp; intros; eapply eok_b; eassumption]|].
    intros (n1 & s1) (m & w & (ps & Hps & ->) & Hn). cbn [fst] in Hn. subst n1.
    change (eval mr (NCommand CBRollComp (NInfix (OpCmp op) (NBRollList (map (lit_roll KB) ps)) (NInt w)))) with
      (eval_b_roll_comp op (Some (eval mr (NBRollList (map (lit_roll KB) ps)))) (Some (CRet (OInt w)))).
    eapply ep_bind_with with (R := fun o => exists vs k, o = OBRollComp vs k).
    + unfold eval_b_roll_comp. eapply ep_bind_with; [apply ep_operands with (P := fun o => exists vs, o = ints vs) (R := fun o => o = OInt w); [|reflexivity]|].
      * rewrite eval_blist, to_qroll_lit. apply (ep_b_list D W KB ps (or_introl eq_refl) Hps []).
      * intros (o1 & o2) ((vs & H1) & H2). cbn in H1, H2. subst. cbn [ints]. rewrite (count_vals op w vs Hop). cbn. eexists _, _. reflexivity.
    + intros o (vs & k & ->). cbn. intros; exact I.
  - unfold execute_r_roll_list. eapply ep_bind_with; [apply ep_args_notation with (P := es_r W); [apply (ep_va_r D W (r :: rs) th (HRR (proj1 Hok)) HN)|intros; eapply eok_r; eassumption]|].
    intros (n1 & s1) (ps & t & Hps & Hn). cbn [fst] in Hn. subst n1. rewrite check_r_threshold. cbn [cbind].
    destruct (hint hint_r t) as [h|] eqn:Eh; [exact I|]. destruct t as [v|]; [|discriminate]. cbn [opt_node]. rewrite eval_rlist.
    eapply ep_bind_with; [apply (ep_r_loop D W v _ ps [] Hps)|]. intros o (gs & ->). cbn [ep]. intros l. apply ep_ok; [apply format_r_ints|]. intros; exact I.
  - destruct Hok as (Hro & _ & Hop & _). apply Forall_app in HN as (HN & HZ). inversion_clear HZ as [|? ? Hz _]. unfold execute_r_roll_comp. cbn [is_basic_op].
    eapply ep_bind_with; [apply ep_va_cmp; [apply (ep_va_r D W (r :: rs) th (HRR Hro) HN)|exact Hz]|]. intros n (m & w & (ps & t' & Hps & ->) & ->). rewrite set_threshold. cbn [cbind].
    set (v := match t' with Some v => v | None => w end).
    apply ep_ok; [apply notates_command, notates_cmp; [intros w'; eapply (eok_r W); exists ps, (Some v); split; [exact Hps|reflexivity]|apply notates_int]|]. intros s1.
    change (NInt v) with (opt_node (Some v)) at 1. rewrite check_r_threshold. cbn [cbind]. destruct (hint hint_r (Some v)) as [h|]; [exact I|].
    change (eval mr (NCommand CRRollComp (NInfix (OpCmp op) (NRRollList (map (lit_roll KR) ps) (NInt v)) (NInt w)))) with
      (eval_r_roll_comp op (Some (eval mr (NRRollList (map (lit_roll KR) ps) (NInt v)))) (Some (CRet (OInt w)))).
    eapply ep_bind_with with (R := fun o => exists gs k, o = ORRollComp (map ints gs) k).
    + unfold eval_r_roll_comp. eapply ep_bind_with; [apply ep_operands with (P := fun o => exists gs, o = OArray (map ints gs)) (R := fun o => o = OInt w); [|reflexivity]|].
      * rewrite eval_rlist. apply (ep_r_loop D W v _ ps [] Hps).
      * intros (o1 & o2) ((gs & H1) & H2). cbn in H1, H2. subst. eapply ep_bind_with; [apply ep_count_groups; exact Hop|]. intros k _. cbn. exists gs, k. reflexivity.
    + intros o (gs & k & ->). cbn [ep]. intros l. apply ep_ok; [apply format_r_ints|]. intros; exact I.
  - apply Forall_app in HN as (HN & HB). unfold execute_u_roll_expr. eapply ep_bind_with; [apply ep_args_notation with (P := es_u W); [apply (ep_va_u D W (r :: rs) th b (HRR (proj1 Hok)) HN HB)|intros; eapply eok_u; eassumption]|].
    intros (n1 & s1) (ps & t & m & Hps & Hm & Hn). cbn [fst] in Hn. subst n1. rewrite check_u_threshold. cbn [cbind].
    destruct (hint hint_u t) as [h|] eqn:Eh; [exact I|]. destruct t as [v|]; [|discriminate]. cbn [opt_node].
    eapply ep_bind_with; [apply ep_eval_uexpr; assumption|]. intros o (gs & ->). cbn [ep]. intros l.
    apply ep_ok; [apply format_u_ints|]. intros s2. apply ep_ok; [apply u_max_ints|]. intros mx. apply ep_ok; [apply u_sum_ints|]. intros; exact I.
  - destruct Hok as (Hro & _ & _ & Hop & _). apply Forall_app in HN as (HN & HB). apply Forall_app in HB as (HB & HZ). inversion_clear HZ as [|? ? Hz _]. unfold execute_u_roll_comp. cbn [is_basic_op].
    eapply ep_bind_with; [apply ep_va_cmp; [apply (ep_va_u D W (r :: rs) th b (HRR Hro) HN HB)|exact Hz]|]. intros n (n1 & w & (ps & t' & m & Hps & Hm & ->) & ->).
    apply ep_ok; [apply notates_command, notates_cmp; [intros w'; eapply (eok_u W); exists ps, t', m; auto|apply notates_int]|]. intros s1.
    rewrite check_u_threshold. cbn [cbind]. destruct (hint hint_u t') as [h|] eqn:Eh; [exact I|]. destruct t' as [v|]; [|discriminate]. cbn [opt_node].
    change (eval mr (NCommand CURollComp (NInfix (OpCmp op) (NURollExpr (map (lit_roll KU) ps) (NInt v) (lit_bonus m)) (NInt w)))) with
      (eval_u_roll_comp op (Some (eval mr (NURollExpr (map (lit_roll KU) ps) (NInt v) (lit_bonus m)))) (Some (CRet (OInt w)))).
    eapply ep_bind_with with (R := fun o => exists gs k, o = OURollComp (map ints gs) m k).
    + unfold eval_u_roll_comp. eapply ep_bind_with; [apply ep_operands with (P := fun o => exists gs, o = OURollExpr (map ints gs) m) (R := fun o => o = OInt w); [apply ep_eval_uexpr; assumption|reflexivity]|].
      intros (o1 & o2) ((gs & H1) & H2). cbn in H1, H2. subst o1 o2. destruct (sum_groups_ints gs) as (sums & -> & _). cbn [clift cbind].
      rewrite <- (map_map (fun s => wrap64 (s + m)) OInt). rewrite (count_vals op w _ Hop). cbn. eexists _, _. reflexivity.
    + intros o (gs & k & ->). cbn [ep]. intros l. apply ep_ok; [apply format_u_ints|]. intros; exact I.
  - unfold execute_choice. apply ep_ok; [apply is_ok_ok|]. intros s1. cbn [eval]. unfold eval_choice. cbn [cbind ep].
    split; [split; intros; destruct items; [congruence|cbn [length] in *; lia|congruence|lia]|]. intros ds Hr _. apply rolled_one in Hr as (H1 & d & -> & Hd).
    destruct ((wrap64 (die_value d - 1) <? 0) || (Z.of_nat (length items) <=? wrap64 (die_value d - 1))); [exact I|].
    destruct (nth_error items (Z.to_nat (wrap64 (die_value d - 1)))) as [it|]; [cbn; intros; exact I|exact I].
Qed.
