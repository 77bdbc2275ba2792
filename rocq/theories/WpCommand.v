(** The only panics of commands. *)
From Verif Require Import ProofBase Dice SpecDice DiceProofs Comp CompProofs Ast Eval Notation NotationProofs Command
  SpecSyntax ArithProofs SpecRoll SpecLists SpecCounts YieldsProofs DRollProofs WpProofs WpEval ListProofs RerollProofs ExplodeProofs.
Open Scope list_scope.
Open Scope Z_scope.

Section S.
  Variable D : die -> Prop.
  Variable Q : string -> Prop.
  Notation wp := (wp D Q).
  (** Counts that cause no panic outside Q; rolls with such counts *)
  Definition calm (x : Z) : Prop := x <= max_alloc_16 \/ Q alloc_panic.
  Definition calm_operand (n : rexpr) : Prop := forall ops x, Forall D ops -> operand_value n ops x -> calm x.
  Definition calm_roll (r : roll) : Prop := calm_operand (fst r).
  Lemma calm_le x y : calm y -> x <= y -> calm x.
  Proof. intros [H|H] Hl; [left; lia|right; exact H]. Qed.

  Lemma wp_itree_val mr e : wp (eval mr (itree e)) (fun o => exists v, o = OInt v /\ has_value e v).
  Proof.
    rewrite eval_itree. unfold oint. apply wp_clift.
    - intros a H. destruct (mach e) as [v|?|?] eqn:E; try discriminate. injection H as <-. exists v. split; [reflexivity|]. apply has_value_mach. exact E.
    - intros p H. destruct (mach e) as [v|?|q] eqn:E; try discriminate. exfalso. eapply mach_no_panic. exact E.
  Qed.
  Lemma wp_random_val lo hi x y : iok lo -> iok hi -> has_value lo x -> has_value hi y ->
    wp (eval_random_number x y) (fun o => exists v ops, o = OInt v /\ Forall D ops /\ operand_leaf (RRand lo hi) ops v).
  Proof.
    intros Hlo Hhi Hx Hy. unfold eval_random_number. destruct (y <=? x) eqn:E; [exact I|]. cbn [WpProofs.wp]. split; [left; unfold max_alloc_16; lia|].
    intros ds Hr Hd. apply rolled_one in Hr as (H1 & d & -> & Hs).
    apply has_value_mach in Hx as Hx', Hy as Hy'. pose proof (mach_range _ _ Hlo Hx') as Rx. pose proof (mach_range _ _ Hhi Hy') as Ry.
    assert (y - x + 1 <= max_int) as Hm.
    { destruct (Z_le_gt_dec (y - x + 1) max_int) as [H|H]; [exact H|exfalso].
      rewrite wrap64_add_l in H1. assert (wrap64 (y - x + 1) = y - x + 1 - 2 ^ 64) as Ew.
      { rewrite <- (wrap64_id (y - x + 1 - 2 ^ 64)) by (unfold in_int64, min_int, max_int, two63 in *; lia).
        replace (y - x + 1 - 2 ^ 64) with (y - x + 1 + (-1) * 2 ^ 64) by lia. unfold wrap64, two64, two63. change (2 ^ 64) with 18446744073709551616.
        replace (y - x + 1 + -1 * 18446744073709551616 + 9223372036854775808) with (y - x + 1 + 9223372036854775808 + -1 * 18446744073709551616) by lia.
        rewrite Z_mod_plus_full. reflexivity. }
      rewrite Ew in H1. unfold in_int64, min_int, max_int, two63 in *. lia. }
    assert (wrap64 (wrap64 (y - x) + 1) = y - x + 1) as Es.
    { rewrite wrap64_add_l. apply wrap64_id. unfold in_int64, min_int, max_int, two63 in *. lia. }
    cbn. eexists. exists [d]. split; [reflexivity|]. split; [exact Hd|]. exists x, y, d. split; [exact Hx|]. split; [exact Hy|]. split; [lia|]. split; [exact Hm|]. split; [reflexivity|]. split; [congruence|]. apply wrap64_add_l.
  Qed.
  Lemma wp_rtree_val mr e : rok e -> wp (eval mr (rtree e)) (fun o => exists v ops, o = OInt v /\ Forall D ops /\ operand_value e ops v).
  Proof.
    induction e as [[v|lo hi]|e IH|op a IHa b IHb]; intros Hok.
    - cbn. exists v, []. split; [reflexivity|]. split; [constructor|]. apply operand_leaf_value. split; reflexivity.
    - change (rtree (Leaf (RRand lo hi))) with (NInfix (OpVar KRand) (itree lo) (itree hi)). cbn [eval]. destruct Hok as (Hlo & Hhi).
      rewrite !itree_not_null. unfold eval_infix. eapply wp_bind_with; [apply wp_operands; apply wp_itree_val|].
      intros (p & q) ((x & Hx & Vx) & (y & Hy & Vy)). cbn in Hx, Hy. subst. cbn [op_string].
      eapply wp_mono; [apply (wp_random_val lo hi x y Hlo Hhi Vx Vy)|]. intros o (v & ops & H1 & H2 & H3). exists v, ops. repeat split; try assumption. apply operand_leaf_value. exact H3.
    - change (rtree (Neg e)) with (NNeg (rtree e)). cbn [eval]. rewrite rtree_not_null. cbn [eval_prefix].
      eapply wp_bind_with; [exact (IH Hok)|]. intros o (v & ops & -> & Hd & Hv). cbn. eexists. exists ops. split; [reflexivity|]. split; [exact Hd|]. apply operand_neg. exists v. split; [exact Hv|reflexivity].
    - destruct Hok as (Ha & Hb). change (rtree (Bin op a b)) with (NInfix (arith_op op) (rtree a) (rtree b)). cbn [eval]. rewrite !rtree_not_null.
      unfold eval_infix. eapply wp_bind_with; [apply wp_operands; [exact (IHa Ha)|exact (IHb Hb)]|].
      intros (p & q) ((x & d1 & Hx & D1 & V1) & (y & d2 & Hy & D2 & V2)). cbn in Hx, Hy. subst.
      assert (match arith_op op with OpDiv m => eval_int_divide m x y | _ => eval_int_infix (op_string (arith_op op)) x y end
        = oint (mach_op op x y)) as E.
      { rewrite <- (eval_arith_op op (CRet (OInt x)) (CRet (OInt y)) x y eq_refl eq_refl). reflexivity. }
      change (wp (match arith_op op with OpDiv m => eval_int_divide m x y | _ => eval_int_infix (op_string (arith_op op)) x y end)
        (fun o => exists v ops, o = OInt v /\ Forall D ops /\ operand_value (Bin op a b) ops v)).
      rewrite E. unfold oint. apply wp_clift.
      + intros o H. destruct (mach_op op x y) as [v|?|?] eqn:Ev; try discriminate. injection H as <-. exists v, (d1 ++ d2). split; [reflexivity|]. split; [apply Forall_app; tauto|].
        apply operand_bin. exists d1, d2, x, y. tauto.
      + intros p H. destruct (mach_op op x y) as [v|?|?] eqn:Ev; try discriminate. exfalso. eapply mach_op_no_panic. exact Ev.
  Qed.
  Definition fine_roll (r : roll) : Prop := Q alloc_panic \/ roll_ok r.
  Lemma fine_rolls rs : Forall roll_ok rs -> Forall fine_roll rs.
  Proof. apply Forall_impl. intros r H. right. exact H. Qed.
  Lemma wp_roll_args_calm mr n s : Q alloc_panic \/ rok n -> calm_operand n -> wp (eval_roll_args mr (rtree n) (rtree s)) (fun p => exists x y, p = (NInt x, NInt y) /\ calm x).
  Proof.
    intros [HQ|Hn] Hc; unfold eval_roll_args.
    { eapply wp_bind_with; [apply wp_rtree|]. intros o (x & ->). eapply wp_bind_with; [apply wp_rtree|]. intros o (y & ->). cbn. exists x, y. split; [reflexivity|right; exact HQ]. }
    eapply wp_bind_with; [exact (wp_rtree_val mr n Hn)|]. intros o (x & ops & -> & Hd & Hv).
    eapply wp_bind_with; [apply wp_rtree|]. intros o (y & ->). cbn. exists x, y. split; [reflexivity|exact (Hc ops x Hd Hv)].
  Qed.
  Definition calm_leaf (m : mleaf) : Prop := match m with MInt _ => True | MDice x _ => calm x end.
  Lemma wp_va_dtree_calm mr e : dok e -> Forall calm_roll (d_rolls e) -> wp (va_child mr (dtree e)) (fun n => exists mid, n = tree mleaf_tree mid /\ all_leaves calm_leaf mid).
  Proof.
    induction e as [[v|lo hi|n s]|e IH|op a IHa b IHb]; intros Hok Hc.
    - cbn. exists (Leaf (MInt v)). split; [reflexivity|exact I].
    - exact I.
    - change (va_child mr (dtree (Leaf (DDice n s)))) with
        ('(l', r') <- eval_roll_args mr (rtree n) (rtree s) ;; CRet (NInfix (OpVar KD) l' r')). destruct Hok as (Hn & Hs). cbn [d_rolls] in Hc. inversion_clear Hc.
      eapply wp_bind_with; [apply (wp_roll_args_calm mr n s (or_intror Hn) H)|]. intros p (x & y & -> & Hx). cbn. exists (Leaf (MDice x y)). split; [reflexivity|exact Hx].
    - change (dtree (Neg e)) with (NNeg (dtree e)). rewrite va_child_neg, eval_var_args_neg.
      eapply wp_bind_with; [exact (IH Hok Hc)|]. intros m (mid & -> & Hm). cbn. exists (Neg mid). split; [reflexivity|exact Hm].
    - change (dtree (Bin op a b)) with (NInfix (arith_op op) (dtree a) (dtree b)). rewrite va_child_arith, eval_var_args_arith.
      destruct Hok as (Oa & Ob). cbn [d_rolls] in Hc. apply Forall_app in Hc as (Ca & Cb).
      eapply wp_bind_with; [exact (IHa Oa Ca)|]. intros m (mid & -> & H1).
      eapply wp_bind_with; [exact (IHb Ob Cb)|]. intros m (mid2 & -> & H2). cbn. exists (Bin op mid mid2). split; [reflexivity|split; assumption].
  Qed.
  Lemma wp_dv_calm mid : all_leaves calm_leaf mid -> wp (dv_child (tree mleaf_tree mid)) (fun n => exists fin, n = tree sleaf_tree fin).
  Proof.
    induction mid as [[v|x y]|e IH|op a IHa b IHb]; intros Hc.
    - cbn. exists (Leaf (SInt v)). reflexivity.
    - change (dv_child (tree mleaf_tree (Leaf (MDice x y)))) with (CRoll x y (fun ds => CRet (NSumRoll ds))). cbn [WpProofs.wp].
      split; [exact Hc|]. intros ds _ _. exists (Leaf (SRoll ds)). reflexivity.
    - change (tree mleaf_tree (Neg e)) with (NNeg (tree mleaf_tree e)).
      change (dv_child (NNeg (tree mleaf_tree e))) with (determine_values (NNeg (tree mleaf_tree e))). rewrite determine_neg.
      eapply wp_bind_with; [exact (IH Hc)|]. intros m (fin & ->). cbn. exists (Neg fin). reflexivity.
    - change (tree mleaf_tree (Bin op a b)) with (NInfix (arith_op op) (tree mleaf_tree a) (tree mleaf_tree b)).
      rewrite dv_child_arith, determine_infix. destruct Hc as (Ca & Cb).
      eapply wp_bind_with; [exact (IHa Ca)|]. intros m (f1 & ->).
      eapply wp_bind_with; [exact (IHb Cb)|]. intros m (f2 & ->). cbn. exists (Bin op f1 f2). reflexivity.
  Qed.

  Definition calm_pair (p : Z * Z) : Prop := calm (fst p).
  Lemma wp_va_rolls mr k rs : k <> KRand -> Forall fine_roll rs -> Forall calm_roll rs ->
    wp (var_args_rolls mr (map (roll_tree k) rs)) (fun vs => exists ps, length ps = length rs /\ Forall calm_pair ps /\ vs = map (lit_roll k) ps).
  Proof.
    intros Hk. induction rs as [|(n & s) rs IH]; intros Hok Hc; cbn [map roll_tree fst snd var_args_rolls].
    - cbn. exists []. split; [reflexivity|]. split; [constructor|reflexivity].
    - assert (var_args_of_vroll mr k (rtree n) (rtree s) = eval_roll_args mr (rtree n) (rtree s)) as -> by (destruct k; try reflexivity; contradiction).
      inversion_clear Hok as [|? ? O1 Os]. assert (Q alloc_panic \/ rok n) as On by (destruct O1 as [O1|(O1 & _)]; [left; exact O1|right; exact O1]). inversion_clear Hc as [|? ? C1 C2]. cbn [fst snd] in *.
      eapply wp_bind_with; [apply (wp_roll_args_calm mr n s On C1)|]. intros p (x & y & -> & Hx).
      eapply wp_bind_with; [exact (IH Os C2)|]. intros vs (ps & Hl & Hp & ->). cbn. exists ((x, y) :: ps). cbn. split; [congruence|]. split; [constructor; assumption|reflexivity].
  Qed.
  Lemma wp_va_threshold mr th : wp (var_args_threshold mr (th_tree th)) (fun n => exists t, n = opt_node t).
  Proof.
    unfold var_args_threshold. destruct th as [e|]; cbn [th_tree].
    - rewrite itree_not_null. assert (is_nil (itree e) = false) as -> by (destruct e; reflexivity).
      eapply wp_bind_with; [apply wp_itree|]. intros o (v & ->). cbn. exists (Some v). reflexivity.
    - cbn. exists None. reflexivity.
  Qed.
  Lemma wp_va_bonus mr b : wp (var_args_bonus mr (bonus_tree b)) (fun o => exists m, in_int64 m /\ o = lit_bonus m).
  Proof.
    destruct b as [[sgn e]|].
    - assert (bonus_tree (Some (sgn, e)) = Some (Bonus (if sgn then OpAdd else OpSub) (NInt 0) (itree e))) as -> by (destruct sgn; reflexivity).
      cbn [var_args_bonus]. eapply wp_bind_with with (R := fun o => exists m, in_int64 m /\ o = OInt m).
      + unfold operand. rewrite itree_not_null. cbn [is_null]. unfold eval_infix.
        eapply wp_bind_with; [apply wp_operands with (P := fun o => o = OInt 0) (R := obj_is_int); [reflexivity|apply wp_itree]|].
        intros (p & q) (Hp & v & Hq). cbn in Hp, Hq. subst. destruct sgn; cbn; (eexists; split; [|reflexivity]; apply wrap64_range).
      + intros o (m & Hm & ->). cbn. exists m. split; [exact Hm|reflexivity].
    - cbn. exists 0. split; [unfold in_int64, min_int, max_int, two63; lia|reflexivity].
  Qed.

  Lemma wp_basic_roll x y : calm x -> wp (eval_basic_roll x y) (fun o => exists vs, Z.of_nat (length vs) = x /\ o = ints vs).
  Proof.
    intros Hc. cbn. split; [exact Hc|]. intros ds (_ & _ & Hl & _) _. exists (values ds). split; [unfold values; rewrite map_length; exact Hl|]. unfold ints, values. rewrite map_map. reflexivity.
  Qed.
  Lemma wp_b_list k ps : k = KB \/ k = KR -> Forall calm_pair ps -> forall vs,
    wp (eval_b_roll_list (map (lit_q k) ps) (map OInt vs)) (fun o => exists vs, o = ints vs).
  Proof.
    intros Hk Hc. induction Hc as [|p ps Hp Hc IH]; intros vs; cbn [map eval_b_roll_list].
    - cbn. exists vs. reflexivity.
    - rewrite (eval_qroll_lit k p Hk). eapply wp_bind_with; [apply wp_basic_roll; exact Hp|]. intros o (ws & _ & ->). unfold ints. rewrite <- map_app. apply IH.
  Qed.
  Lemma wp_r_loop t n : forall ps (gs : list (list Z)), Forall calm_pair ps ->
    wp (eval_r_loop n t (map (lit_q KR) ps) (map ints gs)) (fun o => exists gs, (length gs <= n + length gs)%nat /\ o = OArray (map ints gs)).
  Proof.
    induction n as [|n IH]; intros ps gs Hc.
    - cbn. exists gs. split; [lia|reflexivity].
    - destruct ps as [|p ps]; cbn [map eval_r_loop].
      + cbn. exists gs. split; [lia|reflexivity].
      + inversion_clear Hc as [|? ? Hp Hc']. rewrite (eval_qroll_lit KR p (or_intror eq_refl)). eapply wp_bind_with; [apply wp_basic_roll; exact Hp|]. intros o (vs & Hl & ->). cbn [ints].
        rewrite count_ge_vals. set (k := 0 + _).
        assert (calm k) as Hk by (apply (calm_le _ _ Hp); unfold k; rewrite <- Hl; pose proof (filter_length_le (fun v => t <=? v) vs); lia).
        change [OArray (map OInt vs)] with (map ints [vs]). rewrite <- map_app.
        destruct (0 <? k).
        * change [QRoll KR (Some (CRet (OInt k))) (q_sides (lit_q KR p))] with (map (lit_q KR) [(k, snd p)]). rewrite <- map_app.
          eapply wp_mono; [apply IH; apply Forall_app; split; [exact Hc'|constructor; [exact Hk|constructor]]|]. intros o (g & _ & ->). exists g. split; [lia|reflexivity].
        * eapply wp_mono; [apply IH; exact Hc'|]. intros o (g & _ & ->). exists g. split; [lia|reflexivity].
  Qed.
  Lemma wp_u_chain y t n : forall vs, wp (eval_u_chain n y t (map OInt vs)) (fun g => exists vs, g = map OInt vs).
  Proof.
    induction n as [|n IH]; intros vs; cbn [eval_u_chain].
    - cbn. exists vs. reflexivity.
    - cbn [WpProofs.wp]. split; [left; unfold max_alloc_16; lia|]. intros ds Hr _. apply rolled_one in Hr as (_ & d & -> & _).
      change [OInt (die_value d)] with (map OInt [die_value d]). rewrite <- map_app.
      destruct (die_value d <? t); [cbn; eexists; reflexivity|apply IH].
  Qed.
  Lemma wp_u_groups mr y t n : forall gs, wp (eval_u_groups mr n y t (map ints gs)) (fun o => exists gs', (length gs' = n + length gs)%nat /\ o = map ints gs').
  Proof.
    induction n as [|n IH]; intros gs; cbn [eval_u_groups].
    - cbn. exists gs. split; reflexivity.
    - eapply wp_bind_with; [apply (wp_u_chain y t _ [])|]. intros g (vs & ->).
      change [OArray (map OInt vs)] with (map ints [vs]). rewrite <- map_app. eapply wp_mono; [apply IH|].
      intros o (g & Hg & ->). exists g. rewrite app_length in Hg. cbn in Hg. split; [lia|reflexivity].
  Qed.
  Lemma wp_compounding mr t p : calm_pair p -> wp (eval_compounding_roll mr (lit_q KU p) t) (fun o => exists gs, gs <> [] /\ o = map ints gs).
  Proof.
    intros Hc. unfold eval_compounding_roll. cbn [lit_q q_kind q_num q_sides eval_operands cbind].
    destruct (snd p <? 1) eqn:E1; [exact I|]. destruct (fst p <? 1) eqn:E2; [exact I|].
    destruct (max_alloc_16 <? fst p) eqn:E3; [destruct Hc as [Hc|Hc]; [lia|exact Hc]|].
    eapply wp_mono; [apply (wp_u_groups mr (snd p) t _ [])|]. intros o (g & Hg & ->). exists g. split; [|reflexivity].
    intros ->. cbn in Hg. lia.
  Qed.
  Lemma wp_u_rolls mr t ps : Forall calm_pair ps -> forall gs, wp (eval_u_rolls mr (map (lit_q KU) ps) t (map ints gs))
    (fun o => exists gs', (gs <> [] \/ ps <> [] -> gs' <> []) /\ o = map ints gs').
  Proof.
    induction 1 as [|p ps Hp Hc IH]; intros gs; cbn [map eval_u_rolls].
    - cbn. exists gs. split; [tauto|reflexivity].
    - eapply wp_bind_with; [apply (wp_compounding _ _ _ Hp)|]. intros o (g & Hg & ->). rewrite <- map_app. eapply wp_mono; [apply IH|].
      intros o (g' & Hg' & ->). exists g'. split; [|reflexivity]. intros _. apply Hg'. left. destruct gs; [exact Hg|discriminate].
  Qed.

  Lemma wp_count op w vs acc : is_compare_op op -> wp (count_successes (map OInt vs) op w acc) (fun _ => True).
  Proof. intros Hop. rewrite (count_vals op w vs Hop). exact I. Qed.
  Lemma wp_count_groups op w gs : is_compare_op op -> forall acc, wp (count_group_successes (map ints gs) op w acc) (fun _ => True).
  Proof.
    intros Hop. induction gs as [|g gs IH]; intros acc; [exact I|]. cbn [map ints count_group_successes].
    rewrite (count_vals op w g Hop). apply IH.
  Qed.
  Lemma sum_groups_ints gs : exists sums, sum_of_groups (map ints gs) = Ok sums /\ length sums = length gs.
  Proof.
    induction gs as [|g gs (s & Hs & Hl)]; [exists []; split; reflexivity|]. cbn [map ints sum_of_groups].
    rewrite sum_vals, Hs. eexists. split; [reflexivity|]. cbn. congruence.
  Qed.
  Lemma format_r_ints gs : is_ok (format_r_roll_values (map ints gs)).
  Proof.
    unfold format_r_roll_values. apply is_ok_bind; [|intros; apply is_ok_ok].
    induction gs as [|g gs IH]; [apply is_ok_ok|]. cbn [map ints format_r_groups]. apply is_ok_bind; [exact IH|intros; apply is_ok_ok].
  Qed.
  Lemma format_u_ints gs m : is_ok (format_u_value_groups (map ints gs) m).
  Proof.
    unfold format_u_value_groups. destruct (sum_groups_ints gs) as (sums & -> & Hl). cbn [obind]. apply is_ok_bind; [|intros; apply is_ok_ok].
    revert sums Hl. induction gs as [|g gs IH]; intros sums Hl; [apply is_ok_ok|]. destruct sums as [|s sums]; [discriminate|].
    cbn [map ints format_u_groups]. apply is_ok_bind; [apply IH; injection Hl; auto|intros; apply is_ok_ok].
  Qed.
  Lemma u_max_ints gs m : is_ok (u_max_value (map ints gs) m).
  Proof.
    unfold u_max_value. destruct (sum_groups_ints gs) as (sums & -> & Hl). cbn [obind]. destruct sums as [|s sums]; [eexists; reflexivity|].
    cbn [map max_integer]. destruct (max_loop_spec sums s) as (v & -> & _). apply is_ok_ok.
  Qed.
  Lemma u_sum_ints gs m : is_ok (u_sum_of_values (map ints gs) m).
  Proof.
    unfold u_sum_of_values. destruct (sum_groups_ints gs) as (sums & -> & Hl). cbn [obind]. rewrite sum_vals. apply is_ok_ok.
  Qed.
  Lemma wp_ok {A B} (o : outcome A) (f : A -> comp B) (P : B -> Prop) : is_ok o -> (forall a, wp (f a) P) -> wp (cbind (clift o) f) P.
  Proof. intros (a & ->) H. cbn. apply H. Qed.

  Notation mr := default_max_rerolls.
  Lemma wp_va_cmp op n t (P : node -> Prop) : wp (eval_var_args mr n) P ->
    wp (eval_var_args mr (NInfix (OpCmp op) n (itree t))) (fun n' => exists m w, P m /\ n' = NInfix (OpCmp op) m (NInt w)).
  Proof.
    intros H. rewrite cmp_va. eapply wp_bind_with; [exact H|]. intros m Hm. eapply wp_bind_with; [apply wp_itree|]. intros o (w & ->).
    cbn. exists m, w. split; [exact Hm|reflexivity].
  Qed.
  Lemma wp_args_notation n (P : node -> Prop) : wp (eval_var_args mr n) P -> (forall n', P n' -> is_ok (infix_notation n' true)) ->
    wp (eval_var_args_notation mr n) (fun p => P (fst p)).
  Proof.
    intros H Hn. unfold eval_var_args_notation. eapply wp_bind_with; [exact H|]. intros n' Hn'. destruct (Hn n' Hn') as (s & ->). cbn. exact Hn'.
  Qed.
  Definition settled_b (n : node) : Prop := exists ps, Forall calm_pair ps /\ n = NBRollList (map (lit_roll KB) ps).
  Definition settled_r (n : node) : Prop := exists ps t, Forall calm_pair ps /\ n = NRRollList (map (lit_roll KR) ps) (opt_node t).
  Definition settled_u (n : node) : Prop := exists ps t m, Forall calm_pair ps /\ ps <> [] /\ in_int64 m /\ n = NURollExpr (map (lit_roll KU) ps) (opt_node t) (lit_bonus m).
  Lemma wp_va_b rs : Forall fine_roll rs -> Forall calm_roll rs -> wp (eval_var_args mr (NBRollList (map (roll_tree KB) rs))) settled_b.
  Proof.
    intros Ho Hc. cbn [eval_var_args]. eapply wp_bind_with; [apply wp_va_rolls; [discriminate|exact Ho|exact Hc]|]. intros vs (ps & _ & Hp & ->). cbn. exists ps. split; [exact Hp|reflexivity].
  Qed.
  Lemma wp_va_r rs th : Forall fine_roll rs -> Forall calm_roll rs -> wp (eval_var_args mr (NRRollList (map (roll_tree KR) rs) (th_tree th))) settled_r.
  Proof.
    intros Ho Hc. cbn [eval_var_args]. eapply wp_bind_with; [apply wp_va_threshold|]. intros n (t & ->).
    eapply wp_bind_with; [apply wp_va_rolls; [discriminate|exact Ho|exact Hc]|]. intros vs (ps & _ & Hp & ->). cbn. exists ps, t. split; [exact Hp|reflexivity].
  Qed.
  Lemma wp_va_u r rs th b : Forall fine_roll (r :: rs) -> Forall calm_roll (r :: rs) -> wp (eval_var_args mr (NURollExpr (map (roll_tree KU) (r :: rs)) (th_tree th) (bonus_tree b))) settled_u.
  Proof.
    intros Ho Hc. cbn [eval_var_args]. eapply wp_bind_with; [apply wp_va_threshold|]. intros n (t & ->).
    eapply wp_bind_with; [apply wp_va_rolls; [discriminate|exact Ho|exact Hc]|]. intros vs (ps & Hl & Hp & ->).
    eapply wp_bind_with; [apply wp_va_bonus|]. intros o (m & Hm & ->). cbn. exists ps, t, m. split; [exact Hp|]. repeat split; try apply Hm. destruct ps; discriminate.
  Qed.
  Lemma ok_b n : settled_b n -> forall w, is_ok (infix_notation n w).
  Proof. intros (ps & _ & ->) w. rewrite notation_blist. unfold rolls_text. rewrite collect_lit by discriminate. apply is_ok_ok. Qed.
  Lemma ok_r n : settled_r n -> forall w, is_ok (infix_notation n w).
  Proof. intros (ps & t & _ & ->) w. rewrite notation_rlist, rlist_text_lit by discriminate. apply is_ok_ok. Qed.
  Lemma ok_u n : settled_u n -> forall w, is_ok (infix_notation n w).
  Proof. intros (ps & t & m & _ & _ & _ & ->) w. rewrite notation_uexpr_lit. apply is_ok_ok. Qed.
  Lemma ok_cmp op n v : (forall w, is_ok (infix_notation n w)) -> forall w, is_ok (infix_notation (NInfix (OpCmp op) n (NInt v)) w).
  Proof. intros H w. apply notates_cmp; [exact H|apply notates_int]. Qed.

  Lemma wp_eval_uexpr ps v m : Forall calm_pair ps -> ps <> [] -> in_int64 m ->
    wp (eval mr (NURollExpr (map (lit_roll KU) ps) (NInt v) (lit_bonus m))) (fun o => exists gs, o = OURollExpr (map ints gs) m).
  Proof.
    intros Hc Hps Hm. rewrite (eval_uexpr ps v m Hm). eapply wp_bind_with; [apply (wp_u_rolls mr v ps Hc [])|]. intros o (gs & Hg & ->). cbn. exists gs. reflexivity.
  Qed.

  Definition d_settled (m : node) : Prop :=
    (exists mid, m = tree mleaf_tree mid /\ all_leaves calm_leaf mid) \/ (exists lo hi, m = NInfix (OpVar KRand) (itree lo) (itree hi)) \/
    (exists a b, m = NInfix (OpVar KD) (rtree a) (rtree b) /\ calm_operand a).
  Lemma wp_va_top_calm mr e : dok e -> Forall calm_roll (d_rolls e) -> wp (eval_var_args mr (dtree e)) d_settled.
  Proof.
    intros Hok Hc. destruct e as [[v|lo hi|a b]|e|op a b].
    - exact I.
    - change (dtree (Leaf (DRand lo hi))) with (NInfix (OpVar KRand) (itree lo) (itree hi)).
      rewrite eval_var_args_var, !va_child_itree. cbn. right. left. exists lo, hi. reflexivity.
    - change (dtree (Leaf (DDice a b))) with (NInfix (OpVar KD) (rtree a) (rtree b)). rewrite eval_var_args_var.
      destruct (va_rtree mr a) as [->|(m & ->)]; [|exact I]. destruct (va_rtree mr b) as [->|(m & ->)]; [|exact I].
      cbn. right. right. exists a, b. split; [reflexivity|]. cbn [d_rolls] in Hc. inversion_clear Hc. assumption.
    - eapply wp_mono; [apply (wp_va_dtree_calm mr (Neg e) Hok Hc)|]. intros n H. left. exact H.
    - pose proof (wp_va_dtree_calm mr (Bin op a b) Hok Hc) as H. unfold dtree in H. cbn [tree] in H. rewrite va_child_arith in H.
      eapply wp_mono; [exact H|]. intros n Hn. left. exact Hn.
  Qed.
  Lemma wp_dv_settled m : d_settled m -> wp (dv_child m) (fun n => exists fin, n = tree sleaf_tree fin).
  Proof.
    intros [(mid & -> & Hc)|[(lo & hi & ->)|(a & b & -> & Hc)]].
    - apply wp_dv_calm, Hc.
    - exact I.
    - change (dv_child (NInfix (OpVar KD) (rtree a) (rtree b))) with (determine_d_roll (rtree a) (rtree b)).
      destruct a as [[x|]|a|op1 a1 a2]; try exact I. destruct b as [[y|]|b|op2 b1 b2]; try exact I.
      apply (wp_dv_calm (Leaf (MDice x y))). apply (Hc [] x); [constructor|]. apply operand_leaf_value. split; reflexivity.
  Qed.

  (** a CHOICE has no more items than an int can count (a Go slice cannot) *)
  Definition countable (c : command) : Prop := match c with Choose items => Z.of_nat (length items) <= max_int | _ => True end.
  Hypothesis HD : forall d, D d -> legal d.
  Lemma wp_execute gid c : command_ok c -> countable c -> Forall calm_roll (rolls_of c) -> wp (execute mr gid (command_tree c)) (fun _ => True).
  Proof.
    destruct c as [e|e|e op t|r rs|r rs op t|r rs th|r rs th op t|r rs th b|r rs th b op t|items]; intros Hok Hcount Hcalm; cbn [command_tree execute rolls_of] in *.
    - unfold execute_calc. apply wp_ok; [apply (notates_command_tree (Calculation e))|]. intros s. cbn [eval].
      eapply wp_bind_with; [apply wp_itree|]. intros; exact I.
    - unfold execute_d_roll_expr. eapply wp_bind_with with (R := fun p => exists mid, fst p = NCommand CDRollExpr (tree mleaf_tree mid) /\ all_leaves calm_leaf mid).
      + apply wp_args_notation with (P := fun n => exists mid, n = NCommand CDRollExpr (tree mleaf_tree mid) /\ all_leaves calm_leaf mid).
        * rewrite eval_var_args_command. eapply wp_bind_with; [apply (wp_va_dtree_calm _ e Hok Hcalm)|]. intros n (mid & -> & Hm). cbn. exists mid. split; [reflexivity|exact Hm].
        * intros n' (mid & -> & _). apply notates_command, notates_mtree.
      + intros (n1 & s1) (mid & Hn & Hm). cbn [fst] in Hn. subst n1. rewrite determine_command.
        eapply wp_bind_with with (R := fun n => exists fin, n = NCommand CDRollExpr (tree sleaf_tree fin)).
        * eapply wp_bind_with; [apply wp_dv_calm; exact Hm|]. intros n (fin & ->). cbn. exists fin. reflexivity.
        * intros n (fin & ->). apply wp_ok; [apply notates_command, notates_stree|]. intros s2. cbn [eval]. rewrite eval_stree.
          eapply wp_bind_with; [apply wp_itree|]. intros; exact (fun _ => I).
    - destruct Hok as (Hd & Hop & Ht). unfold execute_d_roll_comp.
      eapply wp_bind_with with (R := fun p => exists m w, fst p = NInfix (OpCmp op) m (NInt w) /\ d_settled m).
      + apply wp_args_notation with (P := fun n => exists m w, n = NInfix (OpCmp op) m (NInt w) /\ d_settled m).
        * eapply wp_mono; [apply wp_va_cmp with (P := d_settled)|].
          -- apply (wp_va_top_calm _ e Hd Hcalm).
          -- intros n (m & w & Hm & ->). exists m, w. split; [reflexivity|exact Hm].
        * intros n (m & w & -> & Hm). apply notates_cmp; [|apply notates_int].
          destruct Hm as [(mid & -> & _)|[(lo & hi & ->)|(a & b & -> & _)]]; [apply notates_mtree|apply notates_var; apply notates_itree|apply notates_var; apply notates_rtree].
      + intros (n1 & s1) (m & w & Hn & Hm). cbn [fst] in Hn. subst n1. rewrite determine_infix.
        eapply wp_bind_with with (R := fun n => exists fin, n = NInfix (OpCmp op) (tree sleaf_tree fin) (NInt w)).
        * eapply wp_bind_with; [apply wp_dv_settled; exact Hm|]. intros n (fin & ->). cbn. exists fin. reflexivity.
        * intros n (fin & ->). apply wp_ok; [apply notates_stree|]. intros s2. unfold eval_compare_left. rewrite eval_stree.
          eapply wp_bind_with with (R := fun _ => True).
          -- eapply wp_bind_with; [apply wp_itree|]. intros o (v & ->). exact I.
          -- intros v _. cbn [eval is_null]. unfold eval_infix. cbn [eval_operands cbind op_string]. rewrite (eval_compare op _ _ Hop). cbn. intros; exact I.
    - unfold execute_b_roll_list. eapply wp_bind_with; [apply wp_args_notation with (P := settled_b); [apply (wp_va_b (r :: rs) (fine_rolls _ Hok) Hcalm)|intros; apply ok_b; assumption]|].
      intros (n1 & s1) (ps & Hps & Hn). cbn [fst] in Hn. subst n1. rewrite eval_blist, to_qroll_lit.
      eapply wp_bind_with; [apply (wp_b_list KB ps (or_introl eq_refl) Hps [])|]. intros o (vs & ->). cbn. intros; exact I.
    - destruct Hok as (Hro & Hop & _). unfold execute_b_roll_comp. cbn [is_basic_op].
      eapply wp_bind_with; [apply wp_args_notation with (P := fun n => exists m w, settled_b m /\ n = NInfix (OpCmp op) m (NInt w)); [apply wp_va_cmp, (wp_va_b (r :: rs) (fine_rolls _ Hro) Hcalm)|intros n (m & w & Hm & ->); apply ok_cmp, ok_b, Hm]|].
      intros (n1 & s1) (m & w & (ps & Hps & ->) & Hn). cbn [fst] in Hn. subst n1.
      change (eval mr (NCommand CBRollComp (NInfix (OpCmp op) (NBRollList (map (lit_roll KB) ps)) (NInt w)))) with
        (eval_b_roll_comp op (Some (eval mr (NBRollList (map (lit_roll KB) ps)))) (Some (CRet (OInt w)))).
      eapply wp_bind_with with (R := fun o => exists vs k, o = OBRollComp vs k).
      + unfold eval_b_roll_comp. eapply wp_bind_with; [apply wp_operands with (P := fun o => exists vs, o = ints vs) (R := fun o => o = OInt w); [|reflexivity]|].
        * rewrite eval_blist, to_qroll_lit. apply (wp_b_list KB ps (or_introl eq_refl) Hps []).
        * intros (o1 & o2) ((vs & H1) & H2). cbn in H1, H2. subst. cbn [ints]. rewrite (count_vals op w vs Hop). cbn. eexists _, _. reflexivity.
      + intros o (vs & k & ->). cbn. intros; exact I.
    - unfold execute_r_roll_list. eapply wp_bind_with; [apply wp_args_notation with (P := settled_r); [apply (wp_va_r (r :: rs) th (fine_rolls _ (proj1 Hok)) Hcalm)|intros; apply ok_r; assumption]|].
      intros (n1 & s1) (ps & t & Hps & Hn). cbn [fst] in Hn. subst n1. rewrite check_r_threshold. cbn [cbind].
      destruct (hint hint_r t) as [h|] eqn:Eh; [exact I|]. destruct t as [v|]; [|discriminate]. cbn [opt_node]. rewrite eval_rlist.
      eapply wp_bind_with; [apply (wp_r_loop v _ ps [] Hps)|]. intros o (gs & _ & ->). cbn [WpProofs.wp]. intros l. apply wp_ok; [apply format_r_ints|]. intros; exact I.
    - destruct Hok as (Hro & _ & Hop & _). unfold execute_r_roll_comp. cbn [is_basic_op].
      eapply wp_bind_with; [apply wp_va_cmp, (wp_va_r (r :: rs) th (fine_rolls _ Hro) Hcalm)|]. intros n (m & w & (ps & t' & Hps & ->) & ->). rewrite set_threshold. cbn [cbind].
      set (v := match t' with Some v => v | None => w end).
      apply wp_ok; [apply notates_command, notates_cmp; [intros w'; apply ok_r; exists ps, (Some v); split; [exact Hps|reflexivity]|apply notates_int]|]. intros s1.
      change (NInt v) with (opt_node (Some v)) at 1. rewrite check_r_threshold. cbn [cbind]. destruct (hint hint_r (Some v)) as [h|]; [exact I|].
      change (eval mr (NCommand CRRollComp (NInfix (OpCmp op) (NRRollList (map (lit_roll KR) ps) (NInt v)) (NInt w)))) with
        (eval_r_roll_comp op (Some (eval mr (NRRollList (map (lit_roll KR) ps) (NInt v)))) (Some (CRet (OInt w)))).
      eapply wp_bind_with with (R := fun o => exists gs k, o = ORRollComp (map ints gs) k).
      + unfold eval_r_roll_comp. eapply wp_bind_with; [apply wp_operands with (P := fun o => exists gs, o = OArray (map ints gs)) (R := fun o => o = OInt w); [|reflexivity]|].
        * rewrite eval_rlist. eapply wp_mono; [apply (wp_r_loop v _ ps [] Hps)|]. intros o (gs & _ & ->). exists gs. reflexivity.
        * intros (o1 & o2) ((gs & H1) & H2). cbn in H1, H2. subst. eapply wp_bind_with; [apply wp_count_groups; exact Hop|]. intros k _. cbn. exists gs, k. reflexivity.
      + intros o (gs & k & ->). cbn [WpProofs.wp]. intros l. apply wp_ok; [apply format_r_ints|]. intros; exact I.
    - unfold execute_u_roll_expr. eapply wp_bind_with; [apply wp_args_notation with (P := settled_u); [apply (wp_va_u r rs th b (fine_rolls _ (proj1 Hok)) Hcalm)|intros; apply ok_u; assumption]|].
      intros (n1 & s1) (ps & t & m & Hcp & Hps & Hm & Hn). cbn [fst] in Hn. subst n1. rewrite check_u_threshold. cbn [cbind].
      destruct (hint hint_u t) as [h|] eqn:Eh; [exact I|]. destruct t as [v|]; [|discriminate]. cbn [opt_node].
      eapply wp_bind_with; [apply wp_eval_uexpr; assumption|]. intros o (gs & ->). cbn [WpProofs.wp]. intros l.
      apply wp_ok; [apply format_u_ints|]. intros s2. apply wp_ok; [apply u_max_ints|]. intros mx. apply wp_ok; [apply u_sum_ints|]. intros; exact I.
    - destruct Hok as (Hro & _ & _ & Hop & _). unfold execute_u_roll_comp. cbn [is_basic_op].
      eapply wp_bind_with; [apply wp_va_cmp, (wp_va_u r rs th b (fine_rolls _ Hro) Hcalm)|]. intros n (n1 & w & (ps & t' & m & Hcp & Hps & Hm & ->) & ->).
      apply wp_ok; [apply notates_command, notates_cmp; [intros w'; apply ok_u; exists ps, t', m; split; [exact Hcp|]; repeat split; try assumption; apply Hm|apply notates_int]|]. intros s1.
      rewrite check_u_threshold. cbn [cbind]. destruct (hint hint_u t') as [h|] eqn:Eh; [exact I|]. destruct t' as [v|]; [|discriminate]. cbn [opt_node].
      change (eval mr (NCommand CURollComp (NInfix (OpCmp op) (NURollExpr (map (lit_roll KU) ps) (NInt v) (lit_bonus m)) (NInt w)))) with
        (eval_u_roll_comp op (Some (eval mr (NURollExpr (map (lit_roll KU) ps) (NInt v) (lit_bonus m)))) (Some (CRet (OInt w)))).
      eapply wp_bind_with with (R := fun o => exists gs k, o = OURollComp (map ints gs) m k).
      + unfold eval_u_roll_comp. eapply wp_bind_with; [apply wp_operands with (P := fun o => exists gs, o = OURollExpr (map ints gs) m) (R := fun o => o = OInt w); [apply wp_eval_uexpr; assumption|reflexivity]|].
        intros (o1 & o2) ((gs & H1) & H2). cbn in H1, H2. subst. destruct (sum_groups_ints gs) as (sums & -> & _). cbn [clift cbind].
        rewrite <- (map_map (fun s => wrap64 (s + m)) OInt). rewrite (count_vals op w _ Hop). cbn. eexists _, _. reflexivity.
      + intros o (gs & k & ->). cbn [WpProofs.wp]. intros l. apply wp_ok; [apply format_u_ints|]. intros; exact I.
    - unfold execute_choice. apply wp_ok; [apply is_ok_ok|]. intros s1. cbn [eval]. unfold eval_choice. cbn [cbind WpProofs.wp].
      split; [left; unfold max_alloc_16; lia|]. intros ds Hr Hl. apply rolled_one in Hr as (H1 & d & -> & Hd). inversion Hl as [|? ? Hld _]; subst. apply HD in Hld.
      unfold legal in Hld. cbn [command_ok] in Hok.
      cbn [countable] in Hcount. rewrite wrap64_id by (unfold in_int64, min_int, two63; lia).
      destruct ((die_value d - 1 <? 0) || (Z.of_nat (length items) <=? die_value d - 1)) eqn:E; [lia|].
      destruct (nth_error items (Z.to_nat (die_value d - 1))) as [it|] eqn:En; [cbn; intros; exact I|].
      apply nth_error_None in En. lia.
  Qed.
End S.
