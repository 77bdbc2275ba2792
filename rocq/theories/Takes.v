(** How many dice a computation can take, whatever its outcome. *)
From Verif Require Import ProofBase Dice SpecDice DiceProofs Comp CompProofs Ast Eval Notation NotationProofs Command
  SpecSyntax ArithProofs SpecRoll SpecLists SpecCounts SpecBudget YieldsProofs DRollProofs WpProofs WpEval WpCommand ListProofs RerollProofs ExplodeProofs.
Open Scope list_scope.
Open Scope Z_scope.

Lemma roll_loop_takes n : forall num sides f o f', roll_loop n num sides [] f = (o, f') -> exists ds, draws f ds f' /\ (length ds <= n)%nat.
Proof.
  induction n as [|n IH]; intros num sides f o f' H.
  - cbn in H. injection H as _ <-. exists []. split; [constructor|cbn; lia].
  - rewrite roll_loop_S in H.
    destruct (feeder_next f sides) as [[d|e|p] f1] eqn:E.
    + destruct (die_sides d =? sides).
      * destruct (roll_loop n num sides [] f1) as [o2 f2] eqn:E2.
        destruct (IH _ _ _ _ _ E2) as (ds & Hd & Hl). exists (d :: ds). split; [|cbn; lia]. econstructor; [eassumption|].
        destruct o2; injection H as _ <-; assumption.
      * injection H as _ <-. exists [d]. split; [|cbn; lia]. econstructor; [eassumption|constructor].
    + injection H as _ <-. exists []. split; [|cbn; lia]. destruct f as [[|d q]|intn k]; cbn in E; try discriminate.
      * injection E as _ <-. constructor.
      * destruct (sides <=? 0); discriminate.
    + injection H as _ <-. exists []. split; [|cbn; lia]. destruct f as [[|d q]|intn k]; cbn in E; try discriminate.
      destruct (sides <=? 0); [|discriminate]. injection E as _ <-. constructor.
Qed.
Lemma roll_dice_takes num sides f o f' : roll_dice num sides f = (o, f') ->
  exists ds, draws f ds f' /\ (ds = [] \/ 1 <= num /\ 1 <= sides /\ Z.of_nat (length ds) <= num).
Proof.
  unfold roll_dice. intros H.
  destruct (sides <? 1) eqn:E1; [injection H as _ <-; exists []; split; [constructor|left; reflexivity]|].
  destruct (num <? 1) eqn:E2; [injection H as _ <-; exists []; split; [constructor|left; reflexivity]|].
  destruct (max_alloc_16 <? num); [injection H as _ <-; exists []; split; [constructor|left; reflexivity]|].
  destruct (roll_loop_takes _ _ _ _ _ _ H) as (ds & Hd & Hl). exists ds. split; [exact Hd|]. right. lia.
Qed.

Section S.
  Variable D : die -> Prop.
  Fixpoint tk {A} (N : Z) (c : comp A) (P : A -> Prop) : Prop :=
    match c with
    | CRet a => 0 <= N /\ P a
    | CErr _ | CPanic _ => 0 <= N
    | CRoll n s k => 0 <= N /\ (1 <= n -> 1 <= s -> n <= N) /\ forall ds, rolled n s ds -> Forall D ds -> tk (N - n) (k ds) P
    | CLog k => forall l, tk N (k l) P
    end.
  Lemma tk_nonneg {A} (c : comp A) : forall N P, tk N c P -> 0 <= N.
  Proof. induction c as [a|e|p|n s k IH|k IH]; intros N P H; cbn in H; try tauto. exact (IH [] _ _ (H [])). Qed.
  Lemma tk_mono {A} (c : comp A) : forall N N' (P P' : A -> Prop), tk N c P -> N <= N' -> (forall a, P a -> P' a) -> tk N' c P'.
  Proof.
    induction c as [a|e|p|n s k IH|k IH]; intros N N' P P' H HN HP; cbn in *; try lia.
    - split; [lia|]. apply HP, H.
    - destruct H as (H1 & H2 & H3). split; [lia|]. split; [intros; specialize (H2 H H0); lia|]. intros ds Hr Hd. eapply IH; [exact (H3 ds Hr Hd)|lia|exact HP].
    - intros l. eapply IH; [apply H|exact HN|exact HP].
  Qed.
  Lemma tk_bind {A B} (m : comp A) (f : A -> comp B) (R : A -> Prop) (P : B -> Prop) b : 0 <= b -> forall a N,
    tk a m R -> (forall x, R x -> tk b (f x) P) -> a + b <= N -> tk N (cbind m f) P.
  Proof.
    intros Hb. induction m as [x|e|p|n s k IH|k IH]; intros a N Hm Hf HN; cbn in *; try lia.
    - eapply tk_mono; [apply Hf, Hm|lia|auto].
    - destruct Hm as (H1 & H2 & H3). split; [lia|]. split; [intros; specialize (H2 H H0); lia|]. intros ds Hr Hd. eapply IH; [exact (H3 ds Hr Hd)|exact Hf|lia].
    - intros l. eapply IH; [apply Hm|exact Hf|exact HN].
  Qed.
  (** the first part takes nothing *)
  Lemma tk_bind0 {A B} (m : comp A) (f : A -> comp B) (R : A -> Prop) (P : B -> Prop) N : 0 <= N ->
    tk 0 m R -> (forall x, R x -> tk N (f x) P) -> tk N (cbind m f) P.
  Proof. intros HN H1 H2. eapply (tk_bind m f R P N HN 0); [exact H1|exact H2|lia]. Qed.
  Lemma tk_clift {A} (o : outcome A) (P : A -> Prop) N : 0 <= N -> (forall a, o = Ok a -> P a) -> tk N (clift o) P.
  Proof. intros HN H. destruct o; cbn; auto. Qed.
  (** what is computed from an outcome, which takes nothing *)
  Lemma tk_with {A B} (o : outcome A) (f : A -> comp B) (P : B -> Prop) N : 0 <= N -> (forall a, tk N (f a) P) -> tk N (cbind (clift o) f) P.
  Proof. intros HN H. destruct o; cbn; [apply H|lia|lia]. Qed.

  Lemma tk_run {A} (c : comp A) : forall N P s o s', tk N c P -> feeds D (es_feeder s) -> run c s = (o, s') ->
    exists ds, draws (es_feeder s) ds (es_feeder s') /\ Z.of_nat (length ds) <= N.
  Proof.
    induction c as [a|e|p|n sd k IH|k IH]; intros N P s o s' H Hf Hr; cbn [tk] in H; cbn [run] in Hr;
      try (injection Hr as <- <-; exists []; split; [constructor|cbn; lia]).
    - destruct H as (H1 & H2 & H3). destruct (roll_dice n sd (es_feeder s)) as [[ds|e|p] f'] eqn:E.
      + pose proof (roll_dice_ok _ _ _ _ _ E) as (K1 & K2 & K3 & K4 & K5). apply supplies_draws in K5.
        destruct (feeds_draws D _ _ _ Hf K5) as (Hd & Hf').
        destruct (IH ds (N - n) P (EState f' (es_log s ++ ds)) _ _ (H3 ds ltac:(repeat split; assumption || lia) Hd) Hf' Hr) as (ds' & D1 & D2). cbn [es_feeder] in D1.
        exists (ds ++ ds'). split; [exact (draws_app _ _ _ _ _ K5 D1)|]. rewrite app_length. lia.
      + injection Hr as <- <-. destruct (roll_dice_takes _ _ _ _ _ E) as (ds & K1 & K2). exists ds. split; [exact K1|]. destruct K2 as [->|(K2 & K3 & K4)]; [cbn; lia|]. specialize (H2 K2 K3). lia.
      + injection Hr as <- <-. destruct (roll_dice_takes _ _ _ _ _ E) as (ds & K1 & K2). exists ds. split; [exact K1|]. destruct K2 as [->|(K2 & K3 & K4)]; [cbn; lia|]. specialize (H2 K2 K3). lia.
    - exact (IH _ _ _ _ _ _ (H _) Hf Hr).
  Qed.

  Notation mr := default_max_rerolls.
  Lemma tk_itree e : tk 0 (eval mr (itree e)) obj_is_int.
  Proof. rewrite eval_itree. unfold oint. apply tk_clift; [lia|]. intros a H. destruct (mach e); try discriminate. injection H as <-. eexists. reflexivity. Qed.
  Lemma random_numbers_nonneg e : 0 <= random_numbers e.
  Proof. induction e as [[v|lo hi]|e IH|op a IHa b IHb]; cbn; lia. Qed.
  (** the dice and the value of an operand: dice from wp_rtree_val, the number from here *)
  Lemma tk_operands opn (a b : comp obj) (P R : obj -> Prop) x y : tk x a P -> tk y b R ->
    tk (x + y) (eval_operands opn (Some a) (Some b)) (fun p => P (fst p) /\ R (snd p)).
  Proof.
    intros Ha Hb. pose proof (tk_nonneg _ _ _ Hb). cbn [eval_operands]. eapply (tk_bind _ _ P _ y H x); [exact Ha| |lia]. intros p Hp.
    eapply (tk_bind _ _ R _ 0 ltac:(lia) y); [exact Hb| |lia]. intros q Hq. cbn. repeat split; try lia; assumption.
  Qed.
  Lemma tk_random_number x y : tk 1 (eval_random_number x y) obj_is_int.
  Proof.
    unfold eval_random_number. destruct (y <=? x); [cbn; lia|]. cbn [tk]. split; [lia|]. split; [lia|].
    intros ds (H1 & H2 & H3 & H4) _. destruct ds as [|d ds]; [cbn in H3; lia|]. cbn. split; [lia|]. eexists. reflexivity.
  Qed.
  Lemma tk_rtree e : tk (random_numbers e) (eval mr (rtree e)) obj_is_int.
  Proof.
    induction e as [[v|lo hi]|e IH|op a IHa b IHb]; cbn [random_numbers].
    - cbn. split; [lia|]. eexists. reflexivity.
    - change (rtree (Leaf (RRand lo hi))) with (NInfix (OpVar KRand) (itree lo) (itree hi)). cbn [eval].
      rewrite !itree_not_null. unfold eval_infix. eapply (tk_bind _ _ _ _ 1 ltac:(lia) (0 + 0)); [apply tk_operands; apply tk_itree| |lia].
      intros (p & q) ((x & Hx) & (y & Hy)). cbn in Hx, Hy. subst. cbn [op_string]. apply tk_random_number.
    - change (rtree (Neg e)) with (NNeg (rtree e)). cbn [eval]. rewrite rtree_not_null. cbn [eval_prefix].
      eapply (tk_bind _ _ _ _ 0 ltac:(lia)); [exact IH| |lia]. intros o (v & ->). cbn. split; [lia|]. eexists. reflexivity.
    - change (rtree (Bin op a b)) with (NInfix (arith_op op) (rtree a) (rtree b)). cbn [eval]. rewrite !rtree_not_null.
      unfold eval_infix. eapply (tk_bind _ _ _ _ 0 ltac:(lia)); [apply tk_operands; eassumption| |lia].
      intros (p & q) ((x & Hx) & (y & Hy)). cbn in Hx, Hy. subst.
      assert (match arith_op op with OpDiv m => eval_int_divide m x y | _ => eval_int_infix (op_string (arith_op op)) x y end
        = oint (mach_op op x y)) as E.
      { rewrite <- (eval_arith_op op (CRet (OInt x)) (CRet (OInt y)) x y eq_refl eq_refl). reflexivity. }
      change (tk 0 (match arith_op op with OpDiv m => eval_int_divide m x y | _ => eval_int_infix (op_string (arith_op op)) x y end) obj_is_int).
      rewrite E. unfold oint. apply tk_clift; [lia|]. intros o H. destruct (mach_op op x y); try discriminate. injection H as <-. eexists. reflexivity.
  Qed.
  (** both *)
  Lemma tk_wp {A} (c : comp A) : forall N (P R : A -> Prop), tk N c P -> wp D (fun _ => True) c R -> tk N c (fun a => P a /\ R a).
  Proof.
    induction c as [a|e|p|n s k IH|k IH]; intros N P R H W; cbn in *; try tauto.
    - destruct H as (H1 & H2 & H3), W as (_ & W). split; [exact H1|]. split; [exact H2|]. intros ds Hr Hd. apply IH; [exact (H3 ds Hr Hd)|exact (W ds Hr Hd)].
    - intros l. apply IH; [apply H|apply W].
  Qed.

  (** ** counts of at most m dice *)
  Variable m : Z.
  Hypothesis Hm : 0 <= m.
  Definition low_roll (r : roll) : Prop := forall ops x, Forall D ops -> operand_value (fst r) ops x -> x <= m.
  Definition low_pair (p : Z * Z) : Prop := fst p <= m.
  Lemma tk_roll_args n s : rok n -> low_roll (n, s) -> tk (random_numbers n + random_numbers s) (eval_roll_args mr (rtree n) (rtree s)) (fun p => exists x y, p = (NInt x, NInt y) /\ x <= m).
  Proof.
    intros Hn Hc. unfold eval_roll_args. pose proof (random_numbers_nonneg s).
    eapply (tk_bind _ _ _ _ (random_numbers s) ltac:(lia)); [exact (tk_wp _ _ _ _ (tk_rtree n) (wp_rtree_val D _ mr n Hn))| |lia]. intros o (_ & x & ops & -> & Hd & Hv).
    eapply (tk_bind _ _ _ _ 0 ltac:(lia)); [apply tk_rtree| |lia]. intros o (y & ->). cbn. split; [lia|]. exists x, y. split; [reflexivity|exact (Hc ops x Hd Hv)].
  Qed.
  Definition low_leaf (l : mleaf) : Prop := match l with MInt _ => True | MDice x _ => x <= m end.
  Fixpoint dice_leaves (e : ae mleaf) : Z := match e with Leaf (MInt _) => 0 | Leaf (MDice _ _) => 1 | Neg e => dice_leaves e | Bin _ a b => dice_leaves a + dice_leaves b end.
  Lemma dice_leaves_nonneg e : 0 <= dice_leaves e.
  Proof. induction e as [[v|x y]|e IH|op a IHa b IHb]; cbn; lia. Qed.
  Lemma random_operands_app a b : random_operands (a ++ b) = random_operands a + random_operands b.
  Proof. unfold random_operands. induction a as [|r a IH]; cbn in *; lia. Qed.
  Lemma random_operands_nonneg a : 0 <= random_operands a.
  Proof. unfold random_operands. induction a as [|r a IH]; cbn in *; [lia|]. pose proof (random_numbers_nonneg (fst r)). pose proof (random_numbers_nonneg (snd r)). lia. Qed.
  Definition d_low (e : dexpr) (n : node) : Prop := exists mid, n = tree mleaf_tree mid /\ all_leaves low_leaf mid /\ dice_leaves mid = Z.of_nat (length (d_rolls e)).
  Lemma tk_va_dtree e : dok e -> Forall low_roll (d_rolls e) -> tk (random_operands (d_rolls e)) (va_child mr (dtree e)) (d_low e).
  Proof.
    induction e as [[v|lo hi|n s]|e IH|op a IHa b IHb]; intros Hok Hc.
    - cbn. split; [lia|]. exists (Leaf (MInt v)). repeat split; reflexivity.
    - cbn. lia.
    - change (va_child mr (dtree (Leaf (DDice n s)))) with
        ('(l', r') <- eval_roll_args mr (rtree n) (rtree s) ;; CRet (NInfix (OpVar KD) l' r')). destruct Hok as (Hn & Hs). cbn [d_rolls] in *. inversion_clear Hc.
      eapply (tk_bind _ _ _ _ 0 ltac:(lia)); [apply (tk_roll_args n s Hn H)| |cbn; lia]. intros p (x & y & -> & Hx). cbn. split; [lia|]. exists (Leaf (MDice x y)). repeat split; assumption.
    - change (dtree (Neg e)) with (NNeg (dtree e)). rewrite va_child_neg, eval_var_args_neg.
      eapply (tk_bind _ _ _ _ 0 ltac:(lia)); [exact (IH Hok Hc)| |cbn [d_rolls]; lia]. intros n (mid & -> & Hl & Hk). cbn. split; [lia|]. exists (Neg mid). repeat split; assumption.
    - change (dtree (Bin op a b)) with (NInfix (arith_op op) (dtree a) (dtree b)). rewrite va_child_arith, eval_var_args_arith.
      destruct Hok as (Oa & Ob). cbn [d_rolls] in *. apply Forall_app in Hc as (Ca & Cb). rewrite random_operands_app. pose proof (random_operands_nonneg (d_rolls b)).
      eapply (tk_bind _ _ _ _ (random_operands (d_rolls b)) ltac:(lia)); [exact (IHa Oa Ca)| |lia]. intros n (mid & -> & H1 & K1).
      eapply (tk_bind _ _ _ _ 0 ltac:(lia)); [exact (IHb Ob Cb)| |lia]. intros n (mid2 & -> & H2 & K2). cbn. split; [lia|]. exists (Bin op mid mid2). split; [reflexivity|]. split; [split; assumption|]. cbn. rewrite app_length. lia.
  Qed.
  Lemma tk_dv mid : all_leaves low_leaf mid -> tk (dice_leaves mid * m) (dv_child (tree mleaf_tree mid)) (fun n => exists fin, n = tree sleaf_tree fin).
  Proof.
    induction mid as [[v|x y]|e IH|op a IHa b IHb]; intros Hc; cbn [dice_leaves].
    - cbn. split; [lia|]. exists (Leaf (SInt v)). reflexivity.
    - change (dv_child (tree mleaf_tree (Leaf (MDice x y)))) with (CRoll x y (fun ds => CRet (NSumRoll ds))). cbn [tk]. cbn in Hc.
      split; [lia|]. split; [lia|]. intros ds _ _. split; [lia|]. exists (Leaf (SRoll ds)). reflexivity.
    - change (tree mleaf_tree (Neg e)) with (NNeg (tree mleaf_tree e)).
      change (dv_child (NNeg (tree mleaf_tree e))) with (determine_values (NNeg (tree mleaf_tree e))). rewrite determine_neg.
      eapply (tk_bind _ _ _ _ 0 ltac:(lia)); [exact (IH Hc)| |lia]. intros n (fin & ->). cbn. split; [lia|]. exists (Neg fin). reflexivity.
    - change (tree mleaf_tree (Bin op a b)) with (NInfix (arith_op op) (tree mleaf_tree a) (tree mleaf_tree b)).
      rewrite dv_child_arith, determine_infix. destruct Hc as (Ca & Cb). pose proof (dice_leaves_nonneg b).
      eapply (tk_bind _ _ _ _ (dice_leaves b * m) ltac:(nia)); [exact (IHa Ca)| |lia]. intros n (f1 & ->).
      eapply (tk_bind _ _ _ _ 0 ltac:(lia)); [exact (IHb Cb)| |lia]. intros n (f2 & ->). cbn. split; [lia|]. exists (Bin op f1 f2). reflexivity.
  Qed.
  Definition low_list (rs : list roll) (ps : list (Z * Z)) : Prop := length ps = length rs /\ Forall low_pair ps.
  Lemma tk_va_rolls k rs : k <> KRand -> Forall roll_ok rs -> Forall low_roll rs ->
    tk (random_operands rs) (var_args_rolls mr (map (roll_tree k) rs)) (fun vs => exists ps, low_list rs ps /\ vs = map (lit_roll k) ps).
  Proof.
    intros Hk. induction rs as [|(n & s) rs IH]; intros Hok Hc; cbn [map roll_tree fst snd var_args_rolls].
    - cbn. split; [lia|]. exists []. split; [split; [reflexivity|constructor]|reflexivity].
    - assert (var_args_of_vroll mr k (rtree n) (rtree s) = eval_roll_args mr (rtree n) (rtree s)) as -> by (destruct k; try reflexivity; contradiction).
      inversion_clear Hok as [|? ? (O1 & _) Os]. inversion_clear Hc as [|? ? C1 C2]. cbn [fst snd] in *. pose proof (random_operands_nonneg rs).
      eapply (tk_bind _ _ _ _ (random_operands rs) ltac:(lia)); [apply (tk_roll_args n s O1 C1)| |unfold random_operands; cbn; lia]. intros p (x & y & -> & Hx).
      eapply (tk_bind _ _ _ _ 0 ltac:(lia)); [exact (IH Os C2)| |lia]. intros vs (ps & (Hl & Hp) & ->). cbn. split; [lia|]. exists ((x, y) :: ps). split; [|reflexivity]. split; [cbn; congruence|]. constructor; assumption.
  Qed.
  Lemma tk_va_threshold th : tk 0 (var_args_threshold mr (th_tree th)) (fun n => exists t, n = opt_node t).
  Proof.
    unfold var_args_threshold. destruct th as [e|]; cbn [th_tree].
    - rewrite itree_not_null. assert (is_nil (itree e) = false) as -> by (destruct e; reflexivity).
      eapply tk_bind0; [lia|apply tk_itree|]. intros o (v & ->). cbn. split; [lia|]. exists (Some v). reflexivity.
    - cbn. split; [lia|]. exists None. reflexivity.
  Qed.
  Lemma tk_va_bonus b : tk 0 (var_args_bonus mr (bonus_tree b)) (fun o => exists m, in_int64 m /\ o = lit_bonus m).
  Proof.
    destruct b as [[sgn e]|].
    - assert (bonus_tree (Some (sgn, e)) = Some (Bonus (if sgn then OpAdd else OpSub) (NInt 0) (itree e))) as -> by (destruct sgn; reflexivity).
      cbn [var_args_bonus]. eapply tk_bind0 with (R := fun o => exists m, in_int64 m /\ o = OInt m); [lia| |].
      + unfold operand. rewrite itree_not_null. cbn [is_null]. unfold eval_infix.
        eapply (tk_bind _ _ _ _ 0 ltac:(lia) (0 + 0)); [apply tk_operands with (P := fun o => o = OInt 0) (R := obj_is_int); [cbn; split; [lia|reflexivity]|apply tk_itree]| |lia].
        intros (p & q) (Hp & v & Hq). cbn in Hp, Hq. subst. destruct sgn; cbn; (split; [lia|]; eexists; split; [|reflexivity]; apply wrap64_range).
      + intros o (k & Hk & ->). cbn. split; [lia|]. exists k. split; [exact Hk|reflexivity].
    - cbn. split; [lia|]. exists 0. split; [unfold in_int64, min_int, max_int, two63; lia|reflexivity].
  Qed.

  Lemma tk_basic_roll x y : x <= m -> tk m (eval_basic_roll x y) (fun o => exists vs, Z.of_nat (length vs) = x /\ o = ints vs).
  Proof.
    intros Hc. cbn. split; [lia|]. split; [lia|]. intros ds (_ & _ & Hl & _) _. split; [lia|]. exists (values ds). split; [unfold values; rewrite map_length; exact Hl|]. unfold ints, values. rewrite map_map. reflexivity.
  Qed.
  Lemma tk_b_list k ps : k = KB \/ k = KR -> Forall low_pair ps -> forall vs,
    tk (Z.of_nat (length ps) * m) (eval_b_roll_list (map (lit_q k) ps) (map OInt vs)) (fun o => exists vs, o = ints vs).
  Proof.
    intros Hk Hc. induction Hc as [|p ps Hp Hc IH]; intros vs; cbn [map eval_b_roll_list].
    - cbn. split; [lia|]. exists vs. reflexivity.
    - rewrite (eval_qroll_lit k p Hk). eapply (tk_bind _ _ _ _ (Z.of_nat (length ps) * m) ltac:(nia)); [apply tk_basic_roll; exact Hp| |cbn [length]; nia]. intros o (ws & _ & ->). unfold ints. rewrite <- map_app. apply IH.
  Qed.
  Lemma tk_r_loop t n : forall ps (gs : list (list Z)), Forall low_pair ps ->
    tk (Z.of_nat n * m) (eval_r_loop n t (map (lit_q KR) ps) (map ints gs)) (fun o => exists gs, o = OArray (map ints gs)).
  Proof.
    induction n as [|n IH]; intros ps gs Hc.
    - cbn. split; [lia|]. exists gs. reflexivity.
    - destruct ps as [|p ps]; cbn [map eval_r_loop].
      + cbn [tk]. split; [nia|]. exists gs. reflexivity.
      + inversion_clear Hc as [|? ? Hp Hc']. rewrite (eval_qroll_lit KR p (or_intror eq_refl)). eapply (tk_bind _ _ _ _ (Z.of_nat n * m) ltac:(nia)); [apply tk_basic_roll; exact Hp| |nia]. intros o (vs & Hl & ->). cbn [ints].
        rewrite count_ge_vals. set (k := 0 + _).
        assert (k <= m) as Hk by (unfold low_pair in Hp; unfold k; pose proof (filter_length_le (fun v => t <=? v) vs); lia).
        change [OArray (map OInt vs)] with (map ints [vs]). rewrite <- map_app.
        destruct (0 <? k).
        * change [QRoll KR (Some (CRet (OInt k))) (q_sides (lit_q KR p))] with (map (lit_q KR) [(k, snd p)]). rewrite <- map_app.
          apply IH; apply Forall_app; split; [exact Hc'|constructor; [exact Hk|constructor]].
        * apply IH; exact Hc'.
  Qed.
  Lemma tk_r_full t ps : Forall low_pair ps -> tk (10000 * m) (eval_r_loop (Z.to_nat mr) t (map (lit_q KR) ps) []) (fun o => exists gs, o = OArray (map ints gs)).
  Proof. intros H. pose proof (tk_r_loop t (Z.to_nat mr) ps [] H) as K. change (Z.of_nat (Z.to_nat mr)) with 10000 in K. exact K. Qed.
  Lemma tk_u_chain y t n : forall vs, tk (Z.of_nat n) (eval_u_chain n y t (map OInt vs)) (fun g => exists vs, g = map OInt vs).
  Proof.
    induction n as [|n IH]; intros vs; cbn [eval_u_chain].
    - cbn. split; [lia|]. exists vs. reflexivity.
    - cbn [tk]. split; [lia|]. split; [lia|]. intros ds Hr _. apply rolled_one in Hr as (_ & d & -> & _).
      change [OInt (die_value d)] with (map OInt [die_value d]). rewrite <- map_app.
      destruct (die_value d <? t); [cbn [tk]; split; [lia|]; eexists; reflexivity|]. eapply tk_mono; [apply IH|lia|auto].
  Qed.
  Lemma tk_u_groups y t n : forall gs, tk (Z.of_nat n * 10000) (eval_u_groups mr n y t (map ints gs)) (fun o => exists gs', o = map ints gs').
  Proof.
    induction n as [|n IH]; intros gs; cbn [eval_u_groups].
    - cbn. split; [lia|]. exists gs. reflexivity.
    - eapply (tk_bind _ _ _ _ (Z.of_nat n * 10000) ltac:(lia) 10000); [exact (tk_u_chain y t (Z.to_nat mr) [])| |lia]. intros g (vs & ->).
      change [OArray (map OInt vs)] with (map ints [vs]). rewrite <- map_app. apply IH.
  Qed.
  Lemma tk_compounding t p : low_pair p -> tk (10000 * m) (eval_compounding_roll mr (lit_q KU p) t) (fun o => exists gs, o = map ints gs).
  Proof.
    intros Hc. unfold eval_compounding_roll. cbn [lit_q q_kind q_num q_sides eval_operands cbind].
    destruct (snd p <? 1) eqn:E1; [cbn [tk]; lia|]. destruct (fst p <? 1) eqn:E2; [cbn [tk]; lia|].
    destruct (max_alloc_16 <? fst p) eqn:E3; [cbn [tk]; lia|]. unfold low_pair in Hc.
    eapply tk_mono; [apply (tk_u_groups (snd p) t _ [])|lia|auto].
  Qed.
  Lemma tk_u_rolls t ps : Forall low_pair ps -> forall gs, tk (10000 * (Z.of_nat (length ps) * m)) (eval_u_rolls mr (map (lit_q KU) ps) t (map ints gs))
    (fun o => exists gs', o = map ints gs').
  Proof.
    induction 1 as [|p ps Hp Hc IH]; intros gs; cbn [map eval_u_rolls].
    - cbn. split; [lia|]. exists gs. reflexivity.
    - eapply (tk_bind _ _ _ _ (10000 * (Z.of_nat (length ps) * m)) ltac:(nia)); [apply (tk_compounding _ _ Hp)| |cbn [length]; nia]. intros o (g & ->). rewrite <- map_app. apply IH.
  Qed.
  Lemma tk_count_groups op w gs : is_compare_op op -> forall acc, tk 0 (count_group_successes (map ints gs) op w acc) (fun _ => True).
  Proof.
    intros Hop. induction gs as [|g gs IH]; intros acc; [cbn; split; [lia|exact I]|]. cbn [map ints count_group_successes].
    rewrite (count_vals op w g Hop). apply IH.
  Qed.
  Lemma tk_va_cmp op n t (P : node -> Prop) N : tk N (eval_var_args mr n) P ->
    tk N (eval_var_args mr (NInfix (OpCmp op) n (itree t))) (fun n' => exists l w, P l /\ n' = NInfix (OpCmp op) l (NInt w)).
  Proof.
    intros H. rewrite cmp_va. eapply (tk_bind _ _ _ _ 0 ltac:(lia)); [exact H| |lia]. intros l Hl. eapply tk_bind0; [lia|apply tk_itree|]. intros o (w & ->).
    cbn. split; [lia|]. exists l, w. split; [exact Hl|reflexivity].
  Qed.
  Lemma tk_args_notation n (P : node -> Prop) N : tk N (eval_var_args mr n) P -> tk N (eval_var_args_notation mr n) (fun p => P (fst p)).
  Proof.
    intros H. unfold eval_var_args_notation. eapply (tk_bind _ _ _ _ 0 ltac:(lia)); [exact H| |lia]. intros n' Hn'. apply tk_with; [lia|]. intros s. cbn. split; [lia|exact Hn'].
  Qed.
  Definition low_b (rs : list roll) (n : node) : Prop := exists ps, low_list rs ps /\ n = NBRollList (map (lit_roll KB) ps).
  Definition low_r (rs : list roll) (n : node) : Prop := exists ps t, low_list rs ps /\ n = NRRollList (map (lit_roll KR) ps) (opt_node t).
  Definition low_u (rs : list roll) (n : node) : Prop := exists ps t b, low_list rs ps /\ in_int64 b /\ n = NURollExpr (map (lit_roll KU) ps) (opt_node t) (lit_bonus b).
  Lemma tk_va_b rs : Forall roll_ok rs -> Forall low_roll rs -> tk (random_operands rs) (eval_var_args mr (NBRollList (map (roll_tree KB) rs))) (low_b rs).
  Proof.
    intros Ho Hc. cbn [eval_var_args]. eapply (tk_bind _ _ _ _ 0 ltac:(lia)); [apply tk_va_rolls; [discriminate|exact Ho|exact Hc]| |lia]. intros vs (ps & Hp & ->). cbn. split; [lia|]. exists ps. split; [exact Hp|reflexivity].
  Qed.
  Lemma tk_va_r rs th : Forall roll_ok rs -> Forall low_roll rs -> tk (random_operands rs) (eval_var_args mr (NRRollList (map (roll_tree KR) rs) (th_tree th))) (low_r rs).
  Proof.
    intros Ho Hc. cbn [eval_var_args]. pose proof (random_operands_nonneg rs). eapply tk_bind0; [lia|apply tk_va_threshold|]. intros n (t & ->).
    eapply (tk_bind _ _ _ _ 0 ltac:(lia)); [apply tk_va_rolls; [discriminate|exact Ho|exact Hc]| |lia]. intros vs (ps & Hp & ->). cbn. split; [lia|]. exists ps, t. split; [exact Hp|reflexivity].
  Qed.
  Lemma tk_va_u rs th b : Forall roll_ok rs -> Forall low_roll rs -> tk (random_operands rs) (eval_var_args mr (NURollExpr (map (roll_tree KU) rs) (th_tree th) (bonus_tree b))) (low_u rs).
  Proof.
    intros Ho Hc. cbn [eval_var_args]. pose proof (random_operands_nonneg rs). eapply tk_bind0; [lia|apply tk_va_threshold|]. intros n (t & ->).
    eapply (tk_bind _ _ _ _ 0 ltac:(lia)); [apply tk_va_rolls; [discriminate|exact Ho|exact Hc]| |lia]. intros vs (ps & Hp & ->).
    eapply tk_bind0; [lia|apply tk_va_bonus|]. intros o (k & Hk & ->). cbn. split; [lia|]. exists ps, t, k. split; [exact Hp|]. split; [exact Hk|reflexivity].
  Qed.
  Lemma tk_eval_uexpr ps v b : Forall low_pair ps -> in_int64 b ->
    tk (10000 * (Z.of_nat (length ps) * m)) (eval mr (NURollExpr (map (lit_roll KU) ps) (NInt v) (lit_bonus b))) (fun o => exists gs, o = OURollExpr (map ints gs) b).
  Proof.
    intros Hc Hb. rewrite (eval_uexpr ps v b Hb). eapply (tk_bind _ _ _ _ 0 ltac:(lia)); [apply (tk_u_rolls v ps Hc [])| |lia]. intros o (gs & ->). cbn. split; [lia|]. exists gs. reflexivity.
  Qed.
  Definition d_top (e : dexpr) (n : node) : Prop :=
    d_low e n \/ (exists lo hi, n = NInfix (OpVar KRand) (itree lo) (itree hi)) \/
    (exists a b, n = NInfix (OpVar KD) (rtree a) (rtree b) /\ low_roll (a, b) /\ length (d_rolls e) = 1%nat).
  Lemma tk_va_top e : dok e -> Forall low_roll (d_rolls e) -> tk (random_operands (d_rolls e)) (eval_var_args mr (dtree e)) (d_top e).
  Proof.
    intros Hok Hc. pose proof (random_operands_nonneg (d_rolls e)) as Hn. destruct e as [[v|lo hi|a b]|e|op a b].
    - cbn. lia.
    - change (dtree (Leaf (DRand lo hi))) with (NInfix (OpVar KRand) (itree lo) (itree hi)).
      rewrite eval_var_args_var, !va_child_itree. cbn. split; [lia|]. right. left. exists lo, hi. reflexivity.
    - change (dtree (Leaf (DDice a b))) with (NInfix (OpVar KD) (rtree a) (rtree b)). rewrite eval_var_args_var.
      destruct (va_rtree mr a) as [->|(q & ->)]; [|exact Hn]. destruct (va_rtree mr b) as [->|(q & ->)]; [|exact Hn].
      cbn [cbind tk]. split; [exact Hn|]. right. right. exists a, b. cbn [d_rolls] in Hc. inversion_clear Hc. repeat split; assumption.
    - eapply tk_mono; [apply (tk_va_dtree (Neg e) Hok Hc)|lia|]. intros n H. left. exact H.
    - pose proof (tk_va_dtree (Bin op a b) Hok Hc) as H. unfold dtree in H. cbn [tree] in H. rewrite va_child_arith in H.
      eapply tk_mono; [exact H|lia|]. intros n H'. left. exact H'.
  Qed.
  Lemma tk_dv_top e n : d_top e n -> tk (Z.of_nat (length (d_rolls e)) * m) (dv_child n) (fun n => exists fin, n = tree sleaf_tree fin).
  Proof.
    intros [(mid & -> & Hc & Hk)|[(lo & hi & ->)|(a & b & -> & Hc & Hk)]].
    - rewrite <- Hk. apply tk_dv, Hc.
    - cbn [tk]. change (tk (Z.of_nat (length (d_rolls e)) * m) (dv_child (NInfix (OpVar KRand) (itree lo) (itree hi))) (fun n => exists fin, n = tree sleaf_tree fin)) with (0 <= Z.of_nat (length (d_rolls e)) * m). nia.
    - change (dv_child (NInfix (OpVar KD) (rtree a) (rtree b))) with (determine_d_roll (rtree a) (rtree b)). rewrite Hk.
      destruct a as [[x|]|a|op1 a1 a2]; try (cbn; lia). destruct b as [[y|]|b|op2 b1 b2]; try (cbn; lia).
      apply (tk_dv (Leaf (MDice x y))). apply (Hc [] x); [constructor|]. apply operand_leaf_value. split; reflexivity.
  Qed.

  Lemma tk_execute gid c : command_ok c -> Forall low_roll (rolls_of c) -> tk (dice_limit c m) (execute mr gid (command_tree c)) (fun _ => True).
  Proof.
    intros Hok Hlow. unfold dice_limit. pose proof (random_operands_nonneg (rolls_of c)) as Hn. assert (0 <= roll_dice_limit c m) as HL by (destruct c; cbn [roll_dice_limit]; nia).
    destruct c as [e|e|e op t|r rs|r rs op t|r rs th|r rs th op t|r rs th b|r rs th b op t|items]; cbn [command_tree execute rolls_of roll_dice_limit] in *.
    - unfold execute_calc. apply tk_with; [lia|]. intros s. cbn [eval].
      eapply tk_bind0; [lia|apply tk_itree|]. intros; cbn; split; [lia|exact I].
    - unfold execute_d_roll_expr. eapply (tk_bind _ _ (fun p => exists n, fst p = NCommand CDRollExpr n /\ d_low e n) _ _ HL); [|intros (n1 & s1) (n & Hn1 & (mid & -> & Hl & Hk)); cbn [fst] in Hn1; subst n1|apply Z.le_refl].
      + apply tk_args_notation with (P := fun n' => exists n, n' = NCommand CDRollExpr n /\ d_low e n).
        rewrite eval_var_args_command. eapply (tk_bind _ _ _ _ 0 ltac:(lia)); [apply (tk_va_dtree e Hok Hlow)| |lia]. intros n Hd. cbn. split; [lia|]. exists n. split; [reflexivity|exact Hd].
      + rewrite determine_command. rewrite <- Hk. rewrite <- Hk in HL.
        eapply (tk_bind _ _ (fun n => exists fin, n = NCommand CDRollExpr (tree sleaf_tree fin)) _ 0 ltac:(lia) (dice_leaves mid * m)); [| |lia].
        * eapply (tk_bind _ _ _ _ 0 ltac:(lia)); [apply tk_dv; exact Hl| |lia]. intros n (fin & ->). cbn. split; [lia|]. exists fin. reflexivity.
        * intros n (fin & ->). apply tk_with; [lia|]. intros s2. cbn [eval]. rewrite eval_stree.
          eapply tk_bind0; [lia|apply tk_itree|]. intros o _. cbn. intros _. split; [lia|exact I].
    - destruct Hok as (Hd & Hop & Ht). unfold execute_d_roll_comp.
      eapply (tk_bind _ _ (fun p => exists l w, fst p = NInfix (OpCmp op) l (NInt w) /\ d_top e l) _ _ HL); [|intros (n1 & s1) (l & w & Hn1 & Hl); cbn [fst] in Hn1; subst n1|apply Z.le_refl].
      + apply tk_args_notation with (P := fun n => exists l w, n = NInfix (OpCmp op) l (NInt w) /\ d_top e l).
        eapply tk_mono; [apply tk_va_cmp; apply (tk_va_top e Hd Hlow)|lia|]. intros n (l & w & Hl & ->). exists l, w. split; [reflexivity|exact Hl].
      + rewrite determine_infix.
        eapply (tk_bind _ _ (fun n => exists fin, n = NInfix (OpCmp op) (tree sleaf_tree fin) (NInt w)) _ 0 ltac:(lia)); [| |rewrite Z.add_0_r; apply Z.le_refl].
        * eapply (tk_bind _ _ _ _ 0 ltac:(lia)); [apply (tk_dv_top e l Hl)| |lia]. intros n (fin & ->). cbn. split; [lia|]. exists fin. reflexivity.
        * intros n (fin & ->). apply tk_with; [lia|]. intros s2. unfold eval_compare_left. rewrite eval_stree.
          eapply (tk_bind0 _ _ (fun _ => True)); [lia| |].
          -- eapply tk_bind0; [lia|apply tk_itree|]. intros o (v & ->). cbn. split; [lia|exact I].
          -- intros v _. cbn [eval is_null]. unfold eval_infix. cbn [eval_operands cbind op_string]. rewrite (eval_compare op _ _ Hop). cbn. intros; split; [lia|exact I].
    - unfold execute_b_roll_list. eapply (tk_bind _ _ (fun p => low_b (r :: rs) (fst p)) _ _ HL); [apply tk_args_notation, (tk_va_b (r :: rs) Hok Hlow)| |apply Z.le_refl].
      intros (n1 & s1) (ps & (Hl & Hp) & Hn1). cbn [fst] in Hn1. subst n1. rewrite eval_blist, to_qroll_lit. rewrite <- Hl.
      eapply (tk_bind _ _ _ _ 0 ltac:(lia)); [apply (tk_b_list KB ps (or_introl eq_refl) Hp [])| |lia]. intros o (vs & ->). cbn. intros; split; [lia|exact I].
    - destruct Hok as (Hro & Hop & _). unfold execute_b_roll_comp. cbn [is_basic_op].
      eapply (tk_bind _ _ (fun p => exists l w, low_b (r :: rs) l /\ fst p = NInfix (OpCmp op) l (NInt w)) _ _ HL); [apply (tk_args_notation _ (fun n => exists l w, low_b (r :: rs) l /\ n = NInfix (OpCmp op) l (NInt w))), tk_va_cmp, (tk_va_b (r :: rs) Hro Hlow)| |apply Z.le_refl].
      intros (n1 & s1) (l & w & (ps & (Hl & Hp) & ->) & Hn1). cbn [fst] in Hn1. subst n1.
      change (eval mr (NCommand CBRollComp (NInfix (OpCmp op) (NBRollList (map (lit_roll KB) ps)) (NInt w)))) with
        (eval_b_roll_comp op (Some (eval mr (NBRollList (map (lit_roll KB) ps)))) (Some (CRet (OInt w)))). rewrite <- Hl. rewrite <- Hl in HL.
      eapply (tk_bind _ _ (fun o => exists vs k, o = OBRollComp vs k) _ 0 ltac:(lia)); [| |rewrite Z.add_0_r; apply Z.le_refl].
      + unfold eval_b_roll_comp. eapply (tk_bind _ _ _ _ 0 ltac:(lia)); [apply tk_operands with (y := 0) (P := fun o => exists vs, o = ints vs) (R := fun o => o = OInt w); [|cbn; split; [lia|reflexivity]]| |rewrite !Z.add_0_r; apply Z.le_refl].
        * rewrite eval_blist, to_qroll_lit. apply (tk_b_list KB ps (or_introl eq_refl) Hp []).
        * intros (o1 & o2) ((vs & H1) & H2). cbn in H1, H2. subst. cbn [ints]. rewrite (count_vals op w vs Hop). cbn. split; [lia|]. eexists _, _. reflexivity.
      + intros o (vs & k & ->). cbn. intros; split; [lia|exact I].
    - unfold execute_r_roll_list. eapply (tk_bind _ _ (fun p => low_r (r :: rs) (fst p)) _ _ HL); [apply tk_args_notation, (tk_va_r (r :: rs) th (proj1 Hok) Hlow)| |apply Z.le_refl].
      intros (n1 & s1) (ps & t & (_ & Hp) & Hn1). cbn [fst] in Hn1. subst n1. rewrite check_r_threshold. cbn [cbind].
      destruct (hint hint_r t) as [h|] eqn:Eh; [cbn [tk]; split; [lia|exact I]|]. destruct t as [v|]; [|discriminate]. cbn [opt_node]. rewrite eval_rlist.
      eapply (tk_bind _ _ _ _ 0 ltac:(lia)); [apply (tk_r_full v ps Hp)| |lia]. intros o (gs & ->). cbn [tk]. intros l. apply tk_with; [lia|]. intros; cbn; split; [lia|exact I].
    - destruct Hok as (Hro & _ & Hop & _). unfold execute_r_roll_comp. cbn [is_basic_op].
      eapply (tk_bind _ _ _ _ _ HL); [apply tk_va_cmp, (tk_va_r (r :: rs) th Hro Hlow)| |apply Z.le_refl]. intros n (l & w & (ps & t' & (_ & Hp) & ->) & ->). rewrite set_threshold. cbn [cbind].
      set (v := match t' with Some v => v | None => w end).
      apply tk_with; [lia|]. intros s1.
      change (NInt v) with (opt_node (Some v)) at 1. rewrite check_r_threshold. cbn [cbind]. destruct (hint hint_r (Some v)) as [h|]; [cbn [tk]; split; [lia|exact I]|].
      change (eval mr (NCommand CRRollComp (NInfix (OpCmp op) (NRRollList (map (lit_roll KR) ps) (NInt v)) (NInt w)))) with
        (eval_r_roll_comp op (Some (eval mr (NRRollList (map (lit_roll KR) ps) (NInt v)))) (Some (CRet (OInt w)))).
      eapply (tk_bind _ _ (fun o => exists gs k, o = ORRollComp (map ints gs) k) _ 0 ltac:(lia)); [| |rewrite Z.add_0_r; apply Z.le_refl].
      + unfold eval_r_roll_comp. eapply (tk_bind _ _ _ _ 0 ltac:(lia)); [apply tk_operands with (y := 0) (P := fun o => exists gs, o = OArray (map ints gs)) (R := fun o => o = OInt w); [|cbn; split; [lia|reflexivity]]| |rewrite !Z.add_0_r; apply Z.le_refl].
        * rewrite eval_rlist. apply (tk_r_full v ps Hp).
        * intros (o1 & o2) ((gs & H1) & H2). cbn in H1, H2. subst. eapply tk_bind0; [lia|apply tk_count_groups; exact Hop|]. intros k _. cbn. split; [lia|]. exists gs, k. reflexivity.
      + intros o (gs & k & ->). cbn [tk]. intros l. apply tk_with; [lia|]. intros; cbn; split; [lia|exact I].
    - unfold execute_u_roll_expr. eapply (tk_bind _ _ (fun p => low_u (r :: rs) (fst p)) _ _ HL); [apply tk_args_notation, (tk_va_u (r :: rs) th b (proj1 Hok) Hlow)| |apply Z.le_refl].
      intros (n1 & s1) (ps & t & k & (Hl & Hp) & Hk & Hn1). cbn [fst] in Hn1. subst n1. rewrite check_u_threshold. cbn [cbind]. rewrite <- Hl. rewrite <- Hl in HL.
      destruct (hint hint_u t) as [h|] eqn:Eh; [cbn [tk]; split; [lia|exact I]|]. destruct t as [v|]; [|discriminate]. cbn [opt_node].
      eapply (tk_bind _ _ _ _ 0 ltac:(lia)); [apply tk_eval_uexpr; assumption| |rewrite Z.add_0_r; apply Z.le_refl]. intros o (gs & ->). cbn [tk]. intros l.
      apply tk_with; [lia|]. intros s2. apply tk_with; [lia|]. intros mx. apply tk_with; [lia|]. intros; cbn; split; [lia|exact I].
    - destruct Hok as (Hro & _ & _ & Hop & _). unfold execute_u_roll_comp. cbn [is_basic_op].
      eapply (tk_bind _ _ _ _ _ HL); [apply tk_va_cmp, (tk_va_u (r :: rs) th b Hro Hlow)| |apply Z.le_refl]. intros n (n1 & w & (ps & t' & k & (Hl & Hp) & Hk & ->) & ->). rewrite <- Hl. rewrite <- Hl in HL.
      apply tk_with; [lia|]. intros s1.
      rewrite check_u_threshold. cbn [cbind]. destruct (hint hint_u t') as [h|] eqn:Eh; [cbn [tk]; split; [lia|exact I]|]. destruct t' as [v|]; [|discriminate]. cbn [opt_node].
      change (eval mr (NCommand CURollComp (NInfix (OpCmp op) (NURollExpr (map (lit_roll KU) ps) (NInt v) (lit_bonus k)) (NInt w)))) with
        (eval_u_roll_comp op (Some (eval mr (NURollExpr (map (lit_roll KU) ps) (NInt v) (lit_bonus k)))) (Some (CRet (OInt w)))).
      eapply (tk_bind _ _ (fun o => exists gs j, o = OURollComp (map ints gs) k j) _ 0 ltac:(lia)); [| |rewrite Z.add_0_r; apply Z.le_refl].
      + unfold eval_u_roll_comp. eapply (tk_bind _ _ _ _ 0 ltac:(lia)); [apply tk_operands with (y := 0) (P := fun o => exists gs, o = OURollExpr (map ints gs) k) (R := fun o => o = OInt w); [apply tk_eval_uexpr; assumption|cbn; split; [lia|reflexivity]]| |rewrite !Z.add_0_r; apply Z.le_refl].
        intros (o1 & o2) ((gs & H1) & H2). cbn in H1, H2. subst. destruct (sum_groups_ints gs) as (sums & -> & _). cbn [clift cbind].
        rewrite <- (map_map (fun s => wrap64 (s + k)) OInt). rewrite (count_vals op w _ Hop). cbn. split; [lia|]. eexists _, _. reflexivity.
      + intros o (gs & j & ->). cbn [tk]. intros l. apply tk_with; [lia|]. intros; cbn; split; [lia|exact I].
    - unfold execute_choice. apply tk_with; [lia|]. intros s1. cbn [eval]. unfold eval_choice. cbn [cbind tk].
      split; [lia|]. split; [cbn; lia|]. intros ds Hr Hl. apply rolled_one in Hr as (H1 & d & -> & Hd).
      cbv zeta. destruct ((wrap64 (die_value d - 1) <? 0) || (Z.of_nat (length items) <=? wrap64 (die_value d - 1))); [cbn; lia|].
      destruct (nth_error items _); cbn; [intros; split; [lia|exact I]|lia].
  Qed.
End S.
