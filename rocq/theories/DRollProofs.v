(** D-roll commands. *)
From Verif Require Import ProofBase Dice SpecDice DiceProofs Comp CompProofs Ast Eval Notation NotationProofs Command
  SpecSyntax ArithProofs SpecRoll SpecLists YieldsProofs.
Open Scope list_scope.
Open Scope Z_scope.

Lemma has_value_mach e v : has_value e v <-> mach e = Ok v.
Proof.
  unfold has_value. rewrite eval_itree. unfold oint. destruct (mach e); cbn; split; intros H; try discriminate; congruence.
Qed.
Lemma yields_oint l o ds x : yields l (oint o) ds x <-> ds = [] /\ exists v, x = OInt v /\ o = Ok v.
Proof.
  unfold oint. rewrite yields_clift. destruct o; cbn; (split; [intros (-> & H); try discriminate|intros (-> & w & -> & H); try discriminate]).
  - injection H as <-. split; [reflexivity|]. exists a. split; reflexivity.
  - injection H as ->. split; reflexivity.
Qed.
Lemma yields_itree l mr e ds x : yields l (eval mr (itree e)) ds x <-> ds = [] /\ exists v, x = OInt v /\ has_value e v.
Proof.
  rewrite eval_itree, yields_oint. split; intros (H & v & H1 & H2); (split; [exact H|]; exists v; split; [exact H1|]); apply has_value_mach; exact H2.
Qed.

(** operand values, structurally *)
Lemma operand_leaf_value l ds v : operand_value (Leaf l) ds v <-> operand_leaf l ds v.
Proof.
  split.
  - intros (ie & H & Hv). inversion H; subst. apply has_value_mach in Hv. injection Hv as <-. assumption.
  - intros H. exists (Leaf v). split; [constructor; exact H|]. apply has_value_mach. reflexivity.
Qed.
Lemma operand_neg e ds v : operand_value (Neg e) ds v <-> exists x, operand_value e ds x /\ v = wrap64 (- x).
Proof.
  split.
  - intros (ie & H & Hv). inversion H; subst. apply has_value_mach in Hv. cbn [mach] in Hv.
    destruct (mach e') as [x|?|?] eqn:E; try discriminate. injection Hv as <-. exists x. split; [|reflexivity].
    exists e'. split; [assumption|]. apply has_value_mach. exact E.
  - intros (x & (ie & H & Hv) & ->). exists (Neg ie). split; [constructor; exact H|]. apply has_value_mach in Hv. apply has_value_mach.
    cbn [mach]. rewrite Hv. reflexivity.
Qed.
Lemma operand_bin op a b ds v : operand_value (Bin op a b) ds v <->
  exists ds1 ds2 x y, ds = ds1 ++ ds2 /\ operand_value a ds1 x /\ operand_value b ds2 y /\ mach_op op x y = Ok v.
Proof.
  split.
  - intros (ie & H & Hv). inversion H; subst. apply has_value_mach in Hv. cbn [mach] in Hv.
    destruct (mach a') as [x|?|?] eqn:Ea; try discriminate. destruct (mach b') as [y|?|?] eqn:Eb; try discriminate.
    exists ds1, ds2, x, y. split; [reflexivity|]. split; [exists a'; split; [assumption|apply has_value_mach; exact Ea]|].
    split; [exists b'; split; [assumption|apply has_value_mach; exact Eb]|exact Hv].
  - intros (ds1 & ds2 & x & y & -> & (ia & Ha & Hx) & (ib & Hb & Hy) & H).
    exists (Bin op ia ib). split; [constructor; assumption|]. apply has_value_mach in Hx, Hy. apply has_value_mach.
    cbn [mach]. rewrite Hx, Hy. exact H.
Qed.

Lemma rtree_not_null e : is_null (rtree e) = false.
Proof. apply notates_not_null, notates_rtree. Qed.
Lemma dtree_not_null e : is_null (dtree e) = false.
Proof. apply notates_not_null, notates_dtree. Qed.

(** evaluation of both operands *)
Lemma yields_operands l opn a b ds p :
  yields l (eval_operands opn (Some a) (Some b)) ds p <->
  exists ds1 ds2, ds = ds1 ++ ds2 /\ yields l a ds1 (fst p) /\ yields (l ++ ds1) b ds2 (snd p).
Proof.
  cbn [eval_operands]. rewrite yields_bind. split.
  - intros (d1 & d2 & x & -> & H1 & H2). apply yields_bind in H2 as (d3 & d4 & y & -> & H2 & H3).
    cbn in H3. destruct H3 as (-> & ->). exists d1, d3. rewrite app_nil_r. split; [reflexivity|]. split; assumption.
  - intros (d1 & d2 & -> & H1 & H2). exists d1, d2, (fst p). split; [reflexivity|]. split; [exact H1|].
    apply yields_bind. exists d2, [], (snd p). rewrite app_nil_r. split; [reflexivity|]. split; [exact H2|].
    cbn. split; [reflexivity|]. destruct p; reflexivity.
Qed.

Lemma wrap_range_size a b : in_int64 a -> in_int64 b -> a < b ->
  1 <= wrap64 (wrap64 (b - a) + 1) -> b - a + 1 <= max_int.
Proof.
  rewrite wrap64_add_l. unfold wrap64, in_int64, min_int, max_int, two63, two64. intros. lia.
Qed.

Lemma yields_random l mr lo hi ds x : iok lo -> iok hi ->
  (yields l (eval mr (NInfix (OpVar KRand) (itree lo) (itree hi))) ds x <-> exists v, x = OInt v /\ random_number lo hi ds v).
Proof.
  intros Hlo Hhi. cbn [eval]. rewrite (itree_not_null lo), (itree_not_null hi). unfold eval_infix. rewrite yields_bind. split.
  - intros (d1 & d2 & (p & q) & -> & H1 & H2). apply yields_operands in H1 as (d3 & d4 & -> & H3 & H4).
    cbn [fst snd] in *. apply yields_itree in H3 as (-> & a & -> & Ha). apply yields_itree in H4 as (-> & b & -> & Hb).
    cbn [app] in *. change (eval_int_infix (op_string (OpVar KRand)) a b) with (eval_random_number a b) in H2.
    unfold eval_random_number in H2. destruct (b <=? a) eqn:E; [contradiction|].
    cbn [yields] in H2. destruct H2 as (d1 & d3 & -> & (R1 & R2 & R3 & R4) & H5).
    destruct d1 as [|d [|d' d1]]; try (cbn [length] in R3; lia).
    cbn [yields] in H5. destruct H5 as (-> & ->). eexists. split; [reflexivity|].
    inversion R4; subst.
    apply has_value_mach in Ha. apply has_value_mach in Hb.
    pose proof (mach_range _ _ Hlo Ha) as Ra. pose proof (mach_range _ _ Hhi Hb) as Rb.
    assert (b - a + 1 <= max_int) as Hm by (apply wrap_range_size; lia || assumption).
    exists a, b, d. split; [apply has_value_mach; exact Ha|]. split; [apply has_value_mach; exact Hb|]. split; [lia|].
    split; [exact Hm|]. split; [reflexivity|]. split.
    + rewrite H1. rewrite wrap64_add_l. apply wrap64_id. unfold in_int64, min_int in *. unfold two63. lia.
    + apply wrap64_add_l.
  - intros (v & -> & a & b & d & Ha & Hb & Hab & Hm & -> & Hd & ->).
    exists [], [d], (OInt a, OInt b). split; [reflexivity|]. split.
    + apply yields_operands. exists [], []. split; [reflexivity|]. split; apply yields_itree; (split; [reflexivity|]); eexists; (split; [reflexivity|assumption]).
    + change (eval_int_infix (op_string (OpVar KRand)) a b) with (eval_random_number a b).
      unfold eval_random_number. destruct (b <=? a) eqn:E; [lia|].
      assert (wrap64 (wrap64 (b - a) + 1) = b - a + 1) as Hw.
      { rewrite wrap64_add_l. apply wrap64_id. unfold in_int64, min_int. unfold two63. lia. }
      rewrite Hw. cbn [yields]. exists [d], []. split; [reflexivity|]. split.
      * split; [unfold max_alloc_16; lia|]. split; [lia|]. split; [reflexivity|]. constructor; [exact Hd|constructor].
      * split; [reflexivity|]. rewrite wrap64_add_l. reflexivity.
Qed.

Lemma yields_rtree mr e : rok e -> forall l ds x,
  yields l (eval mr (rtree e)) ds x <-> exists v, x = OInt v /\ operand_value e ds v.
Proof.
  induction e as [lf|e IH|op a IHa b IHb]; intros Hok l ds x.
  - destruct lf as [v|lo hi].
    + cbn [rtree tree rleaf_tree eval yields]. split.
      * intros (-> & ->). exists v. split; [reflexivity|]. apply operand_leaf_value. split; reflexivity.
      * intros (w & -> & H). apply operand_leaf_value in H as (-> & ->). split; reflexivity.
    + destruct Hok as (H1 & H2). change (rtree (Leaf (RRand lo hi))) with (NInfix (OpVar KRand) (itree lo) (itree hi)).
      rewrite (yields_random l mr lo hi ds x H1 H2). split; intros (v & -> & H); exists v; (split; [reflexivity|]); [apply operand_leaf_value; exact H|apply operand_leaf_value in H; exact H].
  - specialize (IH Hok). change (rtree (Neg e)) with (NNeg (rtree e)). cbn [eval]. rewrite (rtree_not_null e).
    cbn [eval_prefix]. rewrite yields_bind. split.
    + intros (d1 & d2 & o & -> & H1 & H2). apply IH in H1 as (v & -> & Hv). cbn in H2. destruct H2 as (-> & ->).
      rewrite app_nil_r. eexists. split; [reflexivity|]. apply operand_neg. exists v. split; [exact Hv|reflexivity].
    + intros (v & -> & H). apply operand_neg in H as (w & Hw & ->). exists ds, [], (OInt w). rewrite app_nil_r.
      split; [reflexivity|]. split; [apply IH; exists w; split; [reflexivity|exact Hw]|]. split; reflexivity.
  - destruct Hok as (Ka & Kb). specialize (IHa Ka). specialize (IHb Kb).
    change (rtree (Bin op a b)) with (NInfix (arith_op op) (rtree a) (rtree b)). cbn [eval].
    rewrite (rtree_not_null a), (rtree_not_null b). unfold eval_infix. rewrite yields_bind. split.
    + intros (d1 & d2 & (p & q) & -> & H1 & H2). apply yields_operands in H1 as (d3 & d4 & -> & H3 & H4). cbn [fst snd] in *.
      apply IHa in H3 as (va & -> & Ha). apply IHb in H4 as (vb & -> & Hb).
      assert (yields (l ++ d3 ++ d4) (oint (mach_op op va vb)) d2 x) as H5.
      { rewrite <- (eval_arith_op op _ _ va vb eq_refl eq_refl). exact H2. }
      apply yields_oint in H5 as (-> & v & -> & Hv). exists v. split; [reflexivity|]. rewrite app_nil_r. apply operand_bin.
      exists d3, d4, va, vb. repeat split; assumption.
    + intros (v & -> & H). apply operand_bin in H as (d1 & d2 & va & vb & -> & Ha & Hb & Hv).
      exists (d1 ++ d2), [], (OInt va, OInt vb). rewrite app_nil_r. split; [reflexivity|]. split.
      * apply yields_operands. exists d1, d2. split; [reflexivity|]. cbn [fst snd]. split; [apply IHa|apply IHb]; eexists; (split; [reflexivity|assumption]).
      * assert (yields (l ++ d1 ++ d2) (oint (mach_op op va vb)) [] (OInt v)) as H5.
        { apply yields_oint. split; [reflexivity|]. exists v. split; [reflexivity|exact Hv]. }
        rewrite <- (eval_arith_op op _ _ va vb eq_refl eq_refl) in H5. exact H5.
Qed.

(** operand evaluation of one roll *)
Lemma yields_roll_args l mr n s ds p : rok n -> rok s ->
  (yields l (eval_roll_args mr (rtree n) (rtree s)) ds p <->
   exists d1 d2 x y, ds = d1 ++ d2 /\ operand_value n d1 x /\ operand_value s d2 y /\ p = (NInt x, NInt y)).
Proof.
  intros Hn Hs. unfold eval_roll_args. rewrite yields_bind. split.
  - intros (d1 & d2 & o & -> & H1 & H2). apply (yields_rtree mr n Hn) in H1 as (x & -> & Hx).
    apply yields_bind in H2 as (d3 & d4 & o & -> & H3 & H4). apply (yields_rtree mr s Hs) in H3 as (y & -> & Hy).
    cbn in H4. destruct H4 as (-> & ->). rewrite app_nil_r. exists d1, d3, x, y. repeat split; assumption.
  - intros (d1 & d2 & x & y & -> & Hx & Hy & ->). exists d1, d2, (OInt x). split; [reflexivity|].
    split; [apply (yields_rtree mr n Hn); exists x; split; [reflexivity|exact Hx]|].
    apply yields_bind. exists d2, [], (OInt y). rewrite app_nil_r. split; [reflexivity|].
    split; [apply (yields_rtree mr s Hs); exists y; split; [reflexivity|exact Hy]|]. split; reflexivity.
Qed.

(** ** EvalVarArgs *)
Definition va_child (mr : Z) (c : node) : comp node :=
  if is_null c then panic_nil
  else if is_primary c then
    (if is_variable c then var_args_of_variable_expr mr c else CRet c)
  else eval_var_args mr c.
Lemma eval_var_args_neg mr r : eval_var_args mr (NNeg r) = (r' <- va_child mr r ;; CRet (NNeg r')).
Proof. reflexivity. Qed.
Lemma eval_var_args_arith mr op l r :
  eval_var_args mr (NInfix (arith_op op) l r) = (l' <- va_child mr l ;; r' <- va_child mr r ;; CRet (NInfix (arith_op op) l' r')).
Proof. destruct op; reflexivity. Qed.
Lemma eval_var_args_var mr k l r :
  eval_var_args mr (NInfix (OpVar k) l r) = (l' <- va_child mr l ;; r' <- va_child mr r ;; CRet (NInfix (OpVar k) l' r')).
Proof. reflexivity. Qed.
Lemma eval_var_args_command mr t e : eval_var_args mr (NCommand t e) = (e' <- va_child mr e ;; CRet (NCommand t e')).
Proof. reflexivity. Qed.
Lemma va_child_neg mr r : va_child mr (NNeg r) = eval_var_args mr (NNeg r).
Proof. reflexivity. Qed.
Lemma va_child_arith mr op l r : va_child mr (NInfix (arith_op op) l r) = eval_var_args mr (NInfix (arith_op op) l r).
Proof. destruct op; reflexivity. Qed.

Lemma yields_bind_ret {A B} l (m : comp A) (g : A -> B) ds b :
  yields l (a <- m ;; CRet (g a)) ds b <-> exists a, yields l m ds a /\ b = g a.
Proof.
  rewrite yields_bind. split.
  - intros (d1 & d2 & a & -> & H & -> & ->). rewrite app_nil_r. exists a. split; [exact H|reflexivity].
  - intros (a & H & ->). exists ds, [], a. rewrite app_nil_r. repeat split. exact H.
Qed.
Lemma yields_bind2_ret {A B C} l (m : comp A) (m2 : comp B) (g : A -> B -> C) ds c :
  yields l (a <- m ;; b <- m2 ;; CRet (g a b)) ds c <->
  exists d1 d2 a b, ds = d1 ++ d2 /\ yields l m d1 a /\ yields (l ++ d1) m2 d2 b /\ c = g a b.
Proof.
  rewrite yields_bind. split.
  - intros (d1 & d2 & a & -> & H & H2). apply yields_bind_ret in H2 as (b & H2 & ->). exists d1, d2, a, b. repeat split; assumption.
  - intros (d1 & d2 & a & b & -> & H1 & H2 & ->). exists d1, d2, a. split; [reflexivity|]. split; [exact H1|].
    apply yields_bind_ret. exists b. split; [exact H2|reflexivity].
Qed.

Lemma yields_va_dtree mr e : dok e -> forall l ds n',
  yields l (va_child mr (dtree e)) ds n' <-> exists mid, visit settle_operands e ds mid /\ n' = tree mleaf_tree mid.
Proof.
  induction e as [lf|e IH|op a IHa b IHb]; intros Hok l ds n'.
  - destruct lf as [v|lo hi|n s].
    + cbn. split.
      * intros (-> & ->). exists (Leaf (MInt v)). split; [constructor; split; reflexivity|reflexivity].
      * intros (mid & H & ->). inversion H; subst. destruct m; [|contradiction]. destruct H1 as (-> & ->). split; reflexivity.
    + cbn. split; [contradiction|]. intros (mid & H & ->). inversion H; subst. contradiction.
    + destruct Hok as (Hn & Hs). change (va_child mr (dtree (Leaf (DDice n s)))) with
        ('(l', r') <- eval_roll_args mr (rtree n) (rtree s) ;; CRet (NInfix (OpVar KD) l' r')).
      rewrite yields_bind. split.
      * intros (d1 & d2 & p & -> & H1 & H2). apply (yields_roll_args l mr n s _ _ Hn Hs) in H1 as (d3 & d4 & x & y & -> & Hx & Hy & ->).
        destruct H2 as (-> & ->). rewrite app_nil_r. exists (Leaf (MDice x y)). split; [|reflexivity].
        constructor. exists d3, d4. repeat split; assumption.
      * intros (mid & H & ->). inversion H; subst. destruct m as [|x y]; [contradiction|].
        destruct H1 as (d1 & d2 & -> & Hx & Hy). exists (d1 ++ d2), [], (NInt x, NInt y). rewrite app_nil_r.
        split; [reflexivity|]. split; [|split; reflexivity].
        apply (yields_roll_args l mr n s _ _ Hn Hs). exists d1, d2, x, y. repeat split; assumption.
  - specialize (IH Hok). change (dtree (Neg e)) with (NNeg (dtree e)). rewrite va_child_neg, eval_var_args_neg, yields_bind_ret. split.
    + intros (m & H & ->). apply IH in H as (mid & H & ->). exists (Neg mid). split; [constructor; exact H|reflexivity].
    + intros (mid & H & ->). inversion H; subst. eexists. split; [apply IH; eexists; split; [eassumption|reflexivity]|reflexivity].
  - destruct Hok as (Ka & Kb). specialize (IHa Ka). specialize (IHb Kb).
    change (dtree (Bin op a b)) with (NInfix (arith_op op) (dtree a) (dtree b)). rewrite va_child_arith, eval_var_args_arith, yields_bind2_ret. split.
    + intros (d1 & d2 & n1 & n2 & -> & H1 & H2 & ->). apply IHa in H1 as (m1 & H1 & ->). apply IHb in H2 as (m2 & H2 & ->).
      exists (Bin op m1 m2). split; [constructor; assumption|reflexivity].
    + intros (mid & H & ->). inversion H; subst. do 4 eexists. split; [reflexivity|].
      split; [apply IHa; eexists; split; [eassumption|reflexivity]|]. split; [apply IHb; eexists; split; [eassumption|reflexivity]|reflexivity].
Qed.

(** ** DetermineValues *)
Definition dv_child (c : node) : comp node :=
  if is_null c then panic_nil
  else if is_primary c then replace_variable_primary c
  else determine_values c.
Lemma determine_neg r : determine_values (NNeg r) = (r' <- dv_child r ;; CRet (NNeg r')).
Proof. reflexivity. Qed.
Lemma determine_infix op l r : determine_values (NInfix op l r) = (l' <- dv_child l ;; r' <- dv_child r ;; CRet (NInfix op l' r')).
Proof. reflexivity. Qed.
Lemma determine_command t e : determine_values (NCommand t e) = (e' <- dv_child e ;; CRet (NCommand t e')).
Proof. reflexivity. Qed.
Lemma dv_child_arith op l r : dv_child (NInfix (arith_op op) l r) = determine_values (NInfix (arith_op op) l r).
Proof. destruct op; reflexivity. Qed.

Lemma yields_dv mid : forall l ds n',
  yields l (dv_child (tree mleaf_tree mid)) ds n' <-> exists fin, visit roll_leaf mid ds fin /\ n' = tree sleaf_tree fin.
Proof.
  induction mid as [lf|e IH|op a IHa b IHb]; intros l ds n'.
  - destruct lf as [v|x y].
    + cbn. split.
      * intros (-> & ->). exists (Leaf (SInt v)). split; [constructor; split; reflexivity|reflexivity].
      * intros (fin & H & ->). inversion H; subst. destruct m; [|contradiction]. destruct H1 as (-> & ->). split; reflexivity.
    + change (dv_child (tree mleaf_tree (Leaf (MDice x y)))) with (CRoll x y (fun ds => CRet (NSumRoll ds))). cbn [yields]. split.
      * intros (d1 & d2 & -> & Hr & -> & ->). rewrite app_nil_r. exists (Leaf (SRoll d1)). split; [|reflexivity]. constructor. split; [reflexivity|exact Hr].
      * intros (fin & H & ->). inversion H; subst. destruct m as [|rs]; [contradiction|]. destruct H1 as (-> & Hr).
        exists ds, []. rewrite app_nil_r. repeat split; apply Hr.
  - change (tree mleaf_tree (Neg e)) with (NNeg (tree mleaf_tree e)).
    change (dv_child (NNeg (tree mleaf_tree e))) with (determine_values (NNeg (tree mleaf_tree e))). rewrite determine_neg, yields_bind_ret. split.
    + intros (m & H & ->). apply IH in H as (fin & H & ->). exists (Neg fin). split; [constructor; exact H|reflexivity].
    + intros (fin & H & ->). inversion H; subst. eexists. split; [apply IH; eexists; split; [eassumption|reflexivity]|reflexivity].
  - change (tree mleaf_tree (Bin op a b)) with (NInfix (arith_op op) (tree mleaf_tree a) (tree mleaf_tree b)).
    rewrite dv_child_arith, determine_infix, yields_bind2_ret. split.
    + intros (d1 & d2 & n1 & n2 & -> & H1 & H2 & ->). apply IHa in H1 as (m1 & H1 & ->). apply IHb in H2 as (m2 & H2 & ->).
      exists (Bin op m1 m2). split; [constructor; assumption|reflexivity].
    + intros (fin & H & ->). inversion H; subst. do 4 eexists. split; [reflexivity|].
      split; [apply IHa; eexists; split; [eassumption|reflexivity]|]. split; [apply IHb; eexists; split; [eassumption|reflexivity]|reflexivity].
Qed.

(** ** the final evaluation *)
Lemma stree_not_null fin : is_null (tree sleaf_tree fin) = false.
Proof. destruct fin as [[|]| |]; reflexivity. Qed.
Lemma mtree_not_null fin : is_null (tree mleaf_tree fin) = false.
Proof. destruct fin as [[|]| |]; reflexivity. Qed.
Lemma eval_stree mr fin : eval mr (tree sleaf_tree fin) = eval mr (itree (ae_map sum_leaf fin)).
Proof.
  induction fin as [[v|ds]|e IH|op a IHa b IHb]; [reflexivity| | |].
  - cbn [tree sleaf_tree eval itree ae_map sum_leaf]. unfold sum_roll_value. rewrite sum64_spec. reflexivity.
  - change (tree sleaf_tree (Neg e)) with (NNeg (tree sleaf_tree e)). change (itree (ae_map sum_leaf (Neg e))) with (NNeg (itree (ae_map sum_leaf e))).
    cbn [eval]. rewrite stree_not_null, itree_not_null, IH. reflexivity.
  - change (tree sleaf_tree (Bin op a b)) with (NInfix (arith_op op) (tree sleaf_tree a) (tree sleaf_tree b)).
    change (itree (ae_map sum_leaf (Bin op a b))) with (NInfix (arith_op op) (itree (ae_map sum_leaf a)) (itree (ae_map sum_leaf b))).
    cbn [eval]. rewrite !stree_not_null, !itree_not_null, IHa, IHb. reflexivity.
Qed.

Lemma notates_mtree mid : notates (tree mleaf_tree mid).
Proof. apply notates_tree. intros [v|x y]; [apply notates_int|]. apply notates_var; apply notates_int. Qed.
Lemma notates_stree fin : notates (tree sleaf_tree fin).
Proof. apply notates_tree. intros [v|ds]; [apply notates_int|apply notates_sum]. Qed.

(** ** the D expression command *)
Lemma gives_d_expr gid e ds r : dok e ->
  (gives gid (command_tree (DExpr e)) ds r <->
   exists ops rolls mid fin v s1 s2,
     ds = ops ++ rolls /\ d_value e ops rolls mid fin v /\
     infix_notation (tree mleaf_tree mid) true = Ok s1 /\ infix_notation (tree sleaf_tree fin) true = Ok s2 /\
     r = Result gid [parenthesize s1; s2; itoa v] ds Unspecified false).
Proof.
  intros Hok. rewrite gives_yields. cbn [command_tree execute]. unfold execute_d_roll_expr, eval_var_args_notation.
  rewrite eval_var_args_command. rewrite yields_bind. split.
  - intros (d1 & d2 & (n1 & s1) & -> & H1 & H2).
    apply yields_bind in H1 as (d3 & d4 & n1' & -> & H1 & H3).
    apply yields_bind_ret in H1 as (m & H1 & ->).
    apply (yields_va_dtree _ e Hok) in H1 as (mid & Hmid & ->).
    apply yields_clift_bind in H3 as (s & Hs & H3). cbn in H3. destruct H3 as (-> & H3). injection H3 as -> ->.
    rewrite !app_nil_r in *. cbn [app] in H2.
    apply yields_bind in H2 as (d4 & d5 & n2 & -> & H4 & H5).
    rewrite determine_command in H4. apply yields_bind_ret in H4 as (m & H4 & ->).
    apply yields_dv in H4 as (fin & Hfin & ->).
    apply yields_clift_bind in H5 as (s2 & Hs2 & H5). cbn [eval] in H5. rewrite eval_stree in H5.
    apply yields_bind in H5 as (d6 & d7 & o & -> & H5 & H6). apply yields_itree in H5 as (-> & v & -> & Hv).
    cbn in H6. destruct H6 as (-> & ->). rewrite !app_nil_r.
    exists d3, d4, mid, fin, v, s, s2. split; [reflexivity|]. split; [repeat split; assumption|].
    split; [exact Hs|]. split; [exact Hs2|reflexivity].
  - intros (ops & rolls & mid & fin & v & s1 & s2 & -> & (Hmid & Hfin & Hv) & Hs1 & Hs2 & ->).
    exists ops, rolls, (NCommand CDRollExpr (tree mleaf_tree mid), s1). split; [reflexivity|]. split.
    + apply yields_bind. exists ops, [], (NCommand CDRollExpr (tree mleaf_tree mid)). rewrite app_nil_r. split; [reflexivity|].
      split; [apply yields_bind_ret; eexists; split; [apply (yields_va_dtree _ e Hok); eexists; split; [exact Hmid|reflexivity]|reflexivity]|].
      apply yields_clift_bind. exists s1. split; [exact Hs1|]. split; reflexivity.
    + apply yields_bind. exists rolls, [], (NCommand CDRollExpr (tree sleaf_tree fin)). rewrite app_nil_r. split; [reflexivity|].
      split; [rewrite determine_command; apply yields_bind_ret; eexists; split; [apply yields_dv; eexists; split; [exact Hfin|reflexivity]|reflexivity]|].
      apply yields_clift_bind. exists s2. split; [exact Hs2|]. cbn [eval]. rewrite eval_stree.
      apply yields_bind. exists [], [], (OInt v). split; [reflexivity|]. split; [apply yields_itree; split; [reflexivity|]; exists v; split; [reflexivity|exact Hv]|].
      cbn. rewrite !app_nil_r. split; reflexivity.
Qed.

(** ** comparisons *)
Lemma compareb_spec op x y : is_compare_op op -> (compareb op x y = true <-> compares op x y).
Proof.
  unfold is_compare_op, compares. cbn [In]. intros H.
  repeat destruct H as [<-|H]; [..|contradiction]; (split; [intros E; cbn in E; intuition (try lia)|
    intros E; cbn; repeat destruct E as [[E1 E2]|E]; try discriminate; try (destruct E as [E1 E2]; try discriminate); lia]).
Qed.
Lemma eval_compare op x y : is_compare_op op -> eval_int_infix op x y = CRet (OBool (compareb op x y)).
Proof.
  unfold is_compare_op. cbn [In]. intros H. repeat destruct H as [<-|H]; [..|contradiction]; reflexivity.
Qed.

Lemma va_child_itree mr e : va_child mr (itree e) = CRet (itree e).
Proof.
  induction e as [v|e IH|op a IHa b IHb]; [reflexivity| |].
  - change (itree (Neg e)) with (NNeg (itree e)). rewrite va_child_neg, eval_var_args_neg, IH. reflexivity.
  - change (itree (Bin op a b)) with (NInfix (arith_op op) (itree a) (itree b)). rewrite va_child_arith, eval_var_args_arith, IHa, IHb. reflexivity.
Qed.
Lemma yields_va_rtree mr e : forall l ds n', yields l (va_child mr (rtree e)) ds n' -> ds = [] /\ n' = rtree e.
Proof.
  induction e as [[v|lo hi]|e IH|op a IHa b IHb]; intros l ds n'.
  - intros H. exact H.
  - intros H. contradiction.
  - change (rtree (Neg e)) with (NNeg (rtree e)). rewrite va_child_neg, eval_var_args_neg, yields_bind_ret. intros (m & H & ->).
    apply IH in H as (-> & ->). split; reflexivity.
  - change (rtree (Bin op a b)) with (NInfix (arith_op op) (rtree a) (rtree b)). rewrite va_child_arith, eval_var_args_arith, yields_bind2_ret.
    intros (d1 & d2 & m1 & m2 & -> & H1 & H2 & ->). apply IHa in H1 as (-> & ->). apply IHb in H2 as (-> & ->). split; reflexivity.
Qed.

Lemma yields_va_top mr e l ds n' : dok e -> comparable e ->
  (yields l (eval_var_args mr (dtree e)) ds n' <-> exists mid, visit settle_operands e ds mid /\ n' = tree mleaf_tree mid).
Proof.
  intros Hok Hc. destruct e as [[v|lo hi|[[x|]| |] [[y|]| |]]|e|op a b]; try contradiction.
  - cbn. split.
    + intros (-> & ->). exists (Leaf (MDice x y)). split; [|reflexivity]. constructor. exists [], []. split; [reflexivity|].
      split; apply operand_leaf_value; split; reflexivity.
    + intros (mid & H & ->). inversion H; subst. destruct m as [|p q]; [contradiction|]. destruct H1 as (d1 & d2 & -> & H1 & H2).
      apply operand_leaf_value in H1 as (-> & ->). apply operand_leaf_value in H2 as (-> & ->). split; reflexivity.
  - apply (yields_va_dtree mr (Neg e) Hok).
  - rewrite <- (yields_va_dtree mr (Bin op a b) Hok). unfold dtree. cbn [tree]. rewrite va_child_arith. reflexivity.
Qed.
Lemma incomparable_fails mr e l ds n' : ~ comparable e -> yields l (eval_var_args mr (dtree e)) ds n' ->
  forall l2 ds2 n2, ~ yields l2 (dv_child n') ds2 n2.
Proof.
  intros Hc H l2 ds2 n2 H2. destruct e as [[v|lo hi|n s]|e|op a b].
  - exact H.
  - change (dtree (Leaf (DRand lo hi))) with (NInfix (OpVar KRand) (itree lo) (itree hi)) in H.
    rewrite eval_var_args_var, !va_child_itree in H. destruct H as (_ & ->). exact H2.
  - change (dtree (Leaf (DDice n s))) with (NInfix (OpVar KD) (rtree n) (rtree s)) in H.
    rewrite eval_var_args_var in H. apply yields_bind2_ret in H as (d1 & d2 & m1 & m2 & -> & H3 & H4 & ->).
    apply yields_va_rtree in H3 as (-> & ->). apply yields_va_rtree in H4 as (-> & ->).
    change (dv_child (NInfix (OpVar KD) (rtree n) (rtree s))) with (determine_d_roll (rtree n) (rtree s)) in H2.
    destruct n as [[x|]|n|op a b]; try exact H2. destruct s as [[y|]|s|op a b]; try exact H2. apply Hc. exact I.
  - apply Hc. exact I.
  - apply Hc. exact I.
Qed.

Lemma gives_d_comp gid e op t ds r : dok e -> iok t -> is_compare_op op ->
  (gives gid (command_tree (DComp e op t)) ds r <->
   comparable e /\
   exists ops rolls mid fin v w s1 s2,
     ds = ops ++ rolls /\ d_value e ops rolls mid fin v /\ has_value t w /\
     infix_notation (tree mleaf_tree mid) true = Ok s1 /\ infix_notation (tree sleaf_tree fin) true = Ok s2 /\
     r = Result gid [parenthesize (s1 ++ op ++ itoa w); s2; itoa v; if compareb op v w then "成功" else "失敗"]%string ds
           (if compareb op v w then Success else Failure) false).
Proof.
  intros Hok Ht Hop. rewrite gives_yields. cbn [command_tree execute]. unfold execute_d_roll_comp, eval_var_args_notation.
  cbn [eval_var_args]. rewrite yields_bind. split.
  - intros (d1 & d2 & (n1 & s1) & -> & H1 & H2).
    apply yields_bind in H1 as (d3 & d4 & n1' & -> & H1 & H3).
    apply yields_bind in H1 as (d5 & d6 & nl & -> & H1 & H4).
    apply yields_bind in H4 as (d7 & d8 & ro & -> & H4 & H5). apply yields_itree in H4 as (-> & w & -> & Hw).
    cbn in H5. destruct H5 as (-> & ->). rewrite !app_nil_r in *. cbn [app] in *.
    apply yields_clift_bind in H3 as (s & Hs & H3). cbn in H3. destruct H3 as (-> & H3). injection H3 as -> ->.
    rewrite !app_nil_r in *.
    apply yields_bind in H2 as (d9 & d10 & n2 & -> & H6 & H7).
    rewrite determine_infix in H6. apply yields_bind2_ret in H6 as (d11 & d12 & m1 & m2 & -> & H8 & H9 & ->).
    assert (comparable e) as Hc.
    { destruct e as [[v|lo hi|[[x|]| |] [[y|]| |]]|e|op' a b]; try exact I; exfalso; (eapply incomparable_fails; [|exact H1|exact H8]); intros []. }
    split; [exact Hc|].
    apply (yields_va_top _ e _ _ _ Hok Hc) in H1 as (mid & Hmid & ->).
    apply yields_dv in H8 as (fin & Hfin & ->). cbn in H9. destruct H9 as (-> & ->). rewrite !app_nil_r in *.
    apply yields_clift_bind in H7 as (s2 & Hs2 & H7). unfold eval_compare_left in H7. rewrite eval_stree in H7.
    apply yields_bind in H7 as (d13 & d14 & v & -> & H7 & H10).
    apply yields_bind in H7 as (d15 & d16 & o & -> & H7 & H11). apply yields_itree in H7 as (-> & v' & -> & Hv).
    cbn in H11. destruct H11 as (-> & ->). rewrite !app_nil_r in *. cbn [app] in *.
    cbn [eval] in H10. unfold eval_infix in H10. cbn [is_null eval_operands cbind op_string] in H10.
    rewrite (eval_compare op _ _ Hop) in H10. cbn in H10. destruct H10 as (-> & ->). rewrite !app_nil_r in *.
    cbn [infix_notation] in Hs. destruct (infix_notation (tree mleaf_tree mid) true) as [sm|?|?] eqn:Em; try discriminate.
    cbn [obind] in Hs. injection Hs as <-.
    exists d5, d11, mid, fin, v', w, sm, s2. split; [reflexivity|]. split; [repeat split; assumption|]. split; [exact Hw|].
    split; [exact Em|]. split; [exact Hs2|]. reflexivity.
  - intros (Hc & ops & rolls & mid & fin & v & w & s1 & s2 & -> & (Hmid & Hfin & Hv) & Hw & Hs1 & Hs2 & ->).
    exists ops, rolls, (NInfix (OpCmp op) (tree mleaf_tree mid) (NInt w), (s1 ++ op ++ itoa w)%string). split; [reflexivity|]. split.
    + apply yields_bind. exists ops, [], (NInfix (OpCmp op) (tree mleaf_tree mid) (NInt w)). rewrite app_nil_r. split; [reflexivity|]. split.
      * apply yields_bind. exists ops, [], (tree mleaf_tree mid). rewrite app_nil_r. split; [reflexivity|].
        split; [apply (yields_va_top _ e _ _ _ Hok Hc); eexists; split; [exact Hmid|reflexivity]|].
        apply yields_bind. exists [], [], (OInt w). split; [reflexivity|]. split; [apply yields_itree; split; [reflexivity|]; exists w; split; [reflexivity|exact Hw]|].
        split; reflexivity.
      * apply yields_clift_bind. eexists. split; [cbn [infix_notation]; rewrite Hs1; reflexivity|]. split; reflexivity.
    + apply yields_bind. exists rolls, [], (NInfix (OpCmp op) (tree sleaf_tree fin) (NInt w)). rewrite app_nil_r. split; [reflexivity|]. split.
      * rewrite determine_infix. apply yields_bind2_ret. exists rolls, [], (tree sleaf_tree fin), (NInt w). rewrite app_nil_r. split; [reflexivity|].
        split; [apply yields_dv; eexists; split; [exact Hfin|reflexivity]|]. split; [split; reflexivity|reflexivity].
      * apply yields_clift_bind. exists s2. split; [exact Hs2|]. unfold eval_compare_left. rewrite eval_stree.
        apply yields_bind. exists [], [], v. split; [reflexivity|]. split.
        -- apply yields_bind. exists [], [], (OInt v). split; [reflexivity|]. split; [apply yields_itree; split; [reflexivity|]; exists v; split; [reflexivity|exact Hv]|]. split; reflexivity.
        -- cbn [eval]. unfold eval_infix. cbn [is_null eval_operands cbind op_string]. rewrite (eval_compare op _ _ Hop).
           cbn. rewrite !app_nil_r. split; reflexivity.
Qed.
