(** Which outcomes the evaluation of command trees can have. *)
From Verif Require Import ProofBase Dice SpecDice DiceProofs Comp CompProofs Ast Eval Notation NotationProofs Command
  SpecSyntax ArithProofs SpecRoll YieldsProofs DRollProofs WpProofs.
Open Scope list_scope.
Open Scope Z_scope.

Definition obj_is_int (o : obj) : Prop := exists v, o = OInt v.
Definition ints (vs : list Z) : obj := OArray (map OInt vs).
Definition obj_is_ints (o : obj) : Prop := exists vs, o = ints vs.

Section S.
  Variable D : die -> Prop.
  Variable Q : string -> Prop.
  Notation wp := (wp D Q).

  Lemma wp_oint o : (forall p, o <> Panic p) -> wp (oint o) obj_is_int.
  Proof. intros H. destruct o; cbn; [eexists; reflexivity|exact I|]. exfalso. eapply H. reflexivity. Qed.
  Lemma mach_op_no_panic op x y p : mach_op op x y <> Panic p.
  Proof. destruct op; cbn; try discriminate. destruct (y =? 0); discriminate. Qed.
  Lemma mach_no_panic e p : mach e <> Panic p.
  Proof.
    revert p. induction e as [v|e IH|op a IHa b IHb]; intros p; cbn [mach]; [discriminate| |].
    - destruct (mach e); try discriminate. intros [= ->]. eapply IH. reflexivity.
    - destruct (mach a) as [x|?|q]; [|discriminate|intros [= ->]; eapply IHa; reflexivity].
      destruct (mach b) as [y|?|q]; [|discriminate|intros [= ->]; eapply IHb; reflexivity]. apply mach_op_no_panic.
  Qed.
  Lemma wp_itree mr e : wp (eval mr (itree e)) obj_is_int.
  Proof. rewrite eval_itree. apply wp_oint. intros p. apply mach_no_panic. Qed.

  Lemma wp_operands opn a b (P : obj -> Prop) (R : obj -> Prop) : wp a P -> wp b R ->
    wp (eval_operands opn (Some a) (Some b)) (fun p => P (fst p) /\ R (snd p)).
  Proof.
    intros Ha Hb. cbn [eval_operands]. eapply wp_bind_with; [exact Ha|]. intros x Hx.
    eapply wp_bind_with; [exact Hb|]. intros y Hy. cbn. split; assumption.
  Qed.

  Lemma wp_random_number x y : wp (eval_random_number x y) obj_is_int.
  Proof.
    unfold eval_random_number. destruct (y <=? x); [exact I|]. cbn [WpProofs.wp]. split; [left; unfold max_alloc_16; lia|].
    intros ds (H1 & H2 & H3 & H4) _. destruct ds as [|d ds]; [cbn in H3; lia|]. cbn. eexists. reflexivity.
  Qed.

  Lemma wp_rtree mr e : wp (eval mr (rtree e)) obj_is_int.
  Proof.
    induction e as [[v|lo hi]|e IH|op a IHa b IHb].
    - cbn. eexists. reflexivity.
    - change (rtree (Leaf (RRand lo hi))) with (NInfix (OpVar KRand) (itree lo) (itree hi)). cbn [eval].
      rewrite !itree_not_null. unfold eval_infix. eapply wp_bind_with; [apply wp_operands; apply wp_itree|].
      intros (p & q) ((x & Hx) & (y & Hy)). cbn in Hx, Hy. subst. cbn [op_string]. apply wp_random_number.
    - change (rtree (Neg e)) with (NNeg (rtree e)). cbn [eval]. rewrite rtree_not_null. cbn [eval_prefix].
      eapply wp_bind_with; [exact IH|]. intros o (v & ->). cbn. eexists. reflexivity.
    - change (rtree (Bin op a b)) with (NInfix (arith_op op) (rtree a) (rtree b)). cbn [eval]. rewrite !rtree_not_null.
      unfold eval_infix. eapply wp_bind_with; [apply wp_operands; eassumption|].
      intros (p & q) ((x & Hx) & (y & Hy)). cbn in Hx, Hy. subst.
      change (wp (cbind (CRet (OInt x, OInt y)) (fun p => match fst p, snd p with
        | OInt x, OInt y => match arith_op op with OpDiv m => eval_int_divide m x y | _ => eval_int_infix (op_string (arith_op op)) x y end
        | _, _ => CErr EmptyString end)) obj_is_int).
      cbn [cbind fst snd].
      assert (match arith_op op with OpDiv m => eval_int_divide m x y | _ => eval_int_infix (op_string (arith_op op)) x y end
        = oint (mach_op op x y)) as ->.
      { rewrite <- (eval_arith_op op (CRet (OInt x)) (CRet (OInt y)) x y eq_refl eq_refl). reflexivity. }
      apply wp_oint. intros; apply mach_op_no_panic.
  Qed.

  Lemma wp_roll_args mr n s : wp (eval_roll_args mr (rtree n) (rtree s)) (fun p => exists x y, p = (NInt x, NInt y)).
  Proof.
    unfold eval_roll_args. eapply wp_bind_with; [apply wp_rtree|]. intros o (x & ->).
    eapply wp_bind_with; [apply wp_rtree|]. intros o (y & ->). cbn. exists x, y. reflexivity.
  Qed.

  (** no random number stands outside a roll operand *)
  Fixpoint no_loose_random (e : dexpr) : Prop :=
    match e with
    | Leaf (DRand _ _) => False
    | Leaf _ => True
    | Neg e => no_loose_random e
    | Bin _ a b => no_loose_random a /\ no_loose_random b
    end.
  Lemma loose_random_part e lo hi : part (Leaf (DRand lo hi)) e -> ~ no_loose_random e.
  Proof. induction 1; cbn; tauto. Qed.

  Lemma wp_va_dtree mr e : wp (va_child mr (dtree e)) (fun n => no_loose_random e /\ exists mid, n = tree mleaf_tree mid).
  Proof.
    induction e as [[v|lo hi|n s]|e IH|op a IHa b IHb].
    - cbn. split; [exact I|]. exists (Leaf (MInt v)). reflexivity.
    - exact I.
    - change (va_child mr (dtree (Leaf (DDice n s)))) with
        ('(l', r') <- eval_roll_args mr (rtree n) (rtree s) ;; CRet (NInfix (OpVar KD) l' r')).
      eapply wp_bind_with; [apply wp_roll_args|]. intros p (x & y & ->). cbn. split; [exact I|]. exists (Leaf (MDice x y)). reflexivity.
    - change (dtree (Neg e)) with (NNeg (dtree e)). rewrite va_child_neg, eval_var_args_neg.
      eapply wp_bind_with; [exact IH|]. intros m (H & mid & ->). cbn. split; [exact H|]. exists (Neg mid). reflexivity.
    - change (dtree (Bin op a b)) with (NInfix (arith_op op) (dtree a) (dtree b)). rewrite va_child_arith, eval_var_args_arith.
      eapply wp_bind_with; [exact IHa|]. intros m (H & mid & ->).
      eapply wp_bind_with; [exact IHb|]. intros m (H2 & mid2 & ->). cbn. split; [tauto|]. exists (Bin op mid mid2). reflexivity.
  Qed.

  Lemma va_rtree mr e : va_child mr (rtree e) = CRet (rtree e) \/ exists msg, va_child mr (rtree e) = CErr msg.
  Proof.
    induction e as [[v|lo hi]|e IH|op a IHa b IHb].
    - left. reflexivity.
    - right. eexists. reflexivity.
    - change (rtree (Neg e)) with (NNeg (rtree e)). rewrite va_child_neg, eval_var_args_neg.
      destruct IH as [->|(m & ->)]; [left; reflexivity|right; eexists; reflexivity].
    - change (rtree (Bin op a b)) with (NInfix (arith_op op) (rtree a) (rtree b)). rewrite va_child_arith, eval_var_args_arith.
      destruct IHa as [->|(m & ->)]; [|right; eexists; reflexivity].
      destruct IHb as [->|(m & ->)]; [left; reflexivity|right; eexists; reflexivity].
  Qed.

  (** determine_values: only the allocation can panic *)
  Lemma wp_dv mid : Q alloc_panic -> wp (dv_child (tree mleaf_tree mid)) (fun n => exists fin, n = tree sleaf_tree fin).
  Proof.
    intros HQ. induction mid as [[v|x y]|e IH|op a IHa b IHb].
    - cbn. exists (Leaf (SInt v)). reflexivity.
    - change (dv_child (tree mleaf_tree (Leaf (MDice x y)))) with (CRoll x y (fun ds => CRet (NSumRoll ds))). cbn [WpProofs.wp].
      split; [right; exact HQ|]. intros ds _ _. exists (Leaf (SRoll ds)). reflexivity.
    - change (tree mleaf_tree (Neg e)) with (NNeg (tree mleaf_tree e)).
      change (dv_child (NNeg (tree mleaf_tree e))) with (determine_values (NNeg (tree mleaf_tree e))). rewrite determine_neg.
      eapply wp_bind_with; [exact IH|]. intros m (fin & ->). cbn. exists (Neg fin). reflexivity.
    - change (tree mleaf_tree (Bin op a b)) with (NInfix (arith_op op) (tree mleaf_tree a) (tree mleaf_tree b)).
      rewrite dv_child_arith, determine_infix.
      eapply wp_bind_with; [exact IHa|]. intros m (f1 & ->).
      eapply wp_bind_with; [exact IHb|]. intros m (f2 & ->). cbn. exists (Bin op f1 f2). reflexivity.
  Qed.
End S.

Lemma wp_va_top D Q mr e :
  wp D Q (eval_var_args mr (dtree e)) (fun n =>
    (no_loose_random e /\ exists mid, n = tree mleaf_tree mid) \/
    (exists lo hi, n = NInfix (OpVar KRand) (itree lo) (itree hi)) \/
    (exists a b, n = NInfix (OpVar KD) (rtree a) (rtree b) /\ e = Leaf (DDice a b))).
Proof.
  destruct e as [[v|lo hi|a b]|e|op a b].
  - exact I.
  - change (dtree (Leaf (DRand lo hi))) with (NInfix (OpVar KRand) (itree lo) (itree hi)).
    rewrite eval_var_args_var, !va_child_itree. cbn. right. left. exists lo, hi. reflexivity.
  - change (dtree (Leaf (DDice a b))) with (NInfix (OpVar KD) (rtree a) (rtree b)). rewrite eval_var_args_var.
    destruct (va_rtree mr a) as [->|(m & ->)]; [|exact I]. destruct (va_rtree mr b) as [->|(m & ->)]; [|exact I].
    cbn. right. right. exists a, b. split; reflexivity.
  - eapply wp_mono; [apply (wp_va_dtree D Q mr (Neg e))|]. intros n H. left. exact H.
  - pose proof (wp_va_dtree D Q mr (Bin op a b)) as H. unfold dtree in H. cbn [tree] in H. rewrite va_child_arith in H.
    eapply wp_mono; [exact H|]. intros n Hn. left. exact Hn.
Qed.
