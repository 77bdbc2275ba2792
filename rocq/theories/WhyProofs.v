(** The errors of commands. *)
From Verif Require Import ProofBase Dice SpecDice DiceProofs Comp CompProofs Ast Eval Notation NotationProofs Command
  SpecSyntax ArithProofs SpecRoll SpecLists SpecCounts SpecReasons YieldsProofs DRollProofs WpProofs WpEval ListProofs RerollProofs ExplodeProofs WpCommand Prop_dice.
Open Scope list_scope.
Open Scope Z_scope.

Lemma visit_part {L M} (leaf : L -> list die -> M -> Prop) e ds e' p' : visit leaf e ds e' -> part p' e' ->
  exists p ds0 x y, part p e /\ visit leaf p ds0 p' /\ ds = x ++ ds0 ++ y.
Proof.
  intros H. revert p'. induction H as [l ds m H|e ds e' H IH|op a b d1 d2 a' b' Ha IHa Hb IHb]; intros p' Hp.
  - inversion Hp; subst. exists (Leaf l), ds, [], []. split; [constructor|]. split; [constructor; exact H|]. cbn. rewrite app_nil_r. reflexivity.
  - inversion Hp as [|e0 Hp'| |]; subst.
    + exists (Neg e), ds, [], []. split; [constructor|]. split; [constructor; exact H|]. cbn. rewrite app_nil_r. reflexivity.
    + destruct (IH _ Hp') as (p & d0 & x & y & H1 & H2 & H3). exists p, d0, x, y. split; [constructor; exact H1|]. split; assumption.
  - inversion Hp as [| |op0 a0 b0 Hp'|op0 a0 b0 Hp']; subst.
    + exists (Bin op a b), (d1 ++ d2), [], []. split; [constructor|]. split; [constructor; assumption|]. cbn. rewrite app_nil_r. reflexivity.
    + destruct (IHa _ Hp') as (p & d0 & x & y & H1 & H2 & ->). exists p, d0, x, (y ++ d2). split; [apply part_l; exact H1|]. split; [exact H2|]. rewrite <- !app_assoc. reflexivity.
    + destruct (IHb _ Hp') as (p & d0 & x & y & H1 & H2 & ->). exists p, d0, (d1 ++ x), y. split; [apply part_r; exact H1|]. split; [exact H2|]. rewrite <- !app_assoc. reflexivity.
Qed.
Lemma map_part {L M} (f : L -> M) e p' : part p' (ae_map f e) -> exists p, part p e /\ p' = ae_map f p.
Proof.
  induction e as [l|e IH|op a IHa b IHb]; cbn [ae_map]; intros H.
  - inversion H; subst. exists (Leaf l). split; [constructor|reflexivity].
  - inversion H as [|e0 H'| |]; subst; [exists (Neg e); split; [constructor|reflexivity]|]. destruct (IH H') as (p & H1 & ->). exists p. split; [constructor; exact H1|reflexivity].
  - inversion H as [| |op0 a0 b0 H'|op0 a0 b0 H']; subst; [exists (Bin op a b); split; [constructor|reflexivity]| |].
    + destruct (IHa H') as (p & H1 & ->). exists p. split; [apply part_l; exact H1|reflexivity].
    + destruct (IHb H') as (p & H1 & ->). exists p. split; [apply part_r; exact H1|reflexivity].
Qed.
Lemma mach_error e msg : mach e = Err msg -> by_zero has_value e msg.
Proof.
  revert msg. induction e as [v|e IH|op a IHa b IHb]; intros msg; cbn [mach]; [discriminate| |].
  - destruct (mach e) as [x|m|p]; try discriminate. intros [= <-]. destruct (IH _ eq_refl) as [m0 a b x H1 H2 H3]. apply (by_zero_ has_value (Neg e) m0 a b x); [constructor; exact H1|exact H2|exact H3].
  - destruct (mach a) as [x|m|p] eqn:Ea; [|intros [= <-]|discriminate].
    + destruct (mach b) as [y|m|p] eqn:Eb; [|intros [= <-]|discriminate].
      * destruct op as [| | |m]; cbn [obind mach_op]; try discriminate. destruct (Z.eqb_spec y 0) as [->|Hy]; [|intros Em; discriminate Em]. intros Em. injection Em as <-.
        apply (by_zero_ has_value _ m a b x); [constructor|apply has_value_mach; exact Ea|apply has_value_mach; exact Eb].
      * destruct (IHb _ eq_refl) as [m0 a0 b0 x0 H1 H2 H3]. apply (by_zero_ has_value _ m0 a0 b0 x0); [apply part_r; exact H1|exact H2|exact H3].
    + destruct (IHa _ eq_refl) as [m0 a0 b0 x0 H1 H2 H3]. apply (by_zero_ has_value _ m0 a0 b0 x0); [apply part_l; exact H1|exact H2|exact H3].
Qed.

Section Ep.
  Variable D : die -> Prop.        (* the dice that can be rolled *)
  Variable W : string -> Prop.     (* the errors that are possible *)
  (** [fine x y]: the complaints about rolling x dice with y sides are possible errors *)
  Definition fine_for (name : string) (x y : Z) : Prop :=
    (y < 1 -> W (complaint name x y ++ "ダイスの面数が少なすぎます")%string) /\ (1 <= y -> x < 1 -> W (complaint name x y ++ "振るダイス数が少なすぎます")%string).
  Notation fine := (fine_for "RollDice").
  Fixpoint ep {A} (c : comp A) (P : A -> Prop) : Prop :=
    match c with
    | CRet a => P a
    | CErr e => W e
    | CPanic _ => True
    | CRoll n s k => fine n s /\ forall ds, rolled n s ds -> Forall D ds -> ep (k ds) P
    | CLog k => forall l, ep (k l) P
    end.
  Lemma ep_mono {A} (c : comp A) (P P' : A -> Prop) : ep c P -> (forall a, P a -> P' a) -> ep c P'.
  Proof. induction c as [a|e|p|n s k IH|k IH]; cbn [ep]; intros H HP; auto. destruct H as (H1 & H2). split; [exact H1|]. intros. apply IH; auto. Qed.
  Lemma ep_bind {A B} (m : comp A) (f : A -> comp B) (P : B -> Prop) : ep m (fun a => ep (f a) P) -> ep (cbind m f) P.
  Proof. induction m as [a|e|p|n s k IH|k IH]; cbn [ep cbind]; intros H; auto. destruct H as (H1 & H2). split; [exact H1|]. intros. apply IH; auto. Qed.
  Lemma ep_bind_with {A B} (m : comp A) (f : A -> comp B) (R : A -> Prop) (P : B -> Prop) : ep m R -> (forall a, R a -> ep (f a) P) -> ep (cbind m f) P.
  Proof. intros H1 H2. apply ep_bind. eapply ep_mono; [exact H1|exact H2]. Qed.
  Lemma complaint_call x y rest : (complaint "RollDice" x y ++ rest = roll_call x y ++ ": " ++ rest)%string.
  Proof.
    assert (forall a b c : string, ((a ++ b) ++ c = a ++ b ++ c)%string) as A by (induction a as [|z a IH]; intros b c; cbn; [reflexivity|rewrite IH; reflexivity]).
    unfold complaint. rewrite roll_call_app, !A. reflexivity.
  Qed.
  (** every error comes from a complaint, or from the dice of a queue *)
  Lemma ep_run {A} (c : comp A) (P : A -> Prop) : ep c P -> forall s e s', feeds D (es_feeder s) -> run c s = (Err e, s') ->
    W e \/ exists q, es_feeder s = FQueue q /\ unfit_dice q e.
  Proof.
    induction c as [a|m|p|n sd k IH|k IH]; cbn [ep]; intros H s e s' Hf Hr; cbn [run] in Hr; try discriminate Hr.
    - injection Hr as <- _. left. exact H.
    - destruct H as ((F1 & F2) & H2). destruct (roll_dice n sd (es_feeder s)) as [[ds|m|p] f'] eqn:E; [| |discriminate Hr].
      + pose proof (roll_dice_ok _ _ _ _ _ E) as (K1 & K2 & K3 & K4 & K5). apply supplies_draws in K5. destruct (feeds_draws _ _ _ _ Hf K5) as (Hd & Hf').
        assert (rolled n sd ds) as Hrd by (repeat split; assumption || lia).
        destruct (IH ds (H2 ds Hrd Hd) (EState f' (es_log s ++ ds)) e s' Hf' Hr) as [Hw|(q & Hq & num & sides & taken & rest & lft & -> & N1 & N2 & Hl)]; [left; exact Hw|right].
        cbn [es_feeder] in Hq. subst f'. destruct (es_feeder s) as [q0|intn j]; [|exfalso; revert K5; clear; remember (FRandom intn j) as f0 eqn:E0; remember (FQueue (taken ++ rest)) as f1 eqn:E1; intros H; revert intn j E0; induction H as [f|f s0 d f2 ds f3 Hn H IH]; intros intn j E0; [congruence|subst f; cbn in Hn; destruct (s0 <=? 0); [discriminate|]; injection Hn as _ <-; eapply IH; eauto]].
        exists q0. split; [reflexivity|]. apply draws_queue in K5 as (q1 & E1 & ->). injection E1 as <-. exists num, sides, (ds ++ taken), rest, lft. rewrite <- app_assoc. auto.
      + injection Hr as <- _. destruct (Z.ltb_spec sd 1) as [G1|G1].
        { left. unfold roll_dice in E. replace (sd <? 1) with true in E by lia. injection E as <- _. specialize (F1 G1). rewrite complaint_call, roll_call_app in F1. exact F1. }
        destruct (Z.ltb_spec n 1) as [G2|G2].
        { left. unfold roll_dice in E. replace (sd <? 1) with false in E by lia. replace (n <? 1) with true in E by lia. injection E as <- _. specialize (F2 G1 G2). rewrite complaint_call, roll_call_app in F2. exact F2. }
        destruct (es_feeder s) as [q|intn j].
        * right. exists q. split; [reflexivity|]. assert (n <= max_alloc_16) as Hm. { destruct (Z.leb_spec n max_alloc_16) as [Hm|Hm]; [exact Hm|]. unfold roll_dice in E. replace (sd <? 1) with false in E by lia. replace (n <? 1) with false in E by lia. replace (max_alloc_16 <? n) with true in E by lia. discriminate E. }
          assert (exists q2, f' = FQueue q2) as (q2 & ->). { destruct (roll_dice_draws _ _ _ _ _ E) as (ds & Dr). apply draws_queue in Dr as (q2 & -> & _). eauto. }
          exists n, sd, [], q, q2. split; [reflexivity|]. split; [exact G2|]. split; [exact G1|]. apply C01_roll_errors; assumption.
        * exfalso. unfold roll_dice in E. replace (sd <? 1) with false in E by lia. replace (n <? 1) with false in E by lia. destruct (max_alloc_16 <? n); [discriminate E|]. revert E. generalize (@nil die). generalize (Z.to_nat n). clear - G1. intros k. revert j.
          induction k as [|k IH]; intros j acc; [discriminate|]. cbn [roll_loop feeder_next]. replace (sd <=? 0) with false by lia. cbn [die_sides]. rewrite Z.eqb_refl. apply IH.
    - exact (IH _ (H _) _ _ _ Hf Hr).
  Qed.

  (** ** Numbers *)
  Lemma ep_oint o (P : obj -> Prop) : (forall msg, o = Err msg -> W msg) -> (forall v, o = Ok v -> P (OInt v)) -> ep (oint o) P.
  Proof. destruct o as [v|m|p]; intros H1 H2; cbn; auto. Qed.
  Lemma ep_itree mr e : (forall msg, by_zero has_value e msg -> W msg) -> ep (eval mr (itree e)) (fun o => exists v, o = OInt v /\ has_value e v).
  Proof.
    intros H. rewrite eval_itree. apply ep_oint; [intros msg E; apply H, mach_error, E|]. intros v E. exists v. split; [reflexivity|apply has_value_mach; exact E].
  Qed.
  Lemma ep_operands opn a b (P R : obj -> Prop) : ep a P -> ep b R -> ep (eval_operands opn (Some a) (Some b)) (fun p => P (fst p) /\ R (snd p)).
  Proof. intros Ha Hb. cbn [eval_operands]. eapply ep_bind_with; [exact Ha|]. intros x Hx. eapply ep_bind_with; [exact Hb|]. intros y Hy. cbn. split; assumption. Qed.
  Lemma ep_random mr lo hi : iok lo -> iok hi -> (forall msg, random_reason lo hi msg -> W msg) ->
    ep (eval mr (rtree (Leaf (RRand lo hi)))) (fun o => exists v ops, o = OInt v /\ Forall D ops /\ operand_leaf (RRand lo hi) ops v).
  Proof.
    intros Hlo Hhi HW. change (rtree (Leaf (RRand lo hi))) with (NInfix (OpVar KRand) (itree lo) (itree hi)). cbn [eval]. rewrite !itree_not_null. unfold eval_infix.
    eapply ep_bind_with; [apply ep_operands; apply ep_itree; intros msg H; apply HW; [apply reason_low|apply reason_high]; exact H|].
    intros (p & q) ((x & Hx & Vx) & (y & Hy & Vy)). cbn in Hx, Hy. subst. cbn [op_string].
    change (ep (eval_random_number x y) (fun o => exists v ops, o = OInt v /\ Forall D ops /\ operand_leaf (RRand lo hi) ops v)).
    unfold eval_random_number. destruct (Z.leb_spec y x) as [Hr|Hr]; [apply HW, reason_empty; assumption|].
    apply has_value_mach in Vx as Vx', Vy as Vy'. pose proof (mach_range _ _ Hlo Vx') as Rx. pose proof (mach_range _ _ Hhi Vy') as Ry.
    assert (b64 : 2 ^ 64 = 18446744073709551616) by reflexivity.
    rewrite wrap64_add_l. destruct (Z_le_gt_dec (y - x + 1) max_int) as [Hm|Hm].
    - rewrite wrap64_id by (unfold in_int64, min_int, max_int, two63 in *; lia). cbn [ep]. split; [split; intros; lia|].
      intros ds Hrd Hd. apply rolled_one in Hrd as (H1 & d & -> & Hs). cbn. eexists. exists [d]. split; [reflexivity|]. split; [exact Hd|].
      exists x, y, d. split; [exact Vx|]. split; [exact Vy|]. split; [lia|]. split; [lia|]. split; [reflexivity|]. split; [congruence|]. apply wrap64_add_l.
    - assert (wrap64 (y - x + 1) = y - x + 1 - 2 ^ 64) as Ew.
      { rewrite <- (wrap64_id (y - x + 1 - 2 ^ 64)) by (unfold in_int64, min_int, max_int, two63 in *; lia).
        replace (y - x + 1 - 2 ^ 64) with (y - x + 1 + (-1) * 2 ^ 64) by lia. unfold wrap64, two64, two63. rewrite b64.
        replace (y - x + 1 + -1 * 18446744073709551616 + 9223372036854775808) with (y - x + 1 + 9223372036854775808 + -1 * 18446744073709551616) by lia.
        rewrite Z_mod_plus_full. reflexivity. }
      assert (y - x + 1 - 2 ^ 64 < 1) as Hlt by (unfold in_int64, min_int, max_int, two63 in *; lia).
      rewrite Ew. cbn [ep]. split; [split|].
      + intros _. rewrite complaint_call. change (": " ++ "ダイスの面数が少なすぎます")%string with ": ダイスの面数が少なすぎます"%string. apply HW, reason_wide; [exact Vx|exact Vy|lia].
      + intros; lia.
      + intros ds (_ & H1 & _). lia.
  Qed.
  Lemma ep_rtree mr e : rok e -> (forall msg, operand_reason D e msg -> W msg) -> ep (eval mr (rtree e)) (fun o => exists v, o = OInt v /\ comes_out D e v).
  Proof.
    induction e as [[v|lo hi]|e IH|op a IHa b IHb]; intros Hok HW.
    - cbn. exists v. split; [reflexivity|]. exists []. split; [constructor|]. apply operand_leaf_value. split; reflexivity.
    - destruct Hok as (Hlo & Hhi). eapply ep_mono; [apply (ep_random mr lo hi Hlo Hhi)|].
      + intros msg H. apply HW. eapply reason_random; [constructor|exact H].
      + intros o (v & ops & -> & Hd & Hv). exists v. split; [reflexivity|]. exists ops. split; [exact Hd|]. apply operand_leaf_value. exact Hv.
    - change (rtree (Neg e)) with (NNeg (rtree e)). cbn [eval]. rewrite rtree_not_null. cbn [eval_prefix].
      eapply ep_bind_with; [apply (IH Hok)|].
      + intros msg H. apply HW. destruct H as [msg [m a b x H1 H2 H3]|lo hi msg H1 H2]; [apply reason_quotient; econstructor; [constructor; exact H1|exact H2|exact H3]|eapply reason_random; [constructor; exact H1|exact H2]].
      + intros o (v & -> & ops & Hd & Hv). cbn. eexists. split; [reflexivity|]. exists ops. split; [exact Hd|]. apply operand_neg. exists v. split; [exact Hv|reflexivity].
    - destruct Hok as (Ha & Hb). change (rtree (Bin op a b)) with (NInfix (arith_op op) (rtree a) (rtree b)). cbn [eval]. rewrite !rtree_not_null.
      unfold eval_infix. eapply ep_bind_with; [apply ep_operands; [apply (IHa Ha)|apply (IHb Hb)]|].
      + intros msg H. apply HW. destruct H as [msg [m a0 b0 x H1 H2 H3]|lo hi msg H1 H2]; [apply reason_quotient; econstructor; [apply part_l; exact H1|exact H2|exact H3]|eapply reason_random; [apply part_l; exact H1|exact H2]].
      + intros msg H. apply HW. destruct H as [msg [m a0 b0 x H1 H2 H3]|lo hi msg H1 H2]; [apply reason_quotient; econstructor; [apply part_r; exact H1|exact H2|exact H3]|eapply reason_random; [apply part_r; exact H1|exact H2]].
      + intros (p & q) ((x & Hx & V1) & (y & Hy & V2)). cbn in Hx, Hy. subst.
        assert (match arith_op op with OpDiv m => eval_int_divide m x y | _ => eval_int_infix (op_string (arith_op op)) x y end = oint (mach_op op x y)) as E.
        { rewrite <- (eval_arith_op op (CRet (OInt x)) (CRet (OInt y)) x y eq_refl eq_refl). reflexivity. }
        change (ep (match arith_op op with OpDiv m => eval_int_divide m x y | _ => eval_int_infix (op_string (arith_op op)) x y end) (fun o => exists v, o = OInt v /\ comes_out D (Bin op a b) v)).
        rewrite E. apply ep_oint.
        * intros msg Em. destruct op as [| | |m]; cbn [mach_op] in Em; try discriminate Em. destruct (Z.eqb_spec y 0) as [->|Hy]; [|discriminate Em]. injection Em as <-.
          apply HW, reason_quotient. apply (by_zero_ (comes_out D) _ m a b x); [constructor|exact V1|exact V2].
        * intros v Ev. destruct V1 as (d1 & D1 & V1), V2 as (d2 & D2 & V2). exists v. split; [reflexivity|]. exists (d1 ++ d2). split; [apply Forall_app; tauto|]. apply operand_bin. exists d1, d2, x, y. tauto.
  Qed.
  (** ** Rolls *)
  Definition ready name (r : roll) : Prop := roll_ok r /\ (forall msg, roll_reason D name r msg -> W msg).
  Definition settled_pair (r : roll) (p : Z * Z) : Prop := comes_out D (fst r) (fst p) /\ comes_out D (snd r) (snd p).
  Lemma ready_fine name r p : ready name r -> settled_pair r p -> fine_for name (fst p) (snd p).
  Proof. intros (_ & HW) (H1 & H2). split; intros; apply HW; [apply reason_few_sides|apply reason_few_dice]; assumption. Qed.
  Lemma ep_roll_args mr name n s : ready name (n, s) -> ep (eval_roll_args mr (rtree n) (rtree s)) (fun p => exists x y, p = (NInt x, NInt y) /\ settled_pair (n, s) (x, y)).
  Proof.
    intros ((Hn & Hs) & HW). unfold eval_roll_args. cbn [fst snd] in *.
    eapply ep_bind_with; [apply (ep_rtree mr n Hn); intros msg H; apply HW, reason_count, H|]. intros o (x & -> & Hx).
    eapply ep_bind_with; [apply (ep_rtree mr s Hs); intros msg H; apply HW, reason_sides, H|]. intros o (y & -> & Hy). cbn. exists x, y. split; [reflexivity|split; assumption].
  Qed.
  Lemma ep_va_rolls mr k name rs : k <> KRand -> Forall (ready name) rs -> ep (var_args_rolls mr (map (roll_tree k) rs)) (fun vs => exists ps, Forall2 settled_pair rs ps /\ vs = map (lit_roll k) ps).
  Proof.
    intros Hk. induction 1 as [|(n & s) rs Hr Hrs IH]; cbn [map roll_tree fst snd var_args_rolls].
    - cbn. exists []. split; [constructor|reflexivity].
    - assert (var_args_of_vroll mr k (rtree n) (rtree s) = eval_roll_args mr (rtree n) (rtree s)) as -> by (destruct k; try reflexivity; contradiction).
      eapply ep_bind_with; [apply (ep_roll_args mr name n s Hr)|]. intros p (x & y & -> & Hx).
      eapply ep_bind_with; [exact IH|]. intros vs (ps & Hp & ->). cbn. exists ((x, y) :: ps). split; [constructor; assumption|reflexivity].
  Qed.
  Lemma pairs_fine name rs ps : Forall (ready name) rs -> Forall2 settled_pair rs ps -> Forall (fun p => fine_for name (fst p) (snd p)) ps.
  Proof. intros Hr H. induction H as [|r p rs ps H H' IH]; [constructor|]. inversion_clear Hr. constructor; [eapply ready_fine; eassumption|apply IH; assumption]. Qed.
  Definition zero_ok (e : iexpr) : Prop := forall msg, by_zero has_value e msg -> W msg.
  Lemma ep_va_threshold mr th : Forall zero_ok (opt_list th) -> ep (var_args_threshold mr (th_tree th)) (fun n => exists t, n = opt_node t).
  Proof.
    intros H. unfold var_args_threshold. destruct th as [e|]; cbn [th_tree].
    - rewrite itree_not_null. assert (is_nil (itree e) = false) as -> by (destruct e; reflexivity). inversion_clear H.
      eapply ep_bind_with; [apply ep_itree; assumption|]. intros o (v & -> & _). cbn. exists (Some v). reflexivity.
    - cbn. exists None. reflexivity.
  Qed.
  Lemma ep_va_bonus mr b : Forall zero_ok (map snd (opt_list b)) -> ep (var_args_bonus mr (bonus_tree b)) (fun o => exists m, in_int64 m /\ o = lit_bonus m).
  Proof.
    intros H. destruct b as [[sgn e]|].
    - assert (bonus_tree (Some (sgn, e)) = Some (Bonus (if sgn then OpAdd else OpSub) (NInt 0) (itree e))) as -> by (destruct sgn; reflexivity). inversion_clear H.
      cbn [var_args_bonus]. eapply ep_bind_with with (R := fun o => exists m, in_int64 m /\ o = OInt m).
      + unfold operand. rewrite itree_not_null. cbn [is_null]. unfold eval_infix.
        eapply ep_bind_with; [apply ep_operands with (P := fun o => o = OInt 0) (R := fun o => exists v, o = OInt v /\ has_value e v); [reflexivity|apply ep_itree; assumption]|].
        intros (p & q) (Hp & v & Hq & _). cbn in Hp, Hq. subst. destruct sgn; cbn; (eexists; split; [|reflexivity]; apply wrap64_range).
      + intros o (m & Hm & ->). cbn. exists m. split; [exact Hm|reflexivity].
    - cbn. exists 0. split; [unfold in_int64, min_int, max_int, two63; lia|reflexivity].
  Qed.
  Notation fine_pair := (fun p : Z * Z => fine (fst p) (snd p)).
  Lemma ep_basic_roll x y : fine x y -> ep (eval_basic_roll x y) (fun o => exists vs, 1 <= y /\ Z.of_nat (length vs) = x /\ o = ints vs).
  Proof. intros Hc. cbn. split; [exact Hc|]. intros ds (_ & Hy & Hl & _) _. exists (values ds). split; [exact Hy|]. split; [unfold values; rewrite map_length; exact Hl|]. unfold ints, values. rewrite map_map. reflexivity. Qed.
  Lemma ep_b_list k ps : k = KB \/ k = KR -> Forall fine_pair ps -> forall vs, ep (eval_b_roll_list (map (lit_q k) ps) (map OInt vs)) (fun o => exists vs, o = ints vs).
  Proof.
    intros Hk Hc. induction Hc as [|p ps Hp Hc IH]; intros vs; cbn [map eval_b_roll_list].
    - cbn. exists vs. reflexivity.
    - rewrite (eval_qroll_lit k p Hk). eapply ep_bind_with; [apply ep_basic_roll; exact Hp|]. intros o (ws & _ & _ & ->). unfold ints. rewrite <- map_app. apply IH.
  Qed.
  Lemma ep_r_loop t n : forall ps (gs : list (list Z)), Forall fine_pair ps -> ep (eval_r_loop n t (map (lit_q KR) ps) (map ints gs)) (fun o => exists gs, o = OArray (map ints gs)).
  Proof.
    induction n as [|n IH]; intros ps gs Hc.
    - cbn. exists gs. reflexivity.
    - destruct ps as [|p ps]; cbn [map eval_r_loop].
      + cbn. exists gs. reflexivity.
      + inversion_clear Hc as [|? ? Hp Hc']. rewrite (eval_qroll_lit KR p (or_intror eq_refl)). eapply ep_bind_with; [apply ep_basic_roll; exact Hp|]. intros o (vs & Hy & Hl & ->). cbn [ints].
        rewrite count_ge_vals. set (k := 0 + _). change [OArray (map OInt vs)] with (map ints [vs]). rewrite <- map_app. destruct (Z.ltb_spec 0 k) as [Hk|Hk].
        * change [QRoll KR (Some (CRet (OInt k))) (q_sides (lit_q KR p))] with (map (lit_q KR) [(k, snd p)]). rewrite <- map_app. apply IH. apply Forall_app. split; [exact Hc'|].
          constructor; [|constructor]. cbn [fst snd]. split; intros; lia.
        * apply IH. exact Hc'.
  Qed.
  Lemma ep_u_chain y t n : 1 <= y -> forall vs, ep (eval_u_chain n y t (map OInt vs)) (fun g => exists vs, g = map OInt vs).
  Proof.
    intros Hy. induction n as [|n IH]; intros vs; cbn [eval_u_chain].
    - cbn. exists vs. reflexivity.
    - cbn [ep]. split; [split; intros; lia|]. intros ds Hr _. apply rolled_one in Hr as (_ & d & -> & _).
      change [OInt (die_value d)] with (map OInt [die_value d]). rewrite <- map_app. destruct (die_value d <? t); [cbn; eexists; reflexivity|apply IH].
  Qed.
  Lemma ep_u_groups mr y t n : 1 <= y -> forall gs, ep (eval_u_groups mr n y t (map ints gs)) (fun o => exists gs', o = map ints gs').
  Proof.
    intros Hy. induction n as [|n IH]; intros gs; cbn [eval_u_groups].
    - cbn. exists gs. reflexivity.
    - eapply ep_bind_with; [apply (ep_u_chain y t _ Hy [])|]. intros g (vs & ->). change [OArray (map OInt vs)] with (map ints [vs]). rewrite <- map_app. apply IH.
  Qed.
  Lemma ep_compounding mr t p : fine_for "evalCompoundingRoll" (fst p) (snd p) -> ep (eval_compounding_roll mr (lit_q KU p) t) (fun o => exists gs, o = map ints gs).
  Proof.
    intros (F1 & F2). unfold eval_compounding_roll. cbn [lit_q q_kind q_num q_sides eval_operands cbind].
    assert (forall a b c : string, ((a ++ b) ++ c = a ++ b ++ c)%string) as A by (induction a as [|z a IH]; intros b c; cbn; [reflexivity|rewrite IH; reflexivity]).
    destruct (Z.ltb_spec (snd p) 1) as [G1|G1]; [specialize (F1 G1); unfold complaint in F1; rewrite !A in F1; exact F1|].
    destruct (Z.ltb_spec (fst p) 1) as [G2|G2]; [specialize (F2 G1 G2); unfold complaint in F2; rewrite !A in F2; exact F2|].
    destruct (max_alloc_16 <? fst p); [exact I|]. apply (ep_u_groups mr (snd p) t _ G1 []).
  Qed.
  Lemma ep_u_rolls mr t ps : Forall (fun p => fine_for "evalCompoundingRoll" (fst p) (snd p)) ps -> forall gs, ep (eval_u_rolls mr (map (lit_q KU) ps) t (map ints gs)) (fun o => exists gs', o = map ints gs').
  Proof.
    induction 1 as [|p ps Hp Hc IH]; intros gs; cbn [map eval_u_rolls].
    - cbn. exists gs. reflexivity.
    - eapply ep_bind_with; [apply (ep_compounding _ _ _ Hp)|]. intros o (g & ->). rewrite <- map_app. apply IH.
  Qed.
  Lemma ep_ok {A B} (o : outcome A) (f : A -> comp B) (P : B -> Prop) : is_ok o -> (forall a, ep (f a) P) -> ep (cbind (clift o) f) P.
  Proof. intros (a & ->) H. cbn. apply H. Qed.
  Lemma ep_count_groups op w gs : is_compare_op op -> forall acc, ep (count_group_successes (map ints gs) op w acc) (fun _ => True).
  Proof. intros Hop. induction gs as [|g gs IH]; intros acc; [exact I|]. cbn [map ints count_group_successes]. rewrite (count_vals op w g Hop). apply IH. Qed.

  (** ** D expressions *)
  Definition d_ready (e : dexpr) : Prop := dok e /\ Forall (fun r => forall msg, roll_reason D "RollDice" r msg -> W msg) (d_rolls e) /\ (forall lo hi, part (Leaf (DRand lo hi)) e -> W no_random_text).
  Lemma ep_va_dtree mr e : d_ready e -> ep (va_child mr (dtree e)) (fun n => exists ops mid, Forall D ops /\ visit settle_operands e ops mid /\ n = tree mleaf_tree mid).
  Proof.
    induction e as [[v|lo hi|n s]|e IH|op a IHa b IHb]; intros (Hok & Hr & Hl).
    - cbn. exists [], (Leaf (MInt v)). split; [constructor|]. split; [constructor; split; reflexivity|reflexivity].
    - exact (Hl lo hi (part_self _)).
    - change (va_child mr (dtree (Leaf (DDice n s)))) with ('(l', r') <- eval_roll_args mr (rtree n) (rtree s) ;; CRet (NInfix (OpVar KD) l' r'))%comp. cbn [d_rolls] in Hr. inversion_clear Hr.
      eapply ep_bind_with; [apply (ep_roll_args mr "RollDice" n s); split; [exact Hok|assumption]|]. intros p (x & y & -> & (d1 & D1 & V1) & (d2 & D2 & V2)). cbn [fst snd] in *. cbn.
      exists (d1 ++ d2), (Leaf (MDice x y)). split; [apply Forall_app; tauto|]. split; [constructor; exists d1, d2; auto|reflexivity].
    - change (dtree (Neg e)) with (NNeg (dtree e)). rewrite va_child_neg, eval_var_args_neg.
      eapply ep_bind_with; [apply IH; split; [exact Hok|]; split; [exact Hr|]; intros lo hi H; eapply Hl; constructor; exact H|]. intros m (ops & mid & Hd & Hv & ->). cbn. exists ops, (Neg mid). split; [exact Hd|]. split; [constructor; exact Hv|reflexivity].
    - change (dtree (Bin op a b)) with (NInfix (arith_op op) (dtree a) (dtree b)). rewrite va_child_arith, eval_var_args_arith. destruct Hok as (Oa & Ob). cbn [d_rolls] in Hr. apply Forall_app in Hr as (Ra & Rb).
      eapply ep_bind_with; [apply IHa; split; [exact Oa|]; split; [exact Ra|]; intros lo hi H; eapply Hl; apply part_l; exact H|]. intros m (o1 & m1 & D1 & V1 & ->).
      eapply ep_bind_with; [apply IHb; split; [exact Ob|]; split; [exact Rb|]; intros lo hi H; eapply Hl; apply part_r; exact H|]. intros m (o2 & m2 & D2 & V2 & ->). cbn.
      exists (o1 ++ o2), (Bin op m1 m2). split; [apply Forall_app; tauto|]. split; [constructor; assumption|reflexivity].
  Qed.
  Definition fine_leaf (m : mleaf) : Prop := match m with MInt _ => True | MDice x y => fine x y end.
  Lemma settled_fine e ops mid : Forall (fun r => forall msg, roll_reason D "RollDice" r msg -> W msg) (d_rolls e) -> Forall D ops -> visit settle_operands e ops mid -> all_leaves fine_leaf mid.
  Proof.
    intros Hr Hd H. induction H as [l ds m H|e ds e' H IH|op a b d1 d2 a' b' Ha IHa Hb IHb]; cbn [d_rolls all_leaves] in *; [|auto|].
    - destruct l as [v|lo hi|n s], m as [w|x y]; cbn in H; try contradiction; [exact I|]. destruct H as (d1 & d2 & -> & V1 & V2). apply Forall_app in Hd as (D1 & D2). inversion_clear Hr as [|? ? HW _].
      cbn [fine_leaf]. split; intros; apply HW; [apply reason_few_sides|apply reason_few_dice]; try assumption; eexists; eauto.
    - apply Forall_app in Hr as (Ra & Rb). apply Forall_app in Hd as (Da & Db). split; [apply IHa|apply IHb]; assumption.
  Qed.
  Lemma ep_dv mid : all_leaves fine_leaf mid -> ep (dv_child (tree mleaf_tree mid)) (fun n => exists rolls fin, Forall D rolls /\ visit roll_leaf mid rolls fin /\ n = tree sleaf_tree fin).
  Proof.
    induction mid as [[v|x y]|e IH|op a IHa b IHb]; intros Hc.
    - cbn. exists [], (Leaf (SInt v)). split; [constructor|]. split; [constructor; split; reflexivity|reflexivity].
    - change (dv_child (tree mleaf_tree (Leaf (MDice x y)))) with (CRoll x y (fun ds => CRet (NSumRoll ds))). cbn [ep]. split; [exact Hc|]. intros ds Hr Hd. exists ds, (Leaf (SRoll ds)). split; [exact Hd|]. split; [constructor; split; [reflexivity|exact Hr]|reflexivity].
    - change (tree mleaf_tree (Neg e)) with (NNeg (tree mleaf_tree e)). change (dv_child (NNeg (tree mleaf_tree e))) with (determine_values (NNeg (tree mleaf_tree e))). rewrite determine_neg.
      eapply ep_bind_with; [exact (IH Hc)|]. intros m (rolls & fin & Hd & Hv & ->). cbn. exists rolls, (Neg fin). split; [exact Hd|]. split; [constructor; exact Hv|reflexivity].
    - change (tree mleaf_tree (Bin op a b)) with (NInfix (arith_op op) (tree mleaf_tree a) (tree mleaf_tree b)). rewrite dv_child_arith, determine_infix. destruct Hc as (Ca & Cb).
      eapply ep_bind_with; [exact (IHa Ca)|]. intros m (r1 & f1 & D1 & V1 & ->). eapply ep_bind_with; [exact (IHb Cb)|]. intros m (r2 & f2 & D2 & V2 & ->). cbn.
      exists (r1 ++ r2), (Bin op f1 f2). split; [apply Forall_app; tauto|]. split; [constructor; assumption|reflexivity].
  Qed.
  (** the sum at the end *)
  Lemma total_by_zero e ops mid rolls fin msg : Forall D ops -> Forall D rolls -> visit settle_operands e ops mid -> visit roll_leaf mid rolls fin ->
    by_zero has_value (ae_map sum_leaf fin) msg -> by_zero (d_comes_out D) e msg.
  Proof.
    intros Do Dr Hm Hf [m a b x Hp Ha Hb]. apply map_part in Hp as (p & Hp & Ep). destruct p as [l|p|op a1 b1]; try discriminate Ep. cbn [ae_map] in Ep. injection Ep as <- -> ->.
    destruct (visit_part _ _ _ _ _ Hf Hp) as (p & rs & x1 & y1 & Hp1 & Hv1 & ->). inversion Hv1 as [| |op a2 b2 r1 r2 a1' b1' Va Vb]; subst.
    destruct (visit_part _ _ _ _ _ Hm Hp1) as (p & os & x2 & y2 & Hp2 & Hv2 & ->). inversion Hv2 as [| |op a3 b3 o1 o2 a2' b2' Ua Ub]; subst.
    repeat match goal with H : Forall D (_ ++ _) |- _ => apply Forall_app in H as (? & ?) end.
    apply (by_zero_ (d_comes_out D) e m a3 b3 x); [exact Hp2| |].
    - exists o1, r1, a2, a1. repeat split; assumption.
    - exists o2, r2, b2, b1. repeat split; assumption.
  Qed.
End Ep.
