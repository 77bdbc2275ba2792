(** Property C94: the order of the dice. *)
From Coq Require Import Reals Permutation.
From Verif Require Import Grammar ProofBase Dice SpecDice DiceProofs Comp CompProofs Ast Eval Notation NotationProofs Command
  SpecText SpecGrammar SpecSyntax SpecArith ArithProofs SpecRoll SpecTotals SpecLists SpecFair SpecOdds SpecTyped SpecShuffled YieldsProofs DRollProofs NumberText BCDice CommandProofs
  Prop_arith Prop_droll Prop_lists Prop_exec Prop_totals Prop_fair Prop_chances Prop_average Prop_value Prop_typed Prop_complete Prop_odds Prop_monotone.
Open Scope list_scope.
Open Scope Z_scope.

Lemma sums_length e rs rs' : same_sums e rs rs' -> length rs = length (asked e) /\ length rs' = length (asked e).
Proof.
  induction 1 as [v|n s rs rs' H1 H2 _|e rs rs' _ IH|op a b r1 r2 r1' r2' _ (IH1 & IH2) _ (IH3 & IH4)]; cbn [asked]; [auto|rewrite repeat_length; auto|exact IH|rewrite !app_length; lia].
Qed.
Lemma in_sides_cut l1 l2 r1 r2 : length r1 = length l1 -> in_sides (l1 ++ l2) (r1 ++ r2) -> in_sides l1 r1 /\ in_sides l2 r2.
Proof.
  unfold in_sides. intros El H. apply Forall2_app_inv_l in H as (q1 & q2 & H1 & H2 & E).
  pose proof (in_sides_length _ _ H1) as L. assert (r1 = q1 /\ r2 = q2) as (-> & ->); [|auto]. apply app_eq_app in E as (m & [(-> & ->)|(-> & ->)]); rewrite app_length in *; destruct m; cbn in *; try lia; rewrite app_nil_r; auto.
Qed.
(** answers with the same sums lead to the same calculation *)
Lemma same_falls e rs rs' : same_sums e rs rs' -> rollable e -> in_sides (asked e) rs -> in_sides (asked e) rs' -> exists ie, falls e rs ie /\ falls e rs' ie.
Proof.
  unfold rollable. induction 1 as [v|n s rs rs' H1 H2 H3|e rs rs' _ IH|op a b r1 r2 r1' r2' Ha IHa Hb IHb]; cbn [all_leaves]; intros Hr Hi Hi'.
  - exists (Leaf v). split; (split; [exact Hi|]); exists (Leaf (SInt v)); (split; [constructor; split; reflexivity|reflexivity]).
  - destruct Hr as (R1 & R2 & R3 & R4). cbn [asked] in *.
    assert (forall q, length q = n -> in_sides (repeat s n) q -> falls (Leaf (WDice n s)) q (Leaf (sumz q + Z.of_nat n))) as K.
    { intros q Hq Hs. assert (answered n s q) as A. { split; [exact Hq|]. clear - Hs. revert Hs. generalize (repeat_spec n s). generalize (repeat s n). intros l Hl Hs. induction Hs as [|x y l q Hxy _ IH]; constructor; [rewrite <- (Hl x (or_introl eq_refl)); exact Hxy|]. apply IH. intros z Hz. apply Hl. right. exact Hz. }
      split; [exact Hs|]. cbn [asked]. rewrite (dice_for_repeat n s q Hq). exists (Leaf (SRoll (faces s q))). destruct (plain_value n s q R1 R2 R3 R4 A) as (_ & Hv & Hval). split; [exact Hv|].
      apply has_value_mach in Hval. cbn [mach ae_map] in *. injection Hval as Hval. f_equal. exact Hval. }
    exists (Leaf (sumz rs + Z.of_nat n)). split; [apply K; assumption|]. unfold sumz. rewrite H3. apply K; assumption.
  - destruct (IH Hr Hi Hi') as (ie & (S1 & f1 & V1 & <-) & (S2 & f2 & V2 & E)). exists (Neg (ae_map sum_leaf f1)). split; (split; [assumption|]); [exists (Neg f1)|exists (Neg f2)]; (split; [constructor; assumption|cbn; congruence]).
  - destruct Hr as (R1 & R2). cbn [asked] in Hi, Hi'. destruct (sums_length _ _ _ Ha) as (L1 & L1'). apply in_sides_cut in Hi as (I1 & I2); [|exact L1]. apply in_sides_cut in Hi' as (J1 & J2); [|exact L1'].
    destruct (IHa R1 I1 J1) as (ia & (_ & f1 & V1 & <-) & (_ & f2 & V2 & E1)). destruct (IHb R2 I2 J2) as (ib & (_ & g1 & W1 & <-) & (_ & g2 & W2 & E2)).
    exists (Bin op (ae_map sum_leaf f1) (ae_map sum_leaf g1)). split.
    + split; [apply Forall2_app; assumption|]. exists (Bin op f1 g1). cbn [asked]. rewrite dice_for_app by (symmetry; exact L1). split; [constructor; assumption|reflexivity].
    + split; [apply Forall2_app; assumption|]. exists (Bin op f2 g2). cbn [asked]. rewrite dice_for_app by (symmetry; exact L1'). split; [constructor; assumption|cbn; congruence].
Qed.
Lemma fall_none gid e rs ie : rollable e -> falls e rs ie -> (forall v, ~ has_value ie v) -> reply gid (DExpr (written e)) rs = None.
Proof. intros Hr Hf Hn. destruct (reply gid (DExpr (written e)) rs) as [r|] eqn:E; [|reflexivity]. destruct (reply_value gid e rs ie r Hr Hf E) as (v & Hv & _). destruct (Hn v Hv). Qed.
Lemma value_or_not ie : (exists v, has_value ie v) \/ forall v, ~ has_value ie v.
Proof. destruct (mach_total ie) as [(v & E)|(l & E)]; [left; exists v; apply has_value_mach, E|right; intros v H; apply has_value_mach in H; congruence]. Qed.
(** C94: the total depends on the sum of each roll only, even where the arithmetic overflows. *)
Theorem C94_sums gid e rs rs' : rollable e -> in_sides (asked e) rs -> in_sides (asked e) rs' -> same_sums e rs rs' ->
  (forall v, part_is 2 (itoa v) (reply gid (DExpr (written e)) rs) = part_is 2 (itoa v) (reply gid (DExpr (written e)) rs')) /\
  (reply gid (DExpr (written e)) rs = None <-> reply gid (DExpr (written e)) rs' = None).
Proof.
  intros Hr Hi Hi' H. destruct (same_falls e rs rs' H Hr Hi Hi') as (ie & F1 & F2). destruct (value_or_not ie) as [(w & Hw)|Hn].
  - destruct (fall_reply gid e rs ie w Hr F1 Hw) as (s1 & s2 & ->). destruct (fall_reply gid e rs' ie w Hr F2 Hw) as (s3 & s4 & ->). split; [reflexivity|split; discriminate].
  - rewrite (fall_none gid e rs ie Hr F1 Hn), (fall_none gid e rs' ie Hr F2 Hn). split; [reflexivity|tauto].
Qed.
Print Assumptions C94_sums.
Lemma comp_fall gid e op t w rs ie v : rollable e -> comparable (written e) -> is_compare_op op -> iok t -> has_value t w -> falls e rs ie -> has_value ie v ->
  exists parts, reply gid (DComp (written e) op t) rs = Some (Result gid parts (dice_for (asked e) rs) (if compareb op v w then Success else Failure) false) /\ nth_error parts 2 = Some (itoa v).
Proof.
  intros Hr Hc Hop Ht Hw (Hs & fin & Hv & <-) Hval. destruct (notates_mtree (mid_of e) true) as (s1 & Hs1). destruct (notates_stree fin true) as (s2 & Hs2). set (b := compareb op v w).
  assert (gives gid (command_tree (DComp (written e) op t)) (dice_for (asked e) rs) (Result gid [parenthesize (s1 ++ op ++ itoa w); s2; itoa v; if b then "成功" else "失敗"]%string (dice_for (asked e) rs) (if b then Success else Failure) false)) as Hg.
  { apply C16_d_comp_exact; [apply written_ok, Hr|assumption|assumption|]. split; [exact Hc|]. exists [], (dice_for (asked e) rs), (mid_of e), fin, v, w, s1, s2, b. split; [reflexivity|]. split; [split; [apply settle_written|split; assumption]|].
    split; [exact Hw|]. split; [apply compareb_spec, Hop|]. auto. }
  eexists. unfold reply. rewrite (gives_source _ _ _ _ _ _ Hg (answers_dice _ _ Hs (sides_int e Hr))). split; reflexivity.
Qed.
Lemma comp_fall_none gid e op t rs ie : rollable e -> is_compare_op op -> iok t -> falls e rs ie -> (forall v, ~ has_value ie v) -> reply gid (DComp (written e) op t) rs = None.
Proof.
  intros Hr Hop Ht (Hs & fin & Hv & <-) Hn. destruct (reply gid (DComp (written e) op t) rs) as [r|] eqn:E; [|reflexivity]. exfalso. unfold reply in E.
  destruct (run_command gid (command_tree (DComp (written e) op t)) (FRandom (source rs) 0)) as [[r0|?|?] f'] eqn:E'; try discriminate. clear E.
  destruct (C16_verdict gid (written e) op t _ _ _ (written_ok e Hr) Ht Hop E') as (ops & rolls & mid & fin' & v & w & Hd & (V1 & V2 & V3) & _).
  destruct (settle_only e _ _ V1) as (-> & ->). cbn [app] in Hd. rewrite (source_dice _ _ _ _ Hs (sides_int e Hr) Hd (roll_sides e _ _ V2)) in V2.
  rewrite <- (roll_only _ _ _ _ Hv V2) in V3. exact (Hn v V3).
Qed.
Definition verdict (r : option result) := option_map r_success r.
(** C94: and so do the verdict of a comparison and the total shown with it. *)
Theorem C94_verdict gid e op t w rs rs' : rollable e -> comparable (written e) -> is_compare_op op -> iok t -> has_value t w ->
  in_sides (asked e) rs -> in_sides (asked e) rs' -> same_sums e rs rs' ->
  verdict (reply gid (DComp (written e) op t) rs) = verdict (reply gid (DComp (written e) op t) rs') /\
  forall v, part_is 2 (itoa v) (reply gid (DComp (written e) op t) rs) = part_is 2 (itoa v) (reply gid (DComp (written e) op t) rs').
Proof.
  intros Hr Hc Hop Ht Hw Hi Hi' H. destruct (same_falls e rs rs' H Hr Hi Hi') as (ie & F1 & F2). destruct (value_or_not ie) as [(v & Hv)|Hn].
  - destruct (comp_fall gid e op t w rs ie v Hr Hc Hop Ht Hw F1 Hv) as (p & -> & E1). destruct (comp_fall gid e op t w rs' ie v Hr Hc Hop Ht Hw F2 Hv) as (p' & -> & E2). split; [reflexivity|]. intros u. cbn [part_is r_parts]. rewrite E1, E2. reflexivity.
  - rewrite (comp_fall_none gid e op t rs ie Hr Hop Ht F1 Hn), (comp_fall_none gid e op t rs' ie Hr Hop Ht F2 Hn). auto.
Qed.
Print Assumptions C94_verdict.
Lemma shuffled_sums e rs rs' : shuffled e rs rs' -> same_sums e rs rs'.
Proof.
  induction 1; constructor; try assumption.
  - rewrite <- (Permutation_length H0). assumption.
  - clear - H0. induction H0; cbn; lia.
Qed.
(** C94: in particular the order in which the dice of a roll fall does not matter. *)
Theorem C94_any_order gid e rs rs' : rollable e -> in_sides (asked e) rs -> in_sides (asked e) rs' -> shuffled e rs rs' ->
  (forall v, part_is 2 (itoa v) (reply gid (DExpr (written e)) rs) = part_is 2 (itoa v) (reply gid (DExpr (written e)) rs')) /\
  (forall op t w, comparable (written e) -> is_compare_op op -> iok t -> has_value t w ->
     verdict (reply gid (DComp (written e) op t) rs) = verdict (reply gid (DComp (written e) op t) rs')).
Proof.
  intros Hr Hi Hi' H. apply shuffled_sums in H. split; [exact (proj1 (C94_sums gid e rs rs' Hr Hi Hi' H))|]. intros op t w Hc Hop Ht Hw. exact (proj1 (C94_verdict gid e op t w rs rs' Hr Hc Hop Ht Hw Hi Hi' H)).
Qed.
Print Assumptions C94_any_order.
Lemma count_permutation {A} (p : A -> bool) l l' : Permutation l l' -> count p l = count p l'.
Proof. unfold count. induction 1 as [|x l l' _ IH|x y l|l l' l'' _ IH1 _ IH2]; cbn [filter]; [reflexivity|destruct (p x); cbn [length]; congruence|destruct (p x), (p y); reflexivity|congruence]. Qed.
(** C94: the number of successes of a B roll does not depend on which die shows what, even among dice with different sides. *)
Theorem C94_successes gid p ps op t w rs rs' : Forall b_rollable (p :: ps) -> is_compare_op op -> has_value t w ->
  in_sides (b_sides (p :: ps)) rs -> in_sides (b_sides (p :: ps)) rs' -> Permutation rs rs' ->
  exists text, part_is 2 text (reply gid (BComp (b_roll p) (map b_roll ps) op t) rs) = true /\ part_is 2 text (reply gid (BComp (b_roll p) (map b_roll ps) op t) rs') = true.
Proof.
  intros Hok Hop Hw Hi Hi' H. destruct (basic_reply gid p ps op t w rs Hok Hop Hw Hi) as (s1 & s2 & ->). destruct (basic_reply gid p ps op t w rs' Hok Hop Hw Hi') as (s3 & s4 & ->).
  eexists. split; [apply String.eqb_refl|]. cbn [part_is r_parts nth_error]. rewrite (count_permutation _ _ _ H). apply String.eqb_refl.
Qed.
Print Assumptions C94_successes.
(** C94, C76: the same as typed, if no combination of faces divides by zero. *)
Theorem C94_typed bot input secret e rs rs' : moderate input -> typed input (DExpr (written e)) secret -> rollable e -> size e < 2 ^ 52 -> ~ In None (outcomes e) ->
  in_sides (asked e) rs -> in_sides (asked e) rs' -> same_sums e rs rs' ->
  exists v, part_is 2 (itoa v) (answer bot input rs) = true /\ part_is 2 (itoa v) (answer bot input rs') = true.
Proof.
  intros Hl Ht Hr Hs Hn Hi Hi' H. destruct (same_falls e rs rs' H Hr Hi Hi') as (ie & F1 & F2).
  assert (forall l l', Forall2 (falls e) l l' -> In rs l -> exists ie', In ie' l' /\ falls e rs ie') as K.
  { induction 1 as [|x y l l' Hxy _ IH]; [intros []|]. intros [E|Hin]; [subst x; exists y; split; [left; reflexivity|exact Hxy]|]. destruct (IH Hin) as (z & Hz & Hf). exists z. split; [right; exact Hz|exact Hf]. }
  destruct (K _ _ (all_fall e Hr) (proj2 (proj1 (proj2 (C85_all_lists _)) rs) Hi)) as (ie' & Hin & F1').
  assert (ie' = ie) as ->. { destruct F1 as (_ & f1 & V1 & <-), F1' as (_ & f2 & V2 & <-). rewrite (roll_only _ _ _ _ V1 V2). reflexivity. }
  pose proof (small_ordinary e Hr Hs) as Ho. rewrite Forall_forall in Ho. destruct (Ho ie Hin) as (Ho1 & _). destruct (math_value ie) as [v|] eqn:Em.
  - apply (ordinary_value ie v Ho1) in Em. exists v. destruct (fall_reply (db_game_id bot) e rs ie v Hr F1 Em) as (s1 & s2 & E1). destruct (fall_reply (db_game_id bot) e rs' ie v Hr F2 Em) as (s3 & s4 & E2).
    rewrite (reply_answer _ _ _ _ _ _ Hl Ht E1), (reply_answer _ _ _ _ _ _ Hl Ht E2). split; apply String.eqb_refl.
  - exfalso. apply Hn. rewrite outcomes_math. rewrite <- Em. apply in_map, Hin.
Qed.
Print Assumptions C94_typed.
(** 2D6*1D4: 3 and 5, 4 is worth as much as 5 and 3, 4, and as 4 and 4, 4. *)
Definition product_roll : wexpr := Bin Times (Leaf (WDice 2 6)) (Leaf (WDice 1 4)).
Example C94_example :
  rollable product_roll /\ comparable (written product_roll) /\ in_sides (asked product_roll) [2; 4; 3] /\ in_sides (asked product_roll) [4; 2; 3] /\ in_sides (asked product_roll) [3; 3; 3] /\
  shuffled product_roll [2; 4; 3] [4; 2; 3] /\ same_sums product_roll [2; 4; 3] [3; 3; 3] /\
  part_is 2 "32" (reply "DiceBot" (DExpr (written product_roll)) [2; 4; 3]) = true /\ part_is 2 "32" (reply "DiceBot" (DExpr (written product_roll)) [4; 2; 3]) = true /\
  part_is 2 "32" (reply "DiceBot" (DExpr (written product_roll)) [3; 3; 3]) = true /\
  (* but the dice of different rolls may not be exchanged *)
  part_is 2 "27" (reply "DiceBot" (DExpr (written product_roll)) [3; 4; 2]) = true.
Proof.
  split; [cbn; unfold max_int, max_alloc_16, two63; lia|]. split; [exact I|]. split; [repeat (constructor; [lia|]); constructor|]. split; [repeat (constructor; [lia|]); constructor|]. split; [repeat (constructor; [lia|]); constructor|].
  split; [apply (shuffled_bin Times _ _ [2; 4] [3] [4; 2] [3]); constructor; try reflexivity; constructor|]. split; [apply (sums_bin Times _ _ [2; 4] [3] [3; 3] [3]); constructor; reflexivity|]. vconj.
Qed.
Example C94_example_successes :
  Forall b_rollable [(1%nat, 4); (1%nat, 6)] /\ in_sides (b_sides [(1%nat, 4); (1%nat, 6)]) [1; 3] /\ in_sides (b_sides [(1%nat, 4); (1%nat, 6)]) [3; 1] /\ Permutation [1; 3] [3; 1] /\
  part_is 2 "成功数1" (reply "DiceBot" (BComp (b_roll (1%nat, 4)) (map b_roll [(1%nat, 6)]) ">=" (Leaf 3)) [1; 3]) = true.
Proof.
  split; [repeat constructor; cbn; unfold max_alloc_16, max_int, two63; lia|]. split; [cbn; repeat (constructor; [lia|]); constructor|]. split; [cbn; repeat (constructor; [lia|]); constructor|]. split; [apply perm_swap|]. vmc.
Qed.

Example C94_example_typed : moderate "S2d6 attack!" /\ typed "S2d6 attack!" (DExpr (written (Leaf (WDice 2 6)))) true /\ rollable (Leaf (WDice 2 6)) /\ size (Leaf (WDice 2 6)) < 2 ^ 52 /\ ~ In None (outcomes (Leaf (WDice 2 6))) /\
  same_sums (Leaf (WDice 2 6)) [0; 5] [3; 2] /\ part_is 2 "7" (answer basic_bot "S2d6 attack!" [0; 5]) = true.
Proof.
  split; [exact (proj1 (proj2 C76_example))|]. split; [exact (proj1 C76_example)|]. split; [cbn; unfold max_alloc_16, max_int, two63; lia|]. split; [reflexivity|].
  split; [vm_compute; intros H; repeat (destruct H as [H|H]; [discriminate H|]); exact H|]. split; [constructor; reflexivity|]. vmc.
Qed.
