(** Properties C71, C72: what totals legal dice can give; queued and random dice. *)
From Coq Require Import Reals.
From Verif Require Import Grammar ProofBase Dice SpecDice DiceProofs Comp CompProofs Ast Eval Notation NotationProofs Command
  SpecSyntax SpecArith ArithProofs SpecRoll SpecTotals SpecLists YieldsProofs DRollProofs NumberText BCDice CommandProofs ExecProofs BCDiceProofs Prop_droll Prop_exec Prop_exec2.
Open Scope list_scope.
Open Scope Z_scope.

Lemma sum_range ds : Forall legal ds -> forall y, Forall (fun d => die_sides d = y) ds ->
  Z.of_nat (length ds) <= fold_right Z.add 0 (map die_value ds) <= Z.of_nat (length ds) * y.
Proof.
  induction 1 as [|d ds Hd H IH]; intros y Hy; [cbn; lia|]. inversion_clear Hy. specialize (IH y H1).
  cbn [map fold_right length]. unfold legal in Hd. rewrite H0 in Hd. nia.
Qed.
Lemma sum_reached n : forall y t, 1 <= y -> Z.of_nat n <= t <= Z.of_nat n * y ->
  exists ds, length ds = n /\ Forall legal ds /\ Forall (fun d => die_sides d = y) ds /\ fold_right Z.add 0 (map die_value ds) = t.
Proof.
  induction n as [|n IH]; intros y t Hy Ht.
  - exists []. repeat split; try constructor. cbn in *. lia.
  - set (v := Z.min y (t - Z.of_nat n)). destruct (IH y (t - v) Hy) as (ds & H1 & H2 & H3 & H4); [unfold v; nia|].
    exists (Die v y :: ds). cbn [length map fold_right die_value]. split; [lia|]. split; [constructor; [unfold legal, v; cbn [die_value die_sides]; lia|exact H2]|].
    split; [constructor; [reflexivity|exact H3]|]. lia.
Qed.

Lemma operand_choice_of l ds v : rleaf_ok l -> Forall legal ds -> operand_leaf l ds v -> operand_choice l v.
Proof.
  destruct l as [w|lo hi]; cbn; [tauto|]. intros (Hlo & Hhi) Hl (a & b & d & Ha & Hb & Hab & Hm & -> & Hs & ->).
  exists a, b. repeat (split; [assumption|]). inversion_clear Hl. unfold legal in H.
  apply has_value_mach in Ha, Hb. pose proof (mach_range _ _ Hlo Ha). pose proof (mach_range _ _ Hhi Hb).
  rewrite wrap64_id; [lia|]. unfold in_int64 in *. lia.
Qed.
Lemma operand_choice_to l v : rleaf_ok l -> operand_choice l v -> exists ds, Forall legal ds /\ operand_leaf l ds v.
Proof.
  destruct l as [w|lo hi]; cbn; [intros _ ->; exists []; repeat split; constructor|].
  intros (Hlo & Hhi) (a & b & Ha & Hb & Hab & Hm & Hv). exists [Die (v - a + 1) (b - a + 1)]. split; [constructor; [unfold legal; cbn; lia|constructor]|].
  exists a, b, (Die (v - a + 1) (b - a + 1)). repeat (split; [assumption || reflexivity|]). cbn [die_value].
  apply has_value_mach in Ha, Hb. pose proof (mach_range _ _ Hlo Ha). pose proof (mach_range _ _ Hhi Hb).
  replace (a - 1 + (v - a + 1)) with v by lia. symmetry. apply wrap64_id. unfold in_int64 in *. lia.
Qed.
(** visits with legal dice are instances *)
Lemma visit_instance {L M} (P : L -> Prop) (leaf : L -> list die -> M -> Prop) (pick : L -> M -> Prop) :
  (forall l ds m, P l -> Forall legal ds -> leaf l ds m -> pick l m) ->
  forall e ds e', all_leaves P e -> Forall legal ds -> visit leaf e ds e' -> instance pick e e'.
Proof.
  intros H e ds e' HP Hl Hv. induction Hv; cbn in HP.
  - constructor. eauto.
  - constructor. auto.
  - apply Forall_app in Hl as (H1 & H2). destruct HP. constructor; auto.
Qed.
Lemma instance_visit {L M} (P : L -> Prop) (leaf : L -> list die -> M -> Prop) (pick : L -> M -> Prop) :
  (forall l m, P l -> pick l m -> exists ds, Forall legal ds /\ leaf l ds m) ->
  forall e e', all_leaves P e -> instance pick e e' -> exists ds, Forall legal ds /\ visit leaf e ds e'.
Proof.
  intros H e e' HP Hv. induction Hv; cbn in HP.
  - destruct (H l m HP H0) as (ds & H1 & H2). exists ds. split; [exact H1|constructor; exact H2].
  - destruct (IHHv HP) as (ds & H1 & H2). exists ds. split; [exact H1|constructor; exact H2].
  - destruct HP as (P1 & P2). destruct (IHHv1 P1) as (d1 & H1 & H2). destruct (IHHv2 P2) as (d2 & H3 & H4).
    exists (d1 ++ d2). split; [apply Forall_app; tauto|constructor; assumption].
Qed.
Lemma operand_possible n ds v : rok n -> Forall legal ds -> operand_value n ds v -> possible_operand n v.
Proof.
  intros Hok Hl (ie & Hv & Hval). exists ie. split; [|exact Hval].
  eapply visit_instance; [apply operand_choice_of|exact Hok|exact Hl|exact Hv].
Qed.
Lemma possible_operand_dice n v : rok n -> possible_operand n v -> exists ds, Forall legal ds /\ operand_value n ds v.
Proof.
  intros Hok (ie & Hv & Hval). destruct (instance_visit rleaf_ok operand_leaf operand_choice operand_choice_to _ _ Hok Hv) as (ds & H1 & H2).
  exists ds. split; [exact H1|]. exists ie. split; assumption.
Qed.

(** Operand choices, then roll choices *)
Definition settle_choice (l : dleaf) (m : mleaf) : Prop :=
  match l, m with
  | DInt v, MInt w => w = v
  | DDice n s, MDice x y => possible_operand n x /\ possible_operand s y
  | _, _ => False
  end.
Definition sum_choice (m : mleaf) (v : Z) : Prop :=
  match m with
  | MInt w => v = w
  | MDice x y => exists t, 1 <= x <= max_alloc_16 /\ 1 <= y /\ x <= t <= x * y /\ v = wrap64 t
  end.
Lemma choices_compose e ie : instance roll_choice e ie <-> exists mid, instance settle_choice e mid /\ instance sum_choice mid ie.
Proof.
  split.
  - induction 1 as [l v H|e e' _ (mid & H1 & H2)|op a b a' b' _ (m1 & H1 & H2) _ (m2 & H3 & H4)].
    + destruct l as [w|lo hi|n s]; cbn in H; [|contradiction|].
      * exists (Leaf (MInt w)). split; constructor; [reflexivity|exact H].
      * destruct H as (x & y & t & H1 & H2 & H3 & H4 & H5 & H6). exists (Leaf (MDice x y)). split; constructor; [split; assumption|]. exists t. tauto.
    + exists (Neg mid). split; constructor; assumption.
    + exists (Bin op m1 m2). split; constructor; assumption.
  - intros (mid & H1 & H2). revert ie H2. induction H1 as [l m H|e e' _ IH|op a b a' b' _ IH1 _ IH2]; intros ie H2; inversion H2; subst; constructor; auto.
    destruct l as [w|lo hi|n s], m as [u|x y]; cbn in *; try contradiction; [congruence|].
    destruct H as (P1 & P2), H1 as (t & H3 & H4 & H5 & H6). exists x, y, t. tauto.
Qed.
Lemma settle_of l ds m : dleaf_ok l -> Forall legal ds -> settle_operands l ds m -> settle_choice l m.
Proof.
  destruct l as [w|lo hi|n s], m as [u|x y]; cbn; try tauto. intros (Hn & Hs) Hl (d1 & d2 & -> & H1 & H2).
  apply Forall_app in Hl as (L1 & L2). split; [exact (operand_possible _ _ _ Hn L1 H1)|exact (operand_possible _ _ _ Hs L2 H2)].
Qed.
Lemma settle_to l m : dleaf_ok l -> settle_choice l m -> exists ds, Forall legal ds /\ settle_operands l ds m.
Proof.
  destruct l as [w|lo hi|n s], m as [u|x y]; cbn; try contradiction.
  - intros _ ->. exists []. repeat split; constructor.
  - intros (Hn & Hs) (H1 & H2). destruct (possible_operand_dice _ _ Hn H1) as (d1 & L1 & V1). destruct (possible_operand_dice _ _ Hs H2) as (d2 & L2 & V2).
    exists (d1 ++ d2). split; [apply Forall_app; tauto|]. exists d1, d2. tauto.
Qed.
Lemma roll_visit mid ds fin : Forall legal ds -> visit roll_leaf mid ds fin -> instance sum_choice mid (ae_map sum_leaf fin).
Proof.
  intros Hl Hv. induction Hv as [m ds s H|e ds e' _ IH|op a b d1 d2 a' b' _ IH1 _ IH2]; cbn.
  - constructor. destruct m as [w|x y], s as [u|rs]; cbn in *; try contradiction; [tauto|].
    destruct H as (-> & (Hx & Hy & Hlen & Hs)). exists (fold_right Z.add 0 (map die_value ds)). pose proof (sum_range ds Hl y Hs) as Hr. rewrite Hlen in Hr. tauto.
  - constructor. auto.
  - apply Forall_app in Hl as (H1 & H2). constructor; auto.
Qed.
Lemma roll_reach mid ie : instance sum_choice mid ie -> exists ds fin, Forall legal ds /\ visit roll_leaf mid ds fin /\ ae_map sum_leaf fin = ie.
Proof.
  induction 1 as [m v H|e e' _ (ds & fin & H1 & H2 & <-)|op a b a' b' _ (d1 & f1 & L1 & V1 & <-) _ (d2 & f2 & L2 & V2 & <-)].
  - destruct m as [w|x y]; cbn in H.
    + subst. exists [], (Leaf (SInt w)). split; [constructor|]. split; [|reflexivity]. apply visit_leaf. cbn. split; reflexivity.
    + destruct H as (t & Hx & Hy & Ht & ->). destruct (sum_reached (Z.to_nat x) y t Hy) as (ds & H1 & H2 & H3 & H4); [rewrite Z2Nat.id by lia; exact Ht|].
      exists ds, (Leaf (SRoll ds)). split; [exact H2|]. split; [constructor; cbn; split; [reflexivity|]|cbn; rewrite H4; reflexivity].
      split; [exact Hx|]. split; [exact Hy|]. split; [lia|exact H3].
  - exists ds, (Neg fin). repeat split; [assumption|constructor; assumption].
  - exists (d1 ++ d2), (Bin op f1 f2). split; [apply Forall_app; tauto|]. split; [constructor; assumption|reflexivity].
Qed.

Lemma d_value_possible e ops rolls mid fin v : dok e -> Forall legal (ops ++ rolls) -> d_value e ops rolls mid fin v -> possible_total e v.
Proof.
  intros Hok Hl (H1 & H2 & H3). apply Forall_app in Hl as (L1 & L2). exists (ae_map sum_leaf fin). split; [|exact H3]. apply choices_compose.
  exists mid. split; [|eapply roll_visit; eassumption]. eapply visit_instance; [apply settle_of|exact Hok|exact L1|exact H1].
Qed.
Lemma possible_d_value e v : dok e -> possible_total e v -> exists ops rolls mid fin, Forall legal (ops ++ rolls) /\ d_value e ops rolls mid fin v.
Proof.
  intros Hok (ie & Hi & Hv). apply choices_compose in Hi as (mid & H1 & H2).
  destruct (instance_visit dleaf_ok settle_operands settle_choice settle_to _ _ Hok H1) as (ops & L1 & V1).
  destruct (roll_reach _ _ H2) as (rolls & fin & L2 & V2 & <-). exists ops, rolls, mid, fin. split; [apply Forall_app; tauto|]. split; [exact V1|]. split; assumption.
Qed.
Lemma legal_dice f ds f' : draws f ds f' -> legal_feeder f -> Forall legal ds.
Proof. intros Hd Hf. apply (draws_legal _ _ _ Hd). destruct Hf as [(q & -> & Hq)|(intn & k & -> & Hi)]; assumption. Qed.

(** * C71 *)
(** C71: the totals an additive roll can show with legal dice, whether queued or random, are exactly the values of its arithmetic with
    any number from x to x*y in place of each roll xDy (and any number of the range in place of a random operand). *)
Theorem C71_totals gid e v : dok e ->
  ((exists f r f', legal_feeder f /\ run_command gid (command_tree (DExpr e)) f = (Ok r, f') /\ nth_error (r_parts r) 2 = Some (itoa v)) <->
   possible_total e v).
Proof.
  intros Hok. split.
  - intros (f & r & f' & Hf & H & Hp). destruct (C15_d_expr_any_feeder gid e f r f' Hok H) as (ops & rolls & mid & fin & v' & s1 & s2 & Hd & Hv & _ & _ & ->).
    cbn in Hp. injection Hp as Hp. apply itoa_inj in Hp. subst v'. eapply d_value_possible; [exact Hok|eapply legal_dice; eassumption|exact Hv].
  - intros H. destruct (possible_d_value e v Hok H) as (ops & rolls & mid & fin & Hl & Hv).
    destruct (notates_mtree mid true) as (s1 & Hs1). destruct (notates_stree fin true) as (s2 & Hs2).
    assert (gives gid (command_tree (DExpr e)) (ops ++ rolls) (Result gid [parenthesize s1; s2; itoa v] (ops ++ rolls) Unspecified false)) as Hg.
    { apply (C15_d_expr_exact gid e _ _ Hok). exists ops, rolls, mid, fin, v, s1, s2. repeat split; try assumption; apply Hv. }
    specialize (Hg []). rewrite app_nil_r in Hg. eexists. eexists. eexists. split; [|split; [exact Hg|reflexivity]]. left. eexists. split; [reflexivity|exact Hl].
Qed.
Print Assumptions C71_totals.

(** C71: a comparison can succeed (fail) with legal dice exactly if some possible total satisfies (does not satisfy) it. *)
Theorem C71_verdicts gid e op t verdict : dok e -> iok t -> is_compare_op op -> comparable e -> In verdict [Success; Failure] ->
  ((exists f r f', legal_feeder f /\ run_command gid (command_tree (DComp e op t)) f = (Ok r, f') /\ r_success r = verdict) <->
   exists v w, possible_total e v /\ has_value t w /\ (verdict = Success <-> compares op v w)).
Proof.
  intros Hok Ht Hop Hc Hin. split.
  - intros (f & r & f' & Hf & H & Hs). destruct (run_command_gives _ _ _ _ _ H) as (ds & Hd & Hg).
    apply (C16_d_comp_exact gid e op t ds r Hok Ht Hop) in Hg as (_ & ops & rolls & mid & fin & v & w & s1 & s2 & b & -> & H1 & H2 & Hb & _ & _ & ->).
    exists v, w. split; [eapply d_value_possible; [exact Hok|eapply legal_dice; eassumption|exact H1]|]. split; [exact H2|]. rewrite <- Hb. cbn in Hs. subst verdict.
    destruct b; split; intros E; try reflexivity; discriminate.
  - intros (v & w & Hv & Hw & Hcmp). destruct (possible_d_value e v Hok Hv) as (ops & rolls & mid & fin & Hl & Hd).
    destruct (notates_mtree mid true) as (s1 & Hs1). destruct (notates_stree fin true) as (s2 & Hs2). set (b := compareb op v w).
    assert (gives gid (command_tree (DComp e op t)) (ops ++ rolls)
      (Result gid [parenthesize (s1 ++ op ++ itoa w); s2; itoa v; if b then "成功" else "失敗"]%string (ops ++ rolls) (if b then Success else Failure) false)) as Hg.
    { apply (C16_d_comp_exact gid e op t _ _ Hok Ht Hop). split; [exact Hc|]. exists ops, rolls, mid, fin, v, w, s1, s2, b. pose proof (compareb_spec op v w Hop). repeat split; try assumption; try apply Hd; apply H. }
    specialize (Hg []). rewrite app_nil_r in Hg. eexists. eexists. eexists. split; [|split; [exact Hg|]]; [left; eexists; split; [reflexivity|exact Hl]|].
    cbn [r_success]. pose proof (compareb_spec op v w Hop) as Hcs. fold b in Hcs. destruct Hin as [<-|[<-|[]]]; destruct b; try reflexivity; exfalso.
    + assert (false = true) by (apply Hcs, Hcmp; reflexivity). discriminate.
    + assert (Failure = Success) by (apply Hcmp, Hcs; reflexivity). discriminate.
Qed.
Print Assumptions C71_verdicts.

(** C71 for a plain roll xDy: every total from x to x*y, and no other, as long as it is an int64. *)
Theorem C71_plain_roll gid x y v : 1 <= x <= max_alloc_16 -> 1 <= y -> in_int64 y -> x * y <= max_int ->
  ((exists f r f', legal_feeder f /\ run_command gid (command_tree (DExpr (Leaf (DDice (Leaf (RInt x)) (Leaf (RInt y)))))) f = (Ok r, f') /\
      nth_error (r_parts r) 2 = Some (itoa v)) <-> x <= v <= x * y).
Proof.
  intros Hx Hy Hy' Hm. unfold in_int64, max_int, min_int, two63, max_alloc_16 in *. rewrite C71_totals by (cbn; unfold in_int64, max_int, min_int, two63; lia). split.
  - intros (ie & Hi & Hv). inversion Hi as [l m H1 | |]; subst. cbn in H1. destruct H1 as (x' & y' & t & (i1 & Hi1 & Hv1) & (i2 & Hi2 & Hv2) & H3 & H4 & H5 & ->).
    inversion Hi1 as [l m H1 | |]; inversion Hi2 as [l2 m2 H2 | |]; subst. cbn in H1, H2. subst m m2. apply has_value_mach in Hv, Hv1, Hv2. cbn in Hv, Hv1, Hv2.
    injection Hv1 as <-. injection Hv2 as <-. injection Hv as <-. rewrite wrap64_id; [exact H5|]. unfold in_int64, max_int, min_int, two63. lia.
  - intros Hv. exists (Leaf v). split; [|apply has_value_mach; reflexivity]. constructor. exists x, y, v.
    split; [exists (Leaf x); split; [constructor; reflexivity|apply has_value_mach; reflexivity]|].
    split; [exists (Leaf y); split; [constructor; reflexivity|apply has_value_mach; reflexivity]|].
    unfold max_alloc_16. repeat (split; [lia|]). symmetry. apply wrap64_id. unfold in_int64, max_int, min_int, two63. lia.
Qed.
Print Assumptions C71_plain_roll.
(** ([1...3])D6-1: 5 is possible, 0 and 17 are the ends. *)
Example C71_example :
  let e := Bin Minus (Leaf (DDice (Leaf (RRand (Leaf 1) (Leaf 3))) (Leaf (RInt 6)))) (Leaf (DInt 1)) in
  parse_command "([1...3])D6-1" = Ok (command_tree (DExpr e)) /\ dok e /\ possible_total e 17 /\
  run_command "DiceBot" (command_tree (DExpr e)) (FQueue [Die 3 3; Die 6 6; Die 6 6; Die 6 6]) =
    (Ok (Result "DiceBot" ["(3D6-1)"; "18[6,6,6]-1"; "17"]%string [Die 3 3; Die 6 6; Die 6 6; Die 6 6] Unspecified false), FQueue []).
Proof.
  cbv zeta. split; [vmc|]. split; [cbn; unfold in_int64, max_int, min_int, two63; lia|]. split; [|vmc].
  exists (Bin Minus (Leaf 18) (Leaf 1)). split; [|apply has_value_mach; reflexivity]. constructor; constructor; [|reflexivity].
  exists 3, 6, 18. split; [exists (Leaf 3); split; [constructor|apply has_value_mach; reflexivity]|].
  - exists 1, 3. repeat split; try (apply has_value_mach; reflexivity); unfold max_int, two63; lia.
  - split; [exists (Leaf 6); split; [constructor; reflexivity|apply has_value_mach; reflexivity]|]. unfold max_alloc_16. repeat (split; [lia|]). reflexivity.
Qed.

(** * C72 *)
(** A random source that shows the values vs from call k on, as far as they are legal *)
Definition showing (vs : list die) : nat -> Z -> Z :=
  fun k n => match nth_error vs k with
             | Some d => if ((1 <=? die_value d) && (die_value d <=? Z.min n max_int))%bool then die_value d - 1 else 0
             | None => 0
             end.
Lemma showing_contract vs : intn_contract (showing vs).
Proof.
  intros k n Hn. unfold showing. assert (0 < max_int) by reflexivity. destruct (nth_error vs k) as [d|]; [|lia].
  destruct (1 <=? die_value d) eqn:E1; cbn; [|lia]. destruct (die_value d <=? Z.min n max_int) eqn:E2; cbn; lia.
Qed.
Definition shows (d : die) : Prop := legal d /\ die_value d <= max_int.
Lemma random_roll ds : forall pre post num sides, Forall shows ds -> Forall (fun d => die_sides d = sides) ds -> 1 <= sides ->
  roll_loop (length ds) num sides [] (FRandom (showing (pre ++ ds ++ post)) (length pre)) =
    (Ok ds, FRandom (showing (pre ++ ds ++ post)) (length (pre ++ ds))).
Proof.
  induction ds as [|d ds IH]; intros pre post num sides Hs Hy H1; [cbn; rewrite app_nil_r; reflexivity|].
  inversion_clear Hs. inversion_clear Hy. cbn [length roll_loop feeder_next]. destruct (sides <=? 0) eqn:E0; [lia|].
  assert (showing (pre ++ (d :: ds) ++ post) (length pre) sides = die_value d - 1) as Ed.
  { unfold showing. rewrite nth_error_app2 by lia. rewrite Nat.sub_diag. cbn [app nth_error]. destruct H as ((Ha & Hb) & Hc).
    destruct (1 <=? die_value d) eqn:E1; [|lia]. destruct (die_value d <=? Z.min sides max_int) eqn:E2; [reflexivity|lia]. }
  rewrite Ed. replace (1 + (die_value d - 1)) with (die_value d) by lia. rewrite wrap64_id.
  2: { destruct H as ((Ha & Hb) & Hc). unfold in_int64, min_int, max_int, two63 in *. lia. }
  replace (Die (die_value d) sides) with d by (destruct d; cbn in *; congruence). rewrite H2, Z.eqb_refl.
  rewrite roll_loop_acc. specialize (IH (pre ++ [d]) post num sides H0 H3 H1). rewrite <- !app_assoc in IH. cbn [app] in IH. rewrite app_length, Nat.add_comm in IH. cbn [length Nat.add] in IH.
  cbn [app]. rewrite IH. cbn. reflexivity.
Qed.
Lemma run_random {A} (c : comp A) : forall s a s' ds pre post, run c s = (Ok a, s') -> es_log s' = es_log s ++ ds -> Forall shows ds ->
  run c (EState (FRandom (showing (pre ++ ds ++ post)) (length pre)) (es_log s)) =
    (Ok a, EState (FRandom (showing (pre ++ ds ++ post)) (length (pre ++ ds))) (es_log s')).
Proof.
  induction c as [a0|e|p|num sides k IH|k IH]; intros s a s' ds pre post H Hl Hs; cbn [run] in *; try discriminate.
  - injection H as <- <-. rewrite <- (app_nil_r (es_log s)) in Hl at 1. apply app_inv_head in Hl. subst ds. rewrite app_nil_r. reflexivity.
  - destruct (roll_dice num sides (es_feeder s)) as [[ds1|e|p] f'] eqn:E; try discriminate.
    destruct (run_ok_draws _ _ _ _ H) as (ds2 & H1 & _). cbn [es_log] in H1.
    assert (ds = ds1 ++ ds2) as ->.
    { rewrite Hl in H1. rewrite <- app_assoc in H1. apply app_inv_head in H1. assumption. }
    apply Forall_app in Hs as (S1 & S2). apply roll_dice_ok in E as (E1 & E2 & E3 & E4 & _). cbn [es_feeder es_log].
    pose proof (random_roll ds1 pre (ds2 ++ post) num sides S1 E4 E3) as Hr.
    specialize (IH ds1 _ _ _ ds2 (pre ++ ds1) post H H1 S2). cbn [es_log] in IH. repeat rewrite <- app_assoc in IH. repeat rewrite <- app_assoc. repeat rewrite <- app_assoc in Hr.
    unfold roll_dice. destruct (sides <? 1) eqn:T1; [lia|]. destruct (num <? 1) eqn:T2; [lia|]. destruct (max_alloc_16 <? num) eqn:T3; [lia|].
    replace (Z.to_nat num) with (length ds1) by lia. rewrite Hr. exact IH.
  - cbn [es_log]. apply (IH (es_log s) _ _ _ ds pre post H Hl Hs).
Qed.
Lemma command_random gid n f r f' : run_command gid n f = (Ok r, f') -> (forall ds, draws f ds f' -> Forall shows ds) ->
  exists intn k, intn_contract intn /\ run_command gid n (FRandom intn 0) = (Ok r, FRandom intn k).
Proof.
  intros H Hs. apply run_command_ok in H as (ds & H & Hd). pose proof (run_random _ _ _ _ ds [] [] H eq_refl (Hs ds Hd)) as Hr. cbn [es_log length app] in Hr.
  exists (showing (ds ++ [])). eexists. split; [apply showing_contract|]. unfold run_command. rewrite Hr. reflexivity.
Qed.
(** Dice as they are in Go: the number shown is an int. *)
Definition go_queue (f : feeder) : Prop := exists q, f = FQueue q /\ Forall shows q.
Lemma shown f ds f' : go_queue f -> draws f ds f' -> Forall shows ds /\ go_queue f'.
Proof.
  intros (q & -> & Hq) Hd. apply draws_queue in Hd as (q' & -> & ->). apply Forall_app in Hq as (H1 & H2). split; [exact H1|]. exists q'. tauto.
Qed.
Lemma random_shows f ds f' : draws f ds f' -> forall intn k, f = FRandom intn k -> intn_contract intn -> Forall shows ds.
Proof.
  induction 1 as [f|f sides d f1 ds f2 H1 H2 IH]; intros intn k -> Hc; [constructor|].
  destruct (feeder_next_random _ _ _ _ _ Hc H1) as (Hd & Hs & ->). constructor; [|eapply IH; [reflexivity|exact Hc]].
  split; [exact Hd|]. cbn in H1. destruct (sides <=? 0) eqn:E; [discriminate|]. injection H1 as <-. cbn [die_value]. pose proof (Hc k sides ltac:(lia)) as Hk.
  rewrite wrap64_id; [lia|]. unfold in_int64, min_int, max_int, two63 in *. lia.
Qed.
(** C72: the replies ExecuteCommand can give with queued legal dice and those it can give with random dice are the same. *)
Theorem C72_queued_or_random bot input r : moderate input ->
  ((exists q f', Forall shows q /\ execute_command_with bot input (FQueue q) = (Ok r, f')) <->
   (exists intn f', intn_contract intn /\ execute_command_with bot input (FRandom intn 0) = (Ok r, f'))).
Proof.
  intros Hm. split.
  - intros (q & f' & Hq & H). destruct (C59_same_command bot input Hm) as [(e & He)|(n & _ & Hn)]; [rewrite He in H; discriminate|].
    assert (exists r0 f1 f2, go_queue f1 /\ run_command (db_game_id bot) n f1 = (Ok r0, f2) /\
              r = Result (r_game_id r0) (r_parts r0) (r_dice r0) (r_success r0) (snd (check_secret input))) as (r0 & f1 & f2 & G & Hr & ->).
    { specialize (Hn (FQueue q)). cbv zeta in Hn. assert (go_queue (FQueue q)) as G by (exists q; tauto).
      destruct (run_command (db_game_id bot) n (FQueue q)) as [[r0|e|p] f1] eqn:E1.
      - rewrite H in Hn. injection Hn as -> ->. exists r0, (FQueue q), f1. tauto.
      - destruct Hn as [(e' & Hn)|Hn]; [rewrite H in Hn; discriminate|]. destruct (run_command_draws _ _ _ _ _ E1) as (ds & Hd).
        destruct (run_command (db_game_id bot) n f1) as [[r0|e2|p] f2] eqn:E2; rewrite H in Hn.
        + injection Hn as -> ->. exists r0, f1, f2. split; [apply (shown _ _ _ G Hd)|tauto].
        + destruct Hn as (? & ?). discriminate.
        + discriminate.
      - rewrite H in Hn. discriminate. }
    destruct (command_random _ _ _ _ _ Hr) as (intn & k & Hc & Hrun); [intros ds Hd; apply (shown _ _ _ G Hd)|].
    exists intn, (FRandom intn k). split; [exact Hc|]. specialize (Hn (FRandom intn 0)). rewrite Hrun in Hn. exact Hn.
  - intros (intn & f' & Hc & H). destruct (execute_command_replay bot input _ r f' Hm H) as (ds & Hd & Hr).
    exists ds, (FQueue []). split; [eapply random_shows; [exact Hd|reflexivity|exact Hc]|]. specialize (Hr []). rewrite app_nil_r in Hr. exact Hr.
Qed.
Print Assumptions C72_queued_or_random.
Example C72_example : moderate "2D6+[1...3]D4>=7 x" /\ Forall shows [Die 2 3; Die 3 6; Die 4 6; Die 1 4; Die 4 4] /\
  exists r, execute_command_with basic_bot "2D6+[1...3]D4>=7 x" (FQueue [Die 2 3; Die 3 6; Die 4 6; Die 1 4; Die 4 4]) = (Ok r, FQueue []).
Proof. split; [vm_compute; reflexivity|]. split; [repeat constructor; vm_compute; discriminate|]. eexists. vmc. Qed.
