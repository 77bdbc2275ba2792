(** Property C91: better dice. *)
From Coq Require Import Reals Lra.
From Verif Require Import Grammar ProofBase Dice SpecDice DiceProofs Comp CompProofs Ast Eval Notation NotationProofs Command
  SpecText SpecGrammar SpecSyntax SpecArith ArithProofs SpecRoll SpecTotals SpecLists SpecFair SpecOdds SpecMonotone YieldsProofs DRollProofs NumberText BCDice CommandProofs
  SpecTyped Prop_droll Prop_lists Prop_exec Prop_totals Prop_fair Prop_chances Prop_average Prop_value Prop_typed Prop_complete Prop_odds.
Open Scope list_scope.
Open Scope Z_scope.

Lemma half_away_mono x y : (x <= y)%R -> half_away x <= half_away y.
Proof.
  intros H. unfold half_away. destruct (Rlt_dec x 0) as [Hx|Hx], (Rlt_dec y 0) as [Hy|Hy].
  - apply Z.opp_le_mono. rewrite !Z.opp_involutive. apply Raux.Zfloor_le. lra.
  - assert (0 <= Raux.Zfloor (- x + / 2)) by (apply Raux.Zfloor_lub; lra). assert (0 <= Raux.Zfloor (y + / 2)) by (apply Raux.Zfloor_lub; lra). lia.
  - lra.
  - apply Raux.Zfloor_le. lra.
Qed.
Lemma divided_mono m x x' y : y <> 0 -> no_less (0 <=? y) x x' -> divided m x y <= divided m x' y.
Proof.
  intros Hy H. assert (quotient x y <= quotient x' y)%R as Hq.
  { unfold quotient, Rdiv. destruct (0 <=? y) eqn:E; cbn in H.
    - apply Rmult_le_compat_r; [|apply IZR_le, H]. apply Rlt_le, Rinv_0_lt_compat, IZR_lt. lia.
    - apply IZR_le in H. assert (/ IZR y < 0)%R by (apply Rinv_lt_0_compat, IZR_lt; lia). nra. }
  destruct m; cbn [divided]; [apply Raux.Ztrunc_le|apply half_away_mono|apply Raux.Zceil_le]; exact Hq.
Qed.
Lemma no_less_neg up x x' : no_less (negb up) x x' -> no_less up (- x) (- x').
Proof. destruct up; cbn; lia. Qed.
Lemma no_less_scale up k x x' : no_less (if 0 <=? k then up else negb up) x x' -> no_less up (x * k) (x' * k).
Proof. destruct (0 <=? k) eqn:E, up; cbn; nia. Qed.
Lemma no_less_divide up m k x x' : k <> 0 -> no_less (if 0 <=? k then up else negb up) x x' -> no_less up (divided m x k) (divided m x' k).
Proof.
  intros Hk H. destruct up; cbn [no_less]; apply divided_mono; try assumption; destruct (0 <=? k); exact H.
Qed.
(** a value for one list of answers *)
Definition calc (e : wexpr) (rs : list Z) (v : Z) : Prop := exists ie, falls e rs ie /\ In ie (instances e) /\ math_value ie = Some v.
Lemma calc_neg e rs v : calc e rs v -> calc (Neg e) rs (- v).
Proof.
  intros (ie & (H1 & fin & H2 & <-) & Hi & Hv). exists (Neg (ae_map sum_leaf fin)). split; [split; [exact H1|]; exists (Neg fin); split; [constructor; exact H2|reflexivity]|].
  split; [cbn [instances]; apply in_map; exact Hi|]. cbn [math_value]. rewrite Hv. reflexivity.
Qed.
Lemma calc_bin op a b r1 r2 x y v : calc a r1 x -> calc b r2 y -> math_op op x y = Some v -> calc (Bin op a b) (r1 ++ r2) v.
Proof.
  intros (i1 & (S1 & f1 & V1 & <-) & I1 & M1) (i2 & (S2 & f2 & V2 & <-) & I2 & M2) Hv. exists (Bin op (ae_map sum_leaf f1) (ae_map sum_leaf f2)). split; [|split].
  - split; [cbn [asked]; apply Forall2_app; assumption|]. exists (Bin op f1 f2). split; [|reflexivity]. cbn [asked]. rewrite dice_for_app by (apply in_sides_length, S1). constructor; assumption.
  - cbn [instances]. unfold combine_all. apply in_flat_map. eexists. split; [exact I1|]. apply in_map. exact I2.
  - cbn [math_value]. rewrite M1, M2. exact Hv.
Qed.
Lemma calc_int v rs : in_sides [] rs -> calc (Leaf (WInt v)) rs v.
Proof.
  intros H. inversion H. subst. exists (Leaf v). split; [|split; [left; reflexivity|reflexivity]]. split; [constructor|]. exists (Leaf (SInt v)). split; [|reflexivity]. constructor. split; reflexivity.
Qed.
Lemma calc_dice n s rs : rollable (Leaf (WDice n s)) -> in_sides (repeat s n) rs -> calc (Leaf (WDice n s)) rs (sumz rs + Z.of_nat n).
Proof.
  unfold rollable. cbn [all_leaves]. intros (H1 & H2 & H3 & H4) H. assert (answered n s rs) as Ha.
  { apply in_all. rewrite <- all_lists_repeat. apply C85_all_lists. exact H. }
  exists (Leaf (sumz rs + Z.of_nat n)). split; [|split; [|reflexivity]].
  - split; [exact H|]. cbn [asked]. rewrite (dice_for_repeat n s rs (proj1 Ha)). exists (Leaf (SRoll (faces s rs))).
    destruct (plain_value n s rs H1 H2 H3 H4 Ha) as (_ & Hv & Hs). split; [exact Hv|]. apply has_value_mach in Hs. cbn [mach ae_map] in *. injection Hs as Hs. f_equal. exact Hs.
  - cbn [instances]. rewrite sums_answers, map_map. apply in_map_iff. exists rs. split; [reflexivity|]. apply in_all, Ha.
Qed.
Lemma better_sums rs rs' : better rs rs' -> sumz rs <= sumz rs'.
Proof. induction 1; cbn in *; [lia|]. unfold sumz in *. cbn [fold_right]. lia. Qed.
Lemma in_sides_pos sides rs : in_sides sides rs -> 0 <= sumz rs.
Proof. unfold sumz. induction 1; cbn [fold_right]; lia. Qed.
Lemma split_both l1 l2 rs rs' : in_sides (l1 ++ l2) rs -> in_sides (l1 ++ l2) rs' -> better rs rs' ->
  exists r1 r2 r1' r2', rs = r1 ++ r2 /\ rs' = r1' ++ r2' /\ in_sides l1 r1 /\ in_sides l2 r2 /\ in_sides l1 r1' /\ in_sides l2 r2' /\ better r1 r1' /\ better r2 r2'.
Proof.
  intros H H' Hb. apply Forall2_app_inv_l in H as (r1 & r2 & H1 & H2 & ->). apply Forall2_app_inv_l in H' as (r1' & r2' & H1' & H2' & ->).
  exists r1, r2, r1', r2'. repeat (split; [reflexivity || assumption|]). apply in_sides_length in H1, H1'.
  assert (length r1 = length r1') as El by lia. clear - Hb El. revert r1' El Hb. induction r1 as [|x r1 IH]; intros [|x' r1'] El Hb; try discriminate El; [split; [constructor|exact Hb]|].
  cbn [app] in Hb. inversion Hb; subst. destruct (IH r1' ltac:(cbn in El; lia) H4) as (K1 & K2). split; [constructor; assumption|exact K2].
Qed.
(** The value with worse and with better dice *)
Lemma calc_number e : forall k rs, number e = Some k -> in_sides (asked e) rs -> calc e rs k.
Proof.
  induction e as [[v|n s]|e IH|op a IHa b IHb]; intros k rs H Hs; try discriminate H.
  - injection H as ->. apply calc_int, Hs.
  - cbn [number] in H. destruct (number e) as [w|] eqn:E; [|discriminate]. injection H as <-. apply calc_neg, IH; auto.
Qed.
Lemma helped_times_cases up a b : helped up (Bin Times a b) ->
  (exists k, number b = Some k /\ helped (if 0 <=? k then up else negb up) a) \/
  (exists k, number a = Some k /\ helped (if 0 <=? k then up else negb up) b) \/
  (up = true /\ helped true a /\ helped true b /\ unsigned a /\ unsigned b).
Proof. cbn [helped]. destruct (number a) as [k|], (number b) as [k'|]; intros H; eauto 10. Qed.
Lemma calc_unsigned e : unsigned e -> forall rs v, rollable e -> in_sides (asked e) rs -> calc e rs v -> 0 <= v.
Proof.
  intros Hp rs v Hr Hs (ie & _ & Hi & Hv). assert (Forall (fun ie => forall v, math_value ie = Some v -> 0 <= v) (instances e)) as K.
  { clear - Hp Hr. unfold rollable in Hr. induction e as [[w|n s]|e IH|op a IHa b IHb]; cbn [unsigned all_leaves instances] in *.
    - constructor; [|constructor]. intros v [= <-]. exact Hp.
    - rewrite sums_answers, map_map. apply Forall_map, Forall_forall. intros rs Hrs. apply in_all in Hrs. apply answered_range in Hrs. intros v [= <-]. lia.
    - contradiction.
    - destruct Hr as (R1 & R2). assert (unsigned a /\ unsigned b /\ (op = Plus \/ op = Times)) as (P1 & P2 & Hop) by (destruct op; try contradiction; tauto). clear Hp.
      unfold combine_all. apply Forall_flat_map. eapply Forall_impl; [|exact (IHa P1 R1)]. intros x Hx. apply Forall_map. eapply Forall_impl; [|exact (IHb P2 R2)]. intros y Hy v. cbn beta in Hx, Hy. cbn [math_value].
      destruct (math_value x) as [vx|]; [|discriminate]. destruct (math_value y) as [vy|]; [|discriminate]. specialize (Hx vx eq_refl). specialize (Hy vy eq_refl).
      destruct Hop as [-> | ->]; cbn [math_op]; intros [= <-]; nia. }
  rewrite Forall_forall in K. exact (K ie Hi v Hv).
Qed.
Lemma helped_calc e : rollable e -> forall up rs rs', helped up e -> in_sides (asked e) rs -> in_sides (asked e) rs' -> better rs rs' ->
  exists v v', calc e rs v /\ calc e rs' v' /\ no_less up v v'.
Proof.
  unfold rollable. induction e as [[w|n s]|e IH|op a IHa b IHb]; intros Hr up rs rs' Hh Hs Hs' Hb; cbn [asked] in *.
  - exists w, w. split; [apply calc_int, Hs|]. split; [apply calc_int, Hs'|]. destruct up; cbn; lia.
  - cbn [helped] in Hh. subst up. exists (sumz rs + Z.of_nat n), (sumz rs' + Z.of_nat n). split; [apply calc_dice; assumption|]. split; [apply calc_dice; assumption|]. cbn. apply better_sums in Hb. lia.
  - cbn [helped all_leaves] in *. destruct (IH Hr (negb up) rs rs' Hh Hs Hs' Hb) as (v & v' & H1 & H2 & H3). exists (- v), (- v'). split; [apply calc_neg, H1|]. split; [apply calc_neg, H2|]. apply no_less_neg, H3.
  - cbn [all_leaves] in Hr. destruct Hr as (Ra & Rb). destruct (split_both _ _ _ _ Hs Hs' Hb) as (r1 & r2 & r1' & r2' & -> & -> & A1 & A2 & A1' & A2' & B1 & B2).
    destruct op as [| | |m].
    + destruct Hh as (Ha & Hb'). destruct (IHa Ra up r1 r1' Ha A1 A1' B1) as (x & x' & X1 & X2 & X3). destruct (IHb Rb up r2 r2' Hb' A2 A2' B2) as (y & y' & Y1 & Y2 & Y3).
      exists (x + y), (x' + y'). split; [eapply calc_bin; [eassumption..|reflexivity]|]. split; [eapply calc_bin; [eassumption..|reflexivity]|]. destruct up; cbn in *; lia.
    + destruct Hh as (Ha & Hb'). destruct (IHa Ra up r1 r1' Ha A1 A1' B1) as (x & x' & X1 & X2 & X3). destruct (IHb Rb (negb up) r2 r2' Hb' A2 A2' B2) as (y & y' & Y1 & Y2 & Y3).
      exists (x - y), (x' - y'). split; [eapply calc_bin; [eassumption..|reflexivity]|]. split; [eapply calc_bin; [eassumption..|reflexivity]|]. destruct up; cbn in *; lia.
    + apply helped_times_cases in Hh as [(k & Ek & Hh)|[(k & Ek & Hh)|(-> & Ha & Hb' & P1 & P2)]].
      * destruct (IHa Ra _ r1 r1' Hh A1 A1' B1) as (x & x' & X1 & X2 & X3). exists (x * k), (x' * k). split; [eapply calc_bin; [exact X1|exact (calc_number b k r2 Ek A2)|reflexivity]|].
        split; [eapply calc_bin; [exact X2|exact (calc_number b k r2' Ek A2')|reflexivity]|]. apply no_less_scale, X3.
      * destruct (IHb Rb _ r2 r2' Hh A2 A2' B2) as (x & x' & X1 & X2 & X3). exists (k * x), (k * x'). split; [eapply calc_bin; [exact (calc_number a k r1 Ek A1)|exact X1|reflexivity]|].
        split; [eapply calc_bin; [exact (calc_number a k r1' Ek A1')|exact X2|reflexivity]|]. rewrite !(Z.mul_comm k). apply no_less_scale, X3.
      * destruct (IHa Ra true r1 r1' Ha A1 A1' B1) as (x & x' & X1 & X2 & X3). destruct (IHb Rb true r2 r2' Hb' A2 A2' B2) as (y & y' & Y1 & Y2 & Y3).
        exists (x * y), (x' * y'). split; [eapply calc_bin; [eassumption..|reflexivity]|]. split; [eapply calc_bin; [eassumption..|reflexivity]|].
        pose proof (calc_unsigned a P1 r1 x Ra A1 X1). pose proof (calc_unsigned b P2 r2 y Rb A2 Y1). cbn [no_less] in *. apply Z.mul_le_mono_nonneg; assumption.
    + cbn [helped] in Hh. destruct (number b) as [k|] eqn:Ek; [|contradiction]. destruct Hh as (Hk & Hh). destruct (IHa Ra _ r1 r1' Hh A1 A1' B1) as (x & x' & X1 & X2 & X3).
      assert (forall z, math_op (Over m) z k = Some (divided m z k)) as Hm by (intros z; cbn [math_op]; replace (k =? 0) with false by lia; reflexivity).
      exists (divided m x k), (divided m x' k). split; [eapply calc_bin; [exact X1|exact (calc_number b k r2 Ek A2)|apply Hm]|]. split; [eapply calc_bin; [exact X2|exact (calc_number b k r2' Ek A2')|apply Hm]|].
      apply no_less_divide; assumption.
Qed.
Lemma calc_comes e rs v : rollable e -> size e < 2 ^ 52 -> calc e rs v -> comes_to e rs (Some v).
Proof.
  intros Hr Hs (ie & H1 & H2 & H3). exists ie. split; [exact H1|]. split; [auto|]. pose proof (small_ordinary e Hr Hs) as K. rewrite Forall_forall in K. apply (K ie H2).
Qed.

(** C91: if every die shows at least as much, the total of a roll whose dice count upwards is at least as great; if they count downwards, at most as
    great.  (The answers are those of the random source to the questions the roll asks, in order; there are always totals.) *)
Theorem C91_totals gid up e rs rs' : rollable e -> size e < 2 ^ 52 -> helped up e ->
  in_sides (asked e) rs -> in_sides (asked e) rs' -> better rs rs' ->
  exists v v',
    part_is 2 (itoa v) (reply gid (DExpr (written e)) rs) = true /\
    part_is 2 (itoa v') (reply gid (DExpr (written e)) rs') = true /\
    no_less up v v'.
Proof.
  intros Hr Hz Hh H1 H2 Hb. destruct (helped_calc e Hr up rs rs' Hh H1 H2 Hb) as (v & v' & K1 & K2 & K3). exists v, v'.
  destruct (come_reply gid e rs v Hr (calc_comes _ _ _ Hr Hz K1)) as (a & b & ->). destruct (come_reply gid e rs' v' Hr (calc_comes _ _ _ Hr Hz K2)) as (a' & b' & ->).
  split; [apply String.eqb_refl|]. split; [apply String.eqb_refl|exact K3].
Qed.
Print Assumptions C91_totals.
Lemma asks_is_op up op : asks_for up op -> is_compare_op op.
Proof. unfold asks_for, is_compare_op. destruct up; intros [-> | ->]; cbn [In]; auto 10. Qed.
Lemma asks_holds up op v w : asks_for up op -> compareb op v w = true <-> (no_less up w v /\ (op = ">=" \/ op = "<=" \/ v <> w)%string).
Proof.
  intros Ha. rewrite (compareb_spec op v w (asks_is_op _ _ Ha)). unfold asks_for, compares, no_less in *. destruct up, Ha as [-> | ->].
  - split; [intros [(E & _)|[(E & _)|[(E & _)|[(E & _)|[(_ & H)|(E & _)]]]]]; try discriminate E; split; [lia|auto]|]. intros (H & _). do 4 right. left. split; [reflexivity|lia].
  - split; [intros [(E & _)|[(E & _)|[(E & _)|[(E & _)|[(E & _)|(_ & H)]]]]]; try discriminate E; split; [lia|right; right; lia]|].
    intros (H & [E|[E|H']]); try discriminate E. do 5 right. split; [reflexivity|lia].
  - split; [intros [(E & _)|[(E & _)|[(_ & H)|[(E & _)|[(E & _)|(E & _)]]]]]; try discriminate E; split; [lia|auto]|]. intros (H & _). do 2 right. left. split; [reflexivity|lia].
  - split; [intros [(E & _)|[(E & _)|[(E & _)|[(_ & H)|[(E & _)|(E & _)]]]]]; try discriminate E; split; [lia|right; right; lia]|].
    intros (H & [E|[E|H']]); try discriminate E. do 3 right. left. split; [reflexivity|lia].
Qed.
Lemma asks_compare up op : asks_for up op -> is_compare_op op /\ forall w v v', no_less up v v' -> compareb op v w = true -> compareb op v' w = true.
Proof.
  intros Ha. split; [exact (asks_is_op _ _ Ha)|]. intros w v v' Hn. rewrite !(asks_holds up op _ _ Ha). unfold no_less in *. intros (H & K). destruct up; (split; [lia|]); destruct K as [K|[K|K]]; auto; right; right; lia.
Qed.
(** C91: a success stays a success with better dice, if the comparison asks for much and the dice count upwards, or for little and they count downwards. *)
Theorem C91_success gid up e op t w rs rs' : rollable e -> size e < 2 ^ 52 -> helped up e -> comparable (written e) -> asks_for up op -> iok t -> has_value t w ->
  in_sides (asked e) rs -> in_sides (asked e) rs' -> better rs rs' ->
  succeeded (reply gid (DComp (written e) op t) rs) = true -> succeeded (reply gid (DComp (written e) op t) rs') = true.
Proof.
  intros Hr Hz Hh Hc Ha Ht Hw H1 H2 Hb. destruct (asks_compare up op Ha) as (Hop & Hm). destruct (helped_calc e Hr up rs rs' Hh H1 H2 Hb) as (v & v' & K1 & K2 & K3).
  destruct (comp_reply gid e op t w rs v Hr Hc Hop Ht Hw (calc_comes _ _ _ Hr Hz K1)) as (p & ->). destruct (comp_reply gid e op t w rs' v' Hr Hc Hop Ht Hw (calc_comes _ _ _ Hr Hz K2)) as (p' & ->).
  cbn [succeeded r_success]. destruct (compareb op v w) eqn:E; [|discriminate]. rewrite (Hm w v v' K3 E). reflexivity.
Qed.
Print Assumptions C91_success.
(** C91: as typed, with any lists of answers: the whole program *)
Theorem C91_typed bot input secret up e op t w rs rs' : moderate input -> typed input (DComp (written e) op t) secret ->
  rollable e -> size e < 2 ^ 52 -> helped up e -> comparable (written e) -> asks_for up op -> has_value t w ->
  in_sides (asked e) rs -> in_sides (asked e) rs' -> better rs rs' ->
  succeeded (answer bot input rs) = true -> succeeded (answer bot input rs') = true.
Proof.
  intros Hl Hty Hr Hz Hh Hc Ha Hw H1 H2 Hb. destruct (typed_ok _ _ _ Hty) as (_ & _ & Ht). destruct (asks_compare up op Ha) as (Hop & Hm). destruct (helped_calc e Hr up rs rs' Hh H1 H2 Hb) as (v & v' & K1 & K2 & K3).
  destruct (comp_reply (db_game_id bot) e op t w rs v Hr Hc Hop Ht Hw (calc_comes _ _ _ Hr Hz K1)) as (p & E1). destruct (comp_reply (db_game_id bot) e op t w rs' v' Hr Hc Hop Ht Hw (calc_comes _ _ _ Hr Hz K2)) as (p' & E2).
  rewrite (reply_answer _ _ _ _ _ _ Hl Hty E1), (reply_answer _ _ _ _ _ _ Hl Hty E2).
  cbn [succeeded r_success set_secret]. destruct (compareb op v w) eqn:E; [|discriminate]. rewrite (Hm w v v' K3 E). reflexivity.
Qed.
Print Assumptions C91_typed.

(** ** Basic rolls *)
Lemma count_better (P : Z -> bool) rs rs' : (forall a a', a <= a' -> P a = true -> P a' = true) -> better rs rs' -> (count P rs <= count P rs')%nat.
Proof.
  intros HP. unfold count. induction 1 as [|a a' l l' Ha _ IH]; [reflexivity|]. cbn [filter]. specialize (HP a a' Ha). destruct (P a); [rewrite (HP eq_refl); cbn [length]; lia|].
  destruct (P a'); cbn [length]; lia.
Qed.
Lemma better_length rs rs' : better rs rs' -> length rs = length rs'.
Proof. induction 1; cbn; lia. Qed.
Lemma count_worse (P : Z -> bool) rs rs' : (forall a a', a <= a' -> P a' = true -> P a = true) -> better rs rs' -> (count P rs' <= count P rs)%nat.
Proof.
  intros HP. unfold count. induction 1 as [|a a' l l' Ha _ IH]; [reflexivity|]. cbn [filter]. specialize (HP a a' Ha). destruct (P a'); [rewrite (HP eq_refl); cbn [length]; lia|].
  destruct (P a); cbn [length]; lia.
Qed.
(** C91: the number of successes of n1Bs1+n2Bs2+... does not fall with better dice when much is asked for, and does not rise when little is. *)
Theorem C91_successes gid up p ps op t w rs rs' : Forall b_rollable (p :: ps) -> asks_for up op -> has_value t w ->
  in_sides (b_sides (p :: ps)) rs -> in_sides (b_sides (p :: ps)) rs' -> better rs rs' ->
  exists k k',
    part_is 2 ("成功数" ++ itoa k) (reply gid (BComp (b_roll p) (map b_roll ps) op t) rs) = true /\
    part_is 2 ("成功数" ++ itoa k') (reply gid (BComp (b_roll p) (map b_roll ps) op t) rs') = true /\
    no_less up k k'.
Proof.
  intros Hok Ha Hw H1 H2 Hb. destruct (asks_compare up op Ha) as (Hop & Hm).
  destruct (basic_reply gid p ps op t w rs Hok Hop Hw H1) as (a1 & a2 & ->). destruct (basic_reply gid p ps op t w rs' Hok Hop Hw H2) as (b1 & b2 & ->).
  eexists. eexists. split; [apply String.eqb_refl|]. split; [apply String.eqb_refl|]. destruct up; cbn [no_less].
  - apply inj_le, count_better; [|exact Hb]. intros a a' Hl. apply Hm. cbn. lia.
  - apply inj_le, count_worse; [|exact Hb]. intros a a' Hl. apply Hm. cbn. lia.
Qed.
Print Assumptions C91_successes.

(** ** Chances *)
Lemma count_le {A} (p q : A -> bool) l : (forall a, p a = true -> q a = true) -> (count p l <= count q l)%nat.
Proof.
  intros H. unfold count. induction l as [|a l IH]; [reflexivity|]. cbn [filter]. specialize (H a). destruct (p a); [rewrite (H eq_refl); cbn [length]; lia|]. destruct (q a); cbn [length]; lia.
Qed.
Lemma compareb_easier up op v w w' : asks_for up op -> no_less up w' w -> compareb op v w = true -> compareb op v w' = true.
Proof.
  intros Ha Hn. rewrite !(asks_holds up op _ _ Ha). unfold no_less in *. intros (H & K). destruct up; (split; [lia|]); destruct K as [K|[K|K]]; auto; right; right; lia.
Qed.
(** C91: an easier target never lowers the chance of success, whatever is rolled: of the equally likely lists of answers, at least as many succeed. *)
Theorem C91_easier_target gid up e op t w t' w' : rollable e -> size e < 2 ^ 52 -> comparable (written e) -> asks_for up op ->
  iok t -> has_value t w -> iok t' -> has_value t' w' -> no_less up w' w ->
  (count (fun rs => succeeded (reply gid (DComp (written e) op t) rs)) (all_lists (asked e)) <=
   count (fun rs => succeeded (reply gid (DComp (written e) op t') rs)) (all_lists (asked e)))%nat.
Proof.
  intros Hr Hz Hc Ha Ht Hw Ht' Hw' Hn. pose proof (proj1 (asks_compare up op Ha)) as Hop.
  rewrite (proj1 (C85_chance gid e op t w (fun v => compareb op v w) Hr Hz Hc Hop Ht Hw ltac:(intros v; apply compareb_spec, Hop))).
  rewrite (proj1 (C85_chance gid e op t' w' (fun v => compareb op v w') Hr Hz Hc Hop Ht' Hw' ltac:(intros v; apply compareb_spec, Hop))).
  apply count_le. intros [v|]; cbn [satisfied]; [|discriminate]. apply (compareb_easier up op v w w' Ha Hn).
Qed.
Print Assumptions C91_easier_target.
Lemma count_modified (holds : Z -> bool) k l : count (satisfied holds) (combine_all (fun x y => match x, y with Some x, Some y => math_op Plus x y | _, _ => None end) l [Some k]) = count (satisfied (fun v => holds (v + k))) l.
Proof.
  unfold count, combine_all. induction l as [|o l IH]; [reflexivity|]. cbn [flat_map]. destruct o as [v|]; cbn [map app filter satisfied math_op] in *; [destruct (holds (v + k)); cbn [length]; [f_equal|]; exact IH|exact IH].
Qed.
(** C91: a greater modifier never lowers the chance of a success that asks for much (a smaller one never lowers that of one that asks for little),
    whatever is rolled. *)
Theorem C91_modifier gid up e k k' op t w : rollable e -> in_int64 k -> in_int64 k' -> size (Bin Plus e (Leaf (WInt k))) < 2 ^ 52 -> size (Bin Plus e (Leaf (WInt k'))) < 2 ^ 52 ->
  asks_for up op -> iok t -> has_value t w -> no_less up k k' ->
  (count (fun rs => succeeded (reply gid (DComp (written (Bin Plus e (Leaf (WInt k)))) op t) rs)) (all_lists (asked e)) <=
   count (fun rs => succeeded (reply gid (DComp (written (Bin Plus e (Leaf (WInt k')))) op t) rs)) (all_lists (asked e)))%nat.
Proof.
  intros Hr I1 I2 Z1 Z2 Ha Ht Hw Hn. pose proof (proj1 (asks_compare up op Ha)) as Hop.
  assert (forall k, in_int64 k -> size (Bin Plus e (Leaf (WInt k))) < 2 ^ 52 ->
    count (fun rs => succeeded (reply gid (DComp (written (Bin Plus e (Leaf (WInt k)))) op t) rs)) (all_lists (asked e)) = count (satisfied (fun v => compareb op (v + k) w)) (outcomes e)) as K.
  { intros x Ix Zx. pose proof (proj1 (C85_chance gid (Bin Plus e (Leaf (WInt x))) op t w (fun v => compareb op v w) (conj Hr Ix) Zx I Hop Ht Hw ltac:(intros v; apply compareb_spec, Hop))) as E.
    cbn [asked outcomes] in E. rewrite app_nil_r in E. rewrite E. apply count_modified. }
  rewrite (K k I1 Z1), (K k' I2 Z2). apply count_le. intros [v|]; cbn [satisfied]; [|discriminate]. apply (proj2 (asks_compare up op Ha)). destruct up; cbn in *; lia.
Qed.
Print Assumptions C91_modifier.

(** 2D6-1D4*-1+3: the dice count upwards although two signs occur; 20-2D6/3 counts downwards. *)
Definition upward_roll : wexpr := Bin Plus (Bin Minus (Leaf (WDice 2 6)) (Bin Times (Leaf (WDice 1 4)) (Neg (Leaf (WInt 1))))) (Leaf (WInt 3)).
Definition downward_roll : wexpr := Bin Minus (Leaf (WInt 20)) (Bin (Over RoundDown) (Leaf (WDice 2 6)) (Leaf (WInt 3))).
Example C91_example :
  rollable upward_roll /\ size upward_roll < 2 ^ 52 /\ helped true upward_roll /\ comparable (written upward_roll) /\
  in_sides (asked upward_roll) [0; 3; 1] /\ in_sides (asked upward_roll) [2; 3; 2] /\ better [0; 3; 1] [2; 3; 2] /\
  part_is 2 "10" (reply "DiceBot" (DExpr (written upward_roll)) [0; 3; 1]) = true /\
  part_is 2 "13" (reply "DiceBot" (DExpr (written upward_roll)) [2; 3; 2]) = true /\
  succeeded (reply "DiceBot" (DComp (written upward_roll) ">=" (Leaf 10)) [0; 3; 1]) = true.
Proof.
  split; [cbn; unfold in_int64, min_int, max_int, max_alloc_16, two63; lia|]. split; [reflexivity|]. split; [cbn; tauto|]. split; [exact I|].
  split; [cbn; repeat (constructor; [lia|]); constructor|]. split; [cbn; repeat (constructor; [lia|]); constructor|]. split; [repeat (constructor; [lia|]); constructor|]. vconj.
Qed.
Example C91_example_downward :
  rollable downward_roll /\ size downward_roll < 2 ^ 52 /\ helped false downward_roll /\ ~ helped true downward_roll /\
  part_is 2 "19" (reply "DiceBot" (DExpr (written downward_roll)) [0; 3]) = true /\
  part_is 2 "16" (reply "DiceBot" (DExpr (written downward_roll)) [5; 5]) = true.
Proof.
  split; [cbn; unfold in_int64, min_int, max_int, max_alloc_16, two63; lia|]. split; [reflexivity|]. split; [cbn; split; [exact I|split; [discriminate|reflexivity]]|]. split; [cbn; intros (_ & _ & [=])|]. vconj.
Qed.
(** The direction matters: 20-2D6/3 is not better off with better dice. *)
Example C91_example_needed : exists v v', part_is 2 (itoa v) (reply "DiceBot" (DExpr (written downward_roll)) [0; 3]) = true /\
  part_is 2 (itoa v') (reply "DiceBot" (DExpr (written downward_roll)) [5; 5]) = true /\ ~ no_less true v v'.
Proof. exists 19, 16. split; [vm_compute; reflexivity|]. split; [vm_compute; reflexivity|]. cbn. lia. Qed.
Example C91_example_successes :
  Forall b_rollable [(1%nat, 4); (1%nat, 6)] /\ asks_for true ">=" /\ has_value (Leaf 3) 3 /\
  in_sides (b_sides [(1%nat, 4); (1%nat, 6)]) [1; 3] /\ in_sides (b_sides [(1%nat, 4); (1%nat, 6)]) [2; 3] /\ better [1; 3] [2; 3] /\
  part_is 2 "成功数1" (reply "DiceBot" (BComp (b_roll (1%nat, 4)) (map b_roll [(1%nat, 6)]) ">=" (Leaf 3)) [1; 3]) = true /\
  part_is 2 "成功数2" (reply "DiceBot" (BComp (b_roll (1%nat, 4)) (map b_roll [(1%nat, 6)]) ">=" (Leaf 3)) [2; 3]) = true.
Proof.
  split; [repeat constructor; cbn; unfold max_alloc_16, max_int, two63; lia|]. split; [left; reflexivity|]. split; [reflexivity|].
  split; [cbn; repeat (constructor; [lia|]); constructor|]. split; [cbn; repeat (constructor; [lia|]); constructor|]. split; [repeat (constructor; [lia|]); constructor|]. vconj.
Qed.
(** "2d6+1>=8 hit!" *)
Definition typed_roll : wexpr := Bin Plus (Leaf (WDice 2 6)) (Leaf (WInt 1)).
Example C91_example_typed :
  moderate "2d6+1>=8 hit!" /\ typed "2d6+1>=8 hit!" (DComp (written typed_roll) ">=" (Leaf 8)) false /\ rollable typed_roll /\ size typed_roll < 2 ^ 52 /\ helped true typed_roll /\
  comparable (written typed_roll) /\ asks_for true ">=" /\ has_value (Leaf 8) 8 /\ in_sides (asked typed_roll) [2; 3] /\ in_sides (asked typed_roll) [4; 3] /\ better [2; 3] [4; 3] /\
  succeeded (answer basic_bot "2d6+1>=8 hit!" [2; 3]) = true.
Proof.
  split; [vm_compute; reflexivity|]. split.
  { exists EmptyString, "2d6+1>=8"%string, " hit!"%string. split; [reflexivity|]. split; [reflexivity|]. split; [|split; [right; left; eexists _, _; split; [reflexivity|vm_compute; auto]|split; [vm_compute; repeat constructor|vm_compute; repeat constructor]]].
    change (decode "2d6+1>=8") with ((decode "2d6" ++ decode "+" ++ decode "1") ++ decode ">=" ++ decode "8").
    assert (forall v c, decode c <> [] -> Forall SpecGrammar.is_digit (decode c) -> v = Z.min (decimal (decode c)) max_int -> sp_number v (decode c)) as Hnum by (intros v c H1 H2 H3; repeat split; assumption).
    apply spells_dc.
    - apply sp_sum; [|reflexivity|].
      + apply sp_add_mul, sp_mul_prim, sp_leaf. change (decode "2d6") with (decode "2" ++ decode "d" ++ decode "6"). apply roll_; [apply SpecGrammar.operand_leaf| |apply SpecGrammar.operand_leaf].
        * apply Hnum; [discriminate|repeat constructor; discriminate|reflexivity].
        * reflexivity.
        * apply Hnum; [discriminate|repeat constructor; discriminate|reflexivity].
      + apply sp_mul_prim, sp_leaf. cbn [sp_dleaf]. apply Hnum; [discriminate|repeat constructor; discriminate|reflexivity].
    - exists (DDice (Leaf (RInt 2)) (Leaf (RInt 6))). split; [repeat constructor|exact I].
    - apply target_; [unfold is_compare_op; cbn; auto 10|reflexivity|]. apply sp_add_mul, sp_mul_prim, sp_leaf. apply Hnum; [discriminate|repeat constructor; discriminate|reflexivity]. }
  split; [cbn; unfold in_int64, min_int, max_int, max_alloc_16, two63; lia|]. split; [reflexivity|]. split; [cbn; tauto|]. split; [exact I|]. split; [left; reflexivity|]. split; [reflexivity|].
  split; [cbn; repeat (constructor; [lia|]); constructor|]. split; [cbn; repeat (constructor; [lia|]); constructor|]. split; [repeat (constructor; [lia|]); constructor|]. vmc.
Qed.
