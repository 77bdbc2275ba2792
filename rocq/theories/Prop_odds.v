(** Property C85: the odds of any additive roll with written numbers. *)
From Coq Require Import Reals Lra Permutation QArith.
From Verif Require Import Grammar ProofBase Dice SpecDice DiceProofs Comp CompProofs Ast Eval Notation NotationProofs Command
  SpecSyntax SpecArith ArithProofs SpecRoll SpecTotals SpecLists SpecFair SpecOdds YieldsProofs DRollProofs NumberText BCDice CommandProofs
  SpecTyped Prop_droll Prop_lists Prop_exec Prop_totals Prop_fair Prop_chances Prop_average Prop_value Prop_typed Prop_complete.
Open Scope list_scope.
Open Scope Z_scope.

(** ** Lists of answers *)
Lemma flat_map_flat {A B C} (f : B -> list C) (g : A -> list B) l : flat_map f (flat_map g l) = flat_map (fun a => flat_map f (g a)) l.
Proof. induction l as [|x l IH]; [reflexivity|]. cbn. rewrite flat_map_app, IH. reflexivity. Qed.
Lemma flat_map_map {A B C} (f : B -> list C) (g : A -> B) l : flat_map f (map g l) = flat_map (fun a => f (g a)) l.
Proof. induction l as [|x l IH]; [reflexivity|]. cbn. rewrite IH. reflexivity. Qed.
Lemma map_flat {A B C} (f : B -> C) (g : A -> list B) l : map f (flat_map g l) = flat_map (fun a => map f (g a)) l.
Proof. induction l as [|x l IH]; [reflexivity|]. cbn. rewrite map_app, IH. reflexivity. Qed.
Lemma flat_ext {A B} (f g : A -> list B) l : (forall a, f a = g a) -> flat_map f l = flat_map g l.
Proof. intros H. induction l as [|x l IH]; [reflexivity|]. cbn. rewrite H, IH. reflexivity. Qed.
Lemma map_comb {A B C D} (h : C -> D) (f : A -> B -> C) l1 l2 : map h (combine_all f l1 l2) = combine_all (fun x y => h (f x y)) l1 l2.
Proof. unfold combine_all. rewrite map_flat. apply flat_ext. intros a. apply map_map. Qed.
Lemma comb_map {A B C A' B'} (f : A -> B -> C) (g : A' -> A) (h : B' -> B) l1 l2 : combine_all f (map g l1) (map h l2) = combine_all (fun x y => f (g x) (h y)) l1 l2.
Proof. unfold combine_all. rewrite flat_map_map. apply flat_ext. intros a. apply map_map. Qed.
Lemma all_lists_app l1 l2 : all_lists (l1 ++ l2) = combine_all (@app Z) (all_lists l1) (all_lists l2).
Proof.
  induction l1 as [|s l1 IH]; [cbn; rewrite app_nil_r; symmetry; apply map_id|]. cbn [app all_lists]. unfold combine_all. rewrite flat_map_flat. apply flat_ext. intros a. rewrite flat_map_map, IH. unfold combine_all.
  rewrite map_flat. apply flat_ext. intros x. rewrite map_map. apply map_ext. reflexivity.
Qed.
Lemma all_lists_repeat n s : all_lists (repeat s n) = all_answers n s.
Proof. induction n as [|n IH]; [reflexivity|]. cbn [repeat all_lists all_answers]. rewrite IH. reflexivity. Qed.
Lemma sums_answers n s : sums n s = map (fun rs => sumz rs + Z.of_nat n) (all_answers n s).
Proof.
  induction n as [|n IH]; [reflexivity|]. cbn [sums all_answers]. rewrite IH, map_flat. unfold combine_all. apply flat_ext. intros a. rewrite !map_map. apply map_ext. intros rs. unfold sumz. cbn [fold_right]. lia.
Qed.
Lemma forall2_comb {A B C A' B' C'} (R1 : A -> A' -> Prop) (R2 : B -> B' -> Prop) (R : C -> C' -> Prop) f g l1 l1' l2 l2' :
  (forall x x' y y', R1 x x' -> R2 y y' -> R (f x y) (g x' y')) -> Forall2 R1 l1 l1' -> Forall2 R2 l2 l2' -> Forall2 R (combine_all f l1 l2) (combine_all g l1' l2').
Proof.
  intros H H1 H2. unfold combine_all. induction H1 as [|x x' l1 l1' Hx _ IH]; cbn [flat_map]; [constructor|]. apply Forall2_app; [|exact IH].
  clear - H H2 Hx. induction H2 as [|y y' l l' Hy _ IH]; cbn [map]; [constructor|]. constructor; [auto|exact IH].
Qed.
Lemma forall2_map {A B C} (R : A -> B -> Prop) (R' : A -> C -> Prop) (g : B -> C) l l' : (forall a b, R a b -> R' a (g b)) -> Forall2 R l l' -> Forall2 R' l (map g l').
Proof. intros H. induction 1; cbn; constructor; auto. Qed.
Lemma forall2_self {A B} (R : A -> B -> Prop) (g : A -> B) l : (forall a, In a l -> R a (g a)) -> Forall2 R l (map g l).
Proof. induction l as [|a l IH]; intros H; cbn; constructor; [apply H; left; reflexivity|]. apply IH. intros x Hx. apply H. right. exact Hx. Qed.

(** ** One list of answers *)
Definition dice_for (sides rs : list Z) : list die := map (fun p => Die (snd p + 1) (fst p)) (combine sides rs).
Definition in_sides (sides rs : list Z) : Prop := Forall2 (fun s a => 0 <= a < s) sides rs.
Lemma dice_for_app l1 l2 r1 r2 : length l1 = length r1 -> dice_for (l1 ++ l2) (r1 ++ r2) = dice_for l1 r1 ++ dice_for l2 r2.
Proof.
  unfold dice_for. revert r1. induction l1 as [|s l1 IH]; intros [|a r1] H; try discriminate H; [reflexivity|]. cbn [app combine map]. rewrite IH by (cbn in H; lia). reflexivity.
Qed.
Lemma in_sides_length l r : in_sides l r -> length l = length r.
Proof. induction 1; cbn; lia. Qed.
Lemma dice_for_repeat n s rs : length rs = n -> dice_for (repeat s n) rs = faces s rs.
Proof. intros <-. unfold dice_for, faces. induction rs as [|a rs IH]; [reflexivity|]. cbn [length repeat combine map]. rewrite IH. reflexivity. Qed.
Lemma in_sides_repeat n s rs : answered n s rs -> in_sides (repeat s n) rs.
Proof. intros (<- & H). unfold in_sides. induction H; cbn [length repeat]; constructor; assumption. Qed.

Definition mid_of : wexpr -> ae mleaf := ae_map (fun l => match l with WInt v => MInt v | WDice n s => MDice (Z.of_nat n) s end).
(** [falls e rs ie]: with the answers rs, e becomes ie *)
Definition falls (e : wexpr) (rs : list Z) (ie : iexpr) : Prop :=
  in_sides (asked e) rs /\ exists fin, visit roll_leaf (mid_of e) (dice_for (asked e) rs) fin /\ ae_map sum_leaf fin = ie.
Lemma all_fall e : rollable e -> Forall2 (falls e) (all_lists (asked e)) (instances e).
Proof.
  unfold rollable. induction e as [[v|n s]|e IH|op a IHa b IHb]; intros Hr.
  - cbn. constructor; [|constructor]. split; [constructor|]. exists (Leaf (SInt v)). split; [|reflexivity]. constructor. split; reflexivity.
  - cbn [all_leaves] in Hr. destruct Hr as (H1 & H2 & H3 & H4). cbn [asked instances]. rewrite all_lists_repeat, sums_answers, map_map. apply forall2_self. intros rs Hrs. apply in_all in Hrs.
    split; [apply in_sides_repeat, Hrs|]. cbn [asked]. rewrite (dice_for_repeat n s rs (proj1 Hrs)). exists (Leaf (SRoll (faces s rs))).
    destruct (plain_value n s rs H1 H2 H3 H4 Hrs) as (_ & Hv & Hs). split; [exact Hv|]. apply has_value_mach in Hs. cbn [mach ae_map] in *. injection Hs as Hs. f_equal. exact Hs.
  - cbn [asked instances]. refine (forall2_map _ _ _ _ _ _ (IH Hr)). intros rs ie (H1 & fin & H2 & <-). split; [exact H1|]. exists (Neg fin). split; [constructor; exact H2|reflexivity].
  - destruct Hr as (Ha & Hb). cbn [asked instances]. rewrite all_lists_app. refine (forall2_comb _ _ _ _ _ _ _ _ _ _ (IHa Ha) (IHb Hb)).
    intros r1 i1 r2 i2 (S1 & f1 & V1 & <-) (S2 & f2 & V2 & <-). split; [apply Forall2_app; assumption|]. exists (Bin op f1 f2). cbn [asked]. rewrite dice_for_app by (apply in_sides_length, S1).
    split; [constructor; assumption|reflexivity].
Qed.
Lemma written_ok e : rollable e -> dok (written e).
Proof.
  unfold rollable, dok, written. induction e as [[v|n s]|e IH|op a IHa b IHb]; cbn; [tauto| |exact IH|tauto]. intros (H1 & H2 & H3 & H4). unfold in_int64, min_int, max_int, max_alloc_16, two63 in *. split; nia.
Qed.
Lemma settle_written e : visit settle_operands (written e) [] (mid_of e).
Proof.
  unfold written, mid_of. induction e as [[v|n s]|e IH|op a IHa b IHb]; cbn [ae_map].
  - constructor. split; reflexivity.
  - constructor. exists [], []. split; [reflexivity|]. split; apply operand_int.
  - constructor. exact IH.
  - change (@nil die) with (@nil die ++ []). constructor; assumption.
Qed.
Lemma operand_int_only w ds v : operand_value (Leaf (RInt w)) ds v -> ds = [] /\ v = w.
Proof. intros (ie & H & Hv). inversion H as [l ds' m H1| |]. subst. destruct H1 as (-> & ->). unfold has_value in Hv. cbn in Hv. injection Hv as ->. auto. Qed.
Lemma settle_only e : forall ops mid, visit settle_operands (written e) ops mid -> ops = [] /\ mid = mid_of e.
Proof.
  unfold written, mid_of. induction e as [[v|n s]|e IH|op a IHa b IHb]; cbn [ae_map]; intros ops mid H; inversion H as [l ds m H1|e0 ds e' H1|op0 a0 b0 ds1 ds2 a' b' H1 H2]; subst.
  - destruct m; cbn in H1; [destruct H1 as (-> & ->); auto|contradiction].
  - destruct m; cbn in H1; [contradiction|]. destruct H1 as (d1 & d2 & -> & K1 & K2). apply operand_int_only in K1 as (-> & ->). apply operand_int_only in K2 as (-> & ->). auto.
  - destruct (IH _ _ H1) as (-> & ->). auto.
  - destruct (IHa _ _ H1) as (-> & ->). destruct (IHb _ _ H2) as (-> & ->). auto.
Qed.
Lemma roll_sides e : forall rolls fin, visit roll_leaf (mid_of e) rolls fin -> map die_sides rolls = asked e.
Proof.
  unfold mid_of. induction e as [[v|n s]|e IH|op a IHa b IHb]; cbn [ae_map asked]; intros rolls fin H; inversion H as [l ds m H1|e0 ds e' H1|op0 a0 b0 ds1 ds2 a' b' H1 H2]; subst.
  - destruct m; cbn in H1; [destruct H1 as (-> & _); reflexivity|contradiction].
  - destruct m; cbn in H1; [contradiction|]. destruct H1 as (_ & _ & _ & Hl & Hs). replace n with (length rolls) by lia. clear - Hs. induction Hs as [|d l Hd _ IH]; [reflexivity|]. cbn [map length repeat]. rewrite IH, Hd. reflexivity.
  - eapply IH; eassumption.
  - rewrite map_app, (IHa _ _ H1), (IHb _ _ H2). reflexivity.
Qed.
Lemma roll_only m : forall rolls fin fin', visit roll_leaf m rolls fin -> visit roll_leaf m rolls fin' -> fin = fin'.
Proof.
  assert (forall m r1 q1 r2 q2 fin fin', visit roll_leaf m r1 fin -> visit roll_leaf m r2 fin' -> r1 ++ q1 = r2 ++ q2 -> r1 = r2 /\ fin = fin') as K.
  { clear m. induction m as [[v|n s]|e IH|op a IHa b IHb]; intros r1 q1 r2 q2 fin fin' H H' E; inversion H as [l ds m H1|e0 ds e' H1|op0 a0 b0 ds1 ds2 a' b' H1 H2]; subst; inversion H' as [l ds m' H1'|e0 ds e'' H1'|op0 a0 b0 ds1' ds2' a'' b'' H1' H2']; subst.
    - destruct m, m'; cbn in *; try contradiction. destruct H1 as (-> & ->), H1' as (-> & ->). auto.
    - destruct m, m'; cbn in *; try contradiction. destruct H1 as (-> & _ & _ & L1 & _), H1' as (-> & _ & _ & L2 & _).
      assert (r1 = r2) as -> by (apply (f_equal (firstn (length r1))) in E; rewrite firstn_app, Nat.sub_diag, firstn_all, firstn_O, app_nil_r in E; replace (length r1) with (length r2) in E by lia; rewrite firstn_app, Nat.sub_diag, firstn_all, firstn_O, app_nil_r in E; exact E). auto.
    - destruct (IH _ _ _ _ _ _ H1 H1' E) as (-> & ->). auto.
    - repeat rewrite <- app_assoc in E. destruct (IHa _ _ _ _ _ _ H1 H1' E) as (-> & ->). apply app_inv_head in E. destruct (IHb _ _ _ _ _ _ H2 H2' E) as (-> & ->). auto. }
  intros rolls fin fin' H H'. exact (proj2 (K m rolls [] rolls [] fin fin' H H' eq_refl)).
Qed.
Lemma sides_int e : rollable e -> Forall (fun s => s <= max_int) (asked e).
Proof.
  unfold rollable. induction e as [[v|n s]|e IH|op a IHa b IHb]; cbn [all_leaves asked]; [constructor| |exact IH|intros (H1 & H2); apply Forall_app; auto].
  intros (H1 & H2 & H3 & H4). apply Forall_forall. intros x Hx. apply repeat_spec in Hx. subst. nia.
Qed.
Lemma answers_dice sides rs : in_sides sides rs -> Forall (fun s => s <= max_int) sides -> answers_to (source rs) 0 (dice_for sides rs).
Proof.
  intros H Hs i d Hi. unfold source. cbn [Nat.add]. unfold dice_for in Hi. revert i d Hi. induction H as [|s a sides rs Ha _ IH]; intros i d Hi; [destruct i; discriminate|]. inversion_clear Hs.
  destruct i as [|i]; cbn [combine map nth_error] in Hi; [|exact (IH H0 i d Hi)]. injection Hi as <-. cbn [nth die_value snd]. rewrite wrap64_id; [lia|]. unfold in_int64, min_int, max_int, two63 in *. lia.
Qed.
Lemma source_dice sides rs ds f' : in_sides sides rs -> Forall (fun s => s <= max_int) sides -> draws (FRandom (source rs) 0) ds f' -> map die_sides ds = sides -> ds = dice_for sides rs.
Proof.
  intros H Hs Hd He. pose proof (draws_source _ _ _ Hd (source rs) 0%nat eq_refl) as K. clear Hd. unfold source in K. cbn [Nat.add] in K. revert ds He K.
  unfold dice_for. induction H as [|s a sides rs Ha _ IH]; intros ds He K; destruct ds as [|d ds]; try discriminate He; [reflexivity|]. injection He as Hd He. inversion_clear Hs. cbn [combine map fst snd]. f_equal.
  - pose proof (K 0%nat d eq_refl) as E. cbn [nth] in E. rewrite wrap64_id in E by (unfold in_int64, min_int, max_int, two63 in *; lia). destruct d. cbn in *. f_equal; lia.
  - apply IH; [assumption|exact He|]. intros i x Hx. exact (K (S i) x Hx).
Qed.
(** the reply, given the value *)
Lemma fall_reply gid e rs ie v : rollable e -> falls e rs ie -> has_value ie v ->
  exists s1 s2, reply gid (DExpr (written e)) rs = Some (Result gid [s1; s2; itoa v] (dice_for (asked e) rs) Unspecified false).
Proof.
  intros Hr (Hs & fin & Hv & <-) Hval. destruct (notates_mtree (mid_of e) true) as (s1 & Hs1). destruct (notates_stree fin true) as (s2 & Hs2).
  assert (gives gid (command_tree (DExpr (written e))) (dice_for (asked e) rs) (Result gid [parenthesize s1; s2; itoa v] (dice_for (asked e) rs) Unspecified false)) as Hg.
  { apply C15_d_expr_exact; [apply written_ok, Hr|]. exists [], (dice_for (asked e) rs), (mid_of e), fin, v, s1, s2. split; [reflexivity|]. split; [split; [apply settle_written|split; assumption]|]. auto. }
  exists (parenthesize s1), s2. unfold reply. rewrite (gives_source _ _ _ _ _ _ Hg (answers_dice _ _ Hs (sides_int e Hr))). reflexivity.
Qed.
Lemma reply_value gid e rs ie r : rollable e -> falls e rs ie -> reply gid (DExpr (written e)) rs = Some r -> exists v, has_value ie v /\ nth_error (r_parts r) 2 = Some (itoa v).
Proof.
  intros Hr (Hs & fin & Hv & <-) H. unfold reply in H. destruct (run_command gid (command_tree (DExpr (written e))) (FRandom (source rs) 0)) as [[r0|?|?] f'] eqn:E; try discriminate. injection H as <-.
  destruct (C15_d_expr_any_feeder gid _ _ _ _ (written_ok e Hr) E) as (ops & rolls & mid & fin' & v & s1 & s2 & Hd & (V1 & V2 & V3) & _ & _ & ->).
  destruct (settle_only e _ _ V1) as (-> & ->). cbn [app] in Hd. rewrite (source_dice _ _ _ _ Hs (sides_int e Hr) Hd (roll_sides e _ _ V2)) in V2.
  rewrite (roll_only _ _ _ _ Hv V2). exists v. split; [exact V3|reflexivity].
Qed.
Lemma part_is_iff i text r : part_is i text r = true <-> exists r', r = Some r' /\ nth_error (r_parts r') i = Some text.
Proof.
  unfold part_is. destruct r as [r|]; [|split; [discriminate|intros (? & [=] & _)]]. destruct (nth_error (r_parts r) i) as [s|] eqn:E.
  - rewrite String.eqb_eq. split; [intros ->; eauto|]. intros (r' & [= <-] & H). congruence.
  - split; [discriminate|]. intros (r' & [= <-] & H). congruence.
Qed.
Lemma instances_ok e : rollable e -> Forall iok (instances e).
Proof.
  unfold rollable, iok. induction e as [[v|n s]|e IH|op a IHa b IHb]; cbn [all_leaves instances]; intros H.
  - constructor; [exact H|constructor].
  - rewrite sums_answers, map_map. apply Forall_map, Forall_forall. intros rs Hrs. apply in_all in Hrs. apply answered_range in Hrs. cbn. unfold in_int64, min_int, max_int, two63 in *. nia.
  - apply Forall_map. eapply Forall_impl; [|exact (IH H)]. auto.
  - destruct H as (Ha & Hb). unfold combine_all. apply Forall_flat_map. eapply Forall_impl; [|exact (IHa Ha)]. intros x Hx. apply Forall_map. eapply Forall_impl; [|exact (IHb Hb)]. intros y Hy. split; assumption.
Qed.
Lemma forall2_right {A B} (R : A -> B -> Prop) (P : B -> Prop) l l' : Forall2 R l l' -> Forall P l' -> Forall2 (fun a b => R a b /\ P b) l l'.
Proof. induction 1; intros H1; inversion_clear H1; constructor; auto. Qed.
Lemma forall2_imp {A B} (R R' : A -> B -> Prop) l l' : (forall a b, R a b -> R' a b) -> Forall2 R l l' -> Forall2 R' l l'.
Proof. intros H. induction 1; constructor; auto. Qed.

(** C85: one by one, each of the equally likely lists of answers leads to the total of one of the calculations the roll can become; whatever the
    arithmetic, also where it overflows.  The total is v exactly if the calculation gives v; there is no reply exactly if it divides by zero. *)
Theorem C85_every_answer gid e : rollable e ->
  Forall2 (fun rs calculation =>
      (forall v, part_is 2 (itoa v) (reply gid (DExpr (written e)) rs) = true <-> calculates calculation v) /\
      (reply gid (DExpr (written e)) rs = None <-> ~ exists v, calculates calculation v))
    (all_lists (asked e)) (instances e).
Proof.
  intros Hr. refine (forall2_imp _ _ _ _ _ (forall2_right _ _ _ _ (all_fall e Hr) (instances_ok e Hr))). intros rs ie (Hf & Hi). split.
  - intros v. rewrite <- (C79_values ie v Hi). split.
    + intros H. apply part_is_iff in H as (r & H & Hp). destruct (reply_value gid e rs ie r Hr Hf H) as (w & Hw & Hn). rewrite Hn in Hp. injection Hp as Hp. apply itoa_inj in Hp. subst. exact Hw.
    + intros H. destruct (fall_reply gid e rs ie v Hr Hf H) as (s1 & s2 & ->). apply part_is_iff. eexists. split; reflexivity.
  - split.
    + intros H (v & Hv). apply (C79_values ie v Hi) in Hv. destruct (fall_reply gid e rs ie v Hr Hf Hv) as (s1 & s2 & E). congruence.
    + intros H. destruct (reply gid (DExpr (written e)) rs) as [r|] eqn:E; [|reflexivity]. exfalso. apply H. destruct (reply_value gid e rs ie r Hr Hf E) as (w & Hw & _). exists w. apply (C79_values ie w Hi), Hw.
Qed.
Print Assumptions C85_every_answer.

(** ** Ordinary arithmetic *)
Lemma outcomes_math e : outcomes e = map math_value (instances e).
Proof.
  induction e as [[v|n s]|e IH|op a IHa b IHb]; cbn [outcomes instances].
  - reflexivity.
  - rewrite map_map. reflexivity.
  - rewrite IH, !map_map. apply map_ext. intros ie. cbn [math_value]. destruct (math_value ie); reflexivity.
  - rewrite IHa, IHb, map_comb, comb_map. unfold combine_all. apply flat_ext. intros x. apply map_ext. reflexivity.
Qed.
Lemma size_pos e : rollable e -> 1 <= size e.
Proof.
  unfold rollable. induction e as [[v|n s]|e IH|op a IHa b IHb]; cbn [all_leaves size]; intros H; [lia|nia|auto|].
  destruct H as (Ha & Hb). specialize (IHa Ha). specialize (IHb Hb). destruct op; nia.
Qed.
Lemma ceil_le q n : (q <= IZR n)%R -> Raux.Zceil q <= n.
Proof. apply Raux.Zceil_glb. Qed.
Lemma divided_abs m x y : y <> 0 -> Z.abs (divided m x y) <= Z.abs x.
Proof.
  intros Hy. pose proof (FloatProofs.quot_abs_le x y Hy) as H. fold (quotient x y) in H. set (q := quotient x y) in *. rewrite <- abs_IZR in H.
  assert (- IZR (Z.abs x) <= q <= IZR (Z.abs x))%R as (H1 & H2) by (apply Raux.Rabs_le_inv; exact H).
  assert (forall r : R, (- IZR (Z.abs x) <= r)%R -> (r <= IZR (Z.abs x))%R -> - Z.abs x <= Raux.Zfloor (r + / 2) <= Z.abs x) as Hh.
  { intros r L U. split.
    - apply Raux.Zfloor_lub. rewrite opp_IZR. lra.
    - apply Z.lt_succ_r, lt_IZR. pose proof (Raux.Zfloor_lb (r + / 2)) as B. rewrite succ_IZR. lra. }
  destruct m; cbn [divided]; fold q.
  - unfold Raux.Ztrunc. destruct (Raux.Rlt_bool q 0).
    + assert (- Z.abs x <= Raux.Zceil q <= Z.abs x); [|lia]. split; [|apply Raux.Zceil_glb; exact H2]. apply le_IZR. rewrite opp_IZR. eapply Rle_trans; [exact H1|apply Raux.Zceil_ub].
    + assert (- Z.abs x <= Raux.Zfloor q <= Z.abs x); [|lia]. split; [apply Raux.Zfloor_lub; rewrite opp_IZR; exact H1|]. apply le_IZR. eapply Rle_trans; [apply Raux.Zfloor_lb|exact H2].
  - unfold half_away. destruct (Rlt_dec q 0); [|specialize (Hh q H1 H2); lia]. specialize (Hh (- q)%R ltac:(lra) ltac:(lra)). lia.
  - assert (- Z.abs x <= Raux.Zceil q <= Z.abs x); [|lia]. split; [|apply Raux.Zceil_glb; exact H2]. apply le_IZR. rewrite opp_IZR. eapply Rle_trans; [exact H1|apply Raux.Zceil_ub].
Qed.
Lemma small_ordinary e : rollable e -> size e < 2 ^ 52 -> Forall (fun ie => ordinary ie /\ forall v, math_value ie = Some v -> Z.abs v <= size e) (instances e).
Proof.
  unfold rollable. induction e as [[v|n s]|e IH|op a IHa b IHb]; cbn [all_leaves instances]; intros H Hs.
  - constructor; [|constructor]. cbn in *. split; [split; [exact H|exact I]|]. intros w [= <-]. lia.
  - rewrite sums_answers, map_map. apply Forall_map, Forall_forall. intros rs Hrs. apply in_all in Hrs. apply answered_range in Hrs. cbn. unfold value_in. cbn. unfold in_int64, min_int, max_int, two63 in *.
    split; [split; [nia|exact I]|]. intros w [= <-]. nia.
  - cbn [size] in *. apply Forall_map. eapply Forall_impl; [|exact (IH H Hs)]. intros ie (H1 & H2). cbn [ordinary math_value]. unfold value_in. cbn [math_value]. destruct (math_value ie) as [v|] eqn:E.
    + specialize (H2 v eq_refl). split; [split; [unfold in_int64, min_int, max_int, two63 in *; lia|exact H1]|]. intros w [= <-]. lia.
    + split; [split; [exact I|exact H1]|discriminate].
  - destruct H as (Ha & Hb). pose proof (size_pos a Ha) as Pa. pose proof (size_pos b Hb) as Pb.
    assert (size a < 2 ^ 52 /\ size b < 2 ^ 52) as (Sa & Sb) by (cbn [size] in Hs; destruct op; nia).
    unfold combine_all. apply Forall_flat_map. eapply Forall_impl; [|exact (IHa Ha Sa)]. intros x (X1 & X2). apply Forall_map. eapply Forall_impl; [|exact (IHb Hb Sb)]. intros y (Y1 & Y2).
    assert (forall v, math_value (Bin op x y) = Some v -> Z.abs v <= size (Bin op a b)) as K.
    { cbn [math_value]. destruct (math_value x) as [vx|]; [|discriminate]. destruct (math_value y) as [vy|]; [|discriminate]. specialize (X2 vx eq_refl). specialize (Y2 vy eq_refl). intros v Hv.
      destruct op as [| | |m]; cbn [math_op size] in *; [injection Hv as <-; lia|injection Hv as <-; lia|injection Hv as <-; rewrite Z.abs_mul; nia|].
      destruct (Z.eqb_spec vy 0) as [|Ey]; [discriminate|]. injection Hv as <-. pose proof (divided_abs m vx vy Ey). lia. }
    split; [|exact K]. split; [|split; [exact X1|split; [exact Y1|]]].
    + unfold value_in. destruct (math_value (Bin op x y)) as [v|]; [|exact I]. specialize (K v eq_refl). unfold in_int64, min_int, max_int, two63 in *. lia.
    + unfold value_in. destruct (math_value x) as [vx|]; [|exact I]. specialize (X2 vx eq_refl). destruct op as [| | |[]]; cbn [dividend_ok]; try exact I; lia.
Qed.
Lemma ordinary_value ie v : ordinary ie -> (has_value ie v <-> math_value ie = Some v).
Proof.
  intros H. pose proof (mach_math ie H) as K. rewrite has_value_mach. destruct (math_value ie) as [w|].
  - destruct K as (-> & _). split; congruence.
  - destruct K as (l & ->). split; congruence.
Qed.
(** each list of answers has its total *)
Definition comes_to (e : wexpr) (rs : list Z) (o : option Z) : Prop := exists ie, falls e rs ie /\ o = math_value ie /\ ordinary ie.
Lemma all_come e : rollable e -> size e < 2 ^ 52 -> Forall2 (comes_to e) (all_lists (asked e)) (outcomes e).
Proof.
  intros Hr Hs. rewrite outcomes_math. refine (forall2_map _ _ _ _ _ _ (forall2_right _ _ _ _ (all_fall e Hr) (small_ordinary e Hr Hs))). intros rs ie (H1 & H2 & _). exists ie. auto.
Qed.
Lemma come_reply gid e rs v : rollable e -> comes_to e rs (Some v) ->
  exists s1 s2, reply gid (DExpr (written e)) rs = Some (Result gid [s1; s2; itoa v] (dice_for (asked e) rs) Unspecified false).
Proof. intros Hr (ie & Hf & Hv & Ho). apply (fall_reply gid e rs ie v Hr Hf). apply ordinary_value; auto. Qed.
Lemma come_none gid e rs : rollable e -> comes_to e rs None -> reply gid (DExpr (written e)) rs = None.
Proof.
  intros Hr (ie & Hf & Hv & Ho). destruct (reply gid (DExpr (written e)) rs) as [r|] eqn:E; [|reflexivity]. destruct (reply_value gid e rs ie r Hr Hf E) as (w & Hw & _). apply (ordinary_value ie w Ho) in Hw. congruence.
Qed.
Lemma count_forall2 {A B} (p : A -> bool) (q : B -> bool) l l' : Forall2 (fun a b => p a = q b) l l' -> count p l = count q l'.
Proof. unfold count. induction 1 as [|a b l l' H _ IH]; [reflexivity|]. cbn [filter]. rewrite H. destruct (q b); cbn [length]; rewrite IH; reflexivity. Qed.
Definition is_value (v : Z) (o : option Z) : bool := match o with Some w => w =? v | None => false end.
Definition is_none {A} (o : option A) : bool := match o with Some _ => false | None => true end.
(** C85: the distribution of the totals.  Of the equally likely lists of answers, as many lead to the total v as there are combinations of
    faces for which ordinary arithmetic gives v; and as many lead to no answer as there are combinations for which it divides by zero. *)
Theorem C85_distribution gid e : rollable e -> size e < 2 ^ 52 ->
  (forall v, count (fun rs => part_is 2 (itoa v) (reply gid (DExpr (written e)) rs)) (all_lists (asked e)) = count (is_value v) (outcomes e)) /\
  count (fun rs => is_none (reply gid (DExpr (written e)) rs)) (all_lists (asked e)) = count is_none (outcomes e) /\
  length (all_lists (asked e)) = length (outcomes e).
Proof.
  intros Hr Hs. pose proof (all_come e Hr Hs) as H. split; [|split].
  - intros v. apply count_forall2. refine (forall2_imp _ _ _ _ _ H). intros rs [w|] Hc; cbn [is_value].
    + destruct (come_reply gid e rs w Hr Hc) as (s1 & s2 & ->). cbn [part_is r_parts nth_error]. destruct (String.eqb_spec (itoa w) (itoa v)) as [E|E]; [apply itoa_inj in E; lia|]. destruct (Z.eqb_spec w v); [exfalso; apply E; f_equal; assumption|reflexivity].
    + rewrite (come_none gid e rs Hr Hc). reflexivity.
  - apply count_forall2. refine (forall2_imp _ _ _ _ _ H). intros rs [w|] Hc; cbn [is_none].
    + destruct (come_reply gid e rs w Hr Hc) as (s1 & s2 & ->). reflexivity.
    + rewrite (come_none gid e rs Hr Hc). reflexivity.
  - clear - H. induction H; cbn; lia.
Qed.
Print Assumptions C85_distribution.
Lemma NoDup_app_intro {A} (l1 l2 : list A) : NoDup l1 -> NoDup l2 -> (forall x, In x l1 -> ~ In x l2) -> NoDup (l1 ++ l2).
Proof.
  induction l1 as [|x l1 I1]; intros N1 N2 Hd; [exact N2|]. inversion_clear N1. cbn. constructor.
  - rewrite in_app_iff. intros [X|X]; [contradiction|]. apply (Hd x); [left; reflexivity|exact X].
  - apply I1; try assumption. intros y Hy. apply Hd. right. exact Hy.
Qed.
(** [all_lists] lists every possible list of answers exactly once. *)
Theorem C85_all_lists sides : NoDup (all_lists sides) /\ (forall rs, In rs (all_lists sides) <-> Forall2 (fun s a => 0 <= a < s) sides rs) /\
  Z.of_nat (length (all_lists sides)) = fold_right (fun s p => Z.max 0 s * p) 1 sides.
Proof.
  induction sides as [|s sides (IH1 & IH2 & IH3)]; cbn [all_lists].
  - split; [constructor; [intros []|constructor]|]. split; [|reflexivity]. intros rs. cbn [In]. split; [intros [<-|[]]; constructor|]. intros H. inversion H. auto.
  - split; [|split].
    + generalize (below_nodup s). induction (below s) as [|a l IHl]; intros H; cbn [flat_map]; [constructor|]. inversion_clear H. apply NoDup_app_intro.
      * apply FinFun.Injective_map_NoDup; [intros x y E; injection E; auto|exact IH1].
      * apply IHl. assumption.
      * intros x Hx Hx'. apply in_map_iff in Hx as (y & <- & _). apply in_flat_map in Hx' as (b & Hb & Hx'). apply in_map_iff in Hx' as (z & E & _). injection E as -> _. contradiction.
    + intros rs. rewrite in_flat_map. split.
      * intros (a & Ha & Hr). apply in_map_iff in Hr as (l & <- & Hl). constructor; [apply in_below, Ha|apply IH2, Hl].
      * intros H. inversion H as [|? a ? l Ha Hl]. subst. exists a. split; [apply in_below, Ha|]. apply in_map, IH2, Hl.
    + cbn [fold_right]. rewrite <- IH3. replace (Z.max 0 s) with (Z.of_nat (length (below s))) by (rewrite length_below; lia). rewrite <- Nat2Z.inj_mul. f_equal.
      induction (below s) as [|a l IHl]; [reflexivity|]. cbn [flat_map length]. rewrite app_length, map_length, IHl. reflexivity.
Qed.
Print Assumptions C85_all_lists.

(** ** Chances of success *)
Lemma comp_reply gid e op t w rs v : rollable e -> comparable (written e) -> is_compare_op op -> iok t -> has_value t w -> comes_to e rs (Some v) ->
  exists parts, reply gid (DComp (written e) op t) rs = Some (Result gid parts (dice_for (asked e) rs) (if compareb op v w then Success else Failure) false).
Proof.
  intros Hr Hc Hop Ht Hw (ie & (Hs & fin & Hv & <-) & Hm & Ho). apply (eq_sym) in Hm. apply (ordinary_value _ v Ho) in Hm.
  destruct (notates_mtree (mid_of e) true) as (s1 & Hs1). destruct (notates_stree fin true) as (s2 & Hs2). set (b := compareb op v w).
  assert (gives gid (command_tree (DComp (written e) op t)) (dice_for (asked e) rs) (Result gid [parenthesize (s1 ++ op ++ itoa w); s2; itoa v; if b then "成功" else "失敗"]%string (dice_for (asked e) rs) (if b then Success else Failure) false)) as Hg.
  { apply C16_d_comp_exact; [apply written_ok, Hr|assumption|assumption|]. split; [exact Hc|]. exists [], (dice_for (asked e) rs), (mid_of e), fin, v, w, s1, s2, b. split; [reflexivity|]. split; [split; [apply settle_written|split; assumption]|].
    split; [exact Hw|]. split; [apply compareb_spec, Hop|]. auto. }
  eexists. unfold reply. rewrite (gives_source _ _ _ _ _ _ Hg (answers_dice _ _ Hs (sides_int e Hr))). reflexivity.
Qed.
Lemma comp_none gid e op t rs : rollable e -> is_compare_op op -> iok t -> comes_to e rs None -> reply gid (DComp (written e) op t) rs = None.
Proof.
  intros Hr Hop Ht (ie & (Hs & fin & Hv & <-) & Hm & Ho). destruct (reply gid (DComp (written e) op t) rs) as [r|] eqn:E; [|reflexivity]. exfalso. unfold reply in E.
  destruct (run_command gid (command_tree (DComp (written e) op t)) (FRandom (source rs) 0)) as [[r0|?|?] f'] eqn:E'; try discriminate. clear E.
  destruct (C16_verdict gid (written e) op t _ _ _ (written_ok e Hr) Ht Hop E') as (ops & rolls & mid & fin' & v & w & Hd & (V1 & V2 & V3) & _).
  destruct (settle_only e _ _ V1) as (-> & ->). cbn [app] in Hd. rewrite (source_dice _ _ _ _ Hs (sides_int e Hr) Hd (roll_sides e _ _ V2)) in V2.
  rewrite <- (roll_only _ _ _ _ Hv V2) in V3. apply (ordinary_value _ v Ho) in V3. congruence.
Qed.
Definition satisfied (holds : Z -> bool) (o : option Z) : bool := match o with Some v => holds v | None => false end.
(** C85: the chance of success of a comparison: as many of the equally likely lists of answers lead to SUCCESS as there are combinations of faces
    whose total satisfies the comparison. *)
Theorem C85_chance gid e op t w holds : rollable e -> size e < 2 ^ 52 -> comparable (written e) -> is_compare_op op -> iok t -> has_value t w ->
  (forall v, holds v = true <-> compares op v w) ->
  count (fun rs => succeeded (reply gid (DComp (written e) op t) rs)) (all_lists (asked e)) = count (satisfied holds) (outcomes e) /\
  count (fun rs => is_none (reply gid (DComp (written e) op t) rs)) (all_lists (asked e)) = count is_none (outcomes e).
Proof.
  intros Hr Hs Hc Hop Ht Hw Hh. pose proof (all_come e Hr Hs) as H. split; apply count_forall2; refine (forall2_imp _ _ _ _ _ H); intros rs [v|] Hv.
  - destruct (comp_reply gid e op t w rs v Hr Hc Hop Ht Hw Hv) as (parts & ->). cbn [succeeded r_success satisfied]. apply Bool.eq_iff_eq_true. rewrite Hh, <- (compareb_spec op v w Hop). destruct (compareb op v w); split; auto.
  - rewrite (comp_none gid e op t rs Hr Hop Ht Hv). reflexivity.
  - destruct (comp_reply gid e op t w rs v Hr Hc Hop Ht Hw Hv) as (parts & ->). reflexivity.
  - rewrite (comp_none gid e op t rs Hr Hop Ht Hv). reflexivity.
Qed.
Print Assumptions C85_chance.

(** ** Averages *)
Lemma sumz_comb {A B} (f : A -> B -> Z) l1 l2 : sumz (combine_all f l1 l2) = sumz (map (fun x => sumz (map (f x) l2)) l1).
Proof. unfold combine_all. induction l1 as [|x l1 IH]; [reflexivity|]. cbn [flat_map map]. rewrite sumz_app, IH. reflexivity. Qed.
Lemma length_comb {A B C} (f : A -> B -> C) l1 l2 : length (combine_all f l1 l2) = (length l1 * length l2)%nat.
Proof. unfold combine_all. induction l1 as [|x l1 IH]; [reflexivity|]. cbn [flat_map length]. rewrite app_length, map_length, IH. reflexivity. Qed.
Lemma sumz_cons a l : sumz (a :: l) = a + sumz l.
Proof. reflexivity. Qed.
Lemma sumz_add_l (a : Z) l : sumz (map (Z.add a) l) = a * Z.of_nat (length l) + sumz l.
Proof. induction l as [|x l IH]; [cbn; lia|]. cbn [map length]. rewrite !sumz_cons, IH. lia. Qed.
Lemma sumz_sub_l (a : Z) l : sumz (map (Z.sub a) l) = a * Z.of_nat (length l) - sumz l.
Proof. induction l as [|x l IH]; [cbn; lia|]. cbn [map length]. rewrite !sumz_cons, IH. lia. Qed.
Lemma sumz_mul_l (a : Z) l : sumz (map (Z.mul a) l) = a * sumz l.
Proof. induction l as [|x l IH]; [cbn; lia|]. cbn [map]. rewrite !sumz_cons, IH. lia. Qed.
Lemma sumz_opp l : sumz (map Z.opp l) = - sumz l.
Proof. induction l as [|x l IH]; [cbn; lia|]. cbn [map]. rewrite !sumz_cons, IH. lia. Qed.
Lemma sum_plus l1 l2 : sumz (combine_all Z.add l1 l2) = sumz l1 * Z.of_nat (length l2) + Z.of_nat (length l1) * sumz l2.
Proof. rewrite sumz_comb. induction l1 as [|x l1 IH]; [cbn; lia|]. cbn [map length]. rewrite !sumz_cons, IH, sumz_add_l. lia. Qed.
Lemma sum_minus l1 l2 : sumz (combine_all Z.sub l1 l2) = sumz l1 * Z.of_nat (length l2) - Z.of_nat (length l1) * sumz l2.
Proof. rewrite sumz_comb. induction l1 as [|x l1 IH]; [cbn; lia|]. cbn [map length]. rewrite !sumz_cons, IH, sumz_sub_l. lia. Qed.
Lemma sum_times l1 l2 : sumz (combine_all Z.mul l1 l2) = sumz l1 * sumz l2.
Proof. rewrite sumz_comb. induction l1 as [|x l1 IH]; [cbn; lia|]. cbn [map length]. rewrite !sumz_cons, IH, sumz_mul_l. lia. Qed.
Lemma sum_sums n s : 1 <= s -> 2 * sumz (sums n s) = Z.of_nat n * (s + 1) * Z.of_nat (length (sums n s)).
Proof.
  intros Hs. induction n as [|n IH]; [reflexivity|]. cbn [sums]. rewrite length_comb, sumz_comb.
  rewrite (sumz_ext _ (fun a => a * Z.of_nat (length (sums n s)) + (Z.of_nat (length (sums n s)) + sumz (sums n s)))) by (intros a _; rewrite sumz_add_l; lia).
  rewrite sumz_plus, sumz_const, below_Z by lia. rewrite Nat2Z.inj_mul, below_Z by lia.
  assert (sumz (map (fun a => a * Z.of_nat (length (sums n s))) (below s)) = sumz (below s) * Z.of_nat (length (sums n s))) as ->.
  { generalize (Z.of_nat (length (sums n s))) as P, (below s) as l. intros P l. induction l as [|x l IHl]; [reflexivity|]. cbn [map]. rewrite !sumz_cons, IHl. lia. }
  pose proof (sum_below s ltac:(lia)) as Hb. rewrite Nat2Z.inj_succ. set (P := Z.of_nat (length (sums n s))) in *. set (B := sumz (below s)) in *. set (X := sumz (sums n s)) in *.
  replace (2 * (B * P + (P + X) * s)) with (2 * B * P + 2 * P * s + 2 * X * s) by ring. rewrite Hb, IH. ring.
Qed.
Lemma average_outcomes e : rollable e -> undivided e -> exists l, outcomes e = map Some l /\ (inject_Z (sumz l) == average e * inject_Z (Z.of_nat (length l)))%Q.
Proof.
  unfold rollable. induction e as [[v|n s]|e IH|op a IHa b IHb]; cbn [all_leaves undivided outcomes average]; intros Hr Hu.
  - exists [v]. split; [reflexivity|]. change (sumz [v]) with (v + 0). rewrite Z.add_0_r. change (inject_Z (Z.of_nat (length [v]))) with 1%Q. ring.
  - exists (sums n s). split; [reflexivity|]. destruct Hr as (_ & _ & Hs & _). pose proof (sum_sums n s Hs) as E. apply (f_equal inject_Z) in E. rewrite !inject_Z_mult, inject_Z_plus in E.
    change (inject_Z 2) with 2%Q in E. change (inject_Z 1) with 1%Q in E. assert (inject_Z (sumz (sums n s)) == (2 * inject_Z (sumz (sums n s))) / 2)%Q as -> by field. rewrite E. field.
  - destruct (IH Hr Hu) as (l & -> & E). exists (map Z.opp l). split; [rewrite !map_map; reflexivity|]. rewrite sumz_opp, map_length, inject_Z_opp, E. ring.
  - destruct Hr as (Ha & Hb). assert (undivided a /\ undivided b) as (Ua & Ub) by (destruct op; tauto). destruct (IHa Ha Ua) as (l1 & -> & E1). destruct (IHb Hb Ub) as (l2 & -> & E2).
    destruct op as [| | |m]; [exists (combine_all Z.add l1 l2)|exists (combine_all Z.sub l1 l2)|exists (combine_all Z.mul l1 l2)|contradiction]; (split; [rewrite map_comb, comb_map; reflexivity|]); rewrite length_comb, Nat2Z.inj_mul, inject_Z_mult.
    + rewrite sum_plus, inject_Z_plus, !inject_Z_mult, E1, E2. ring.
    + rewrite sum_minus. unfold Z.sub. rewrite inject_Z_plus, inject_Z_opp, !inject_Z_mult, E1, E2. ring.
    + rewrite sum_times, inject_Z_mult, E1, E2. ring.
Qed.
(** C85: the average total of a roll without division is the value of the expression with n(s+1)/2 for each roll nDs. *)
Theorem C85_average gid e : rollable e -> size e < 2 ^ 52 -> undivided e ->
  exists totals, Forall2 (fun rs total => part_is 2 (itoa total) (reply gid (DExpr (written e)) rs) = true) (all_lists (asked e)) totals /\
    (inject_Z (sumz totals) == average e * inject_Z (Z.of_nat (length totals)))%Q.
Proof.
  intros Hr Hs Hu. pose proof (all_come e Hr Hs) as H. destruct (average_outcomes e Hr Hu) as (l & El & E). exists l. split; [|exact E]. rewrite El in H. clear - H Hr.
  revert H. generalize (all_lists (asked e)) as L. induction l as [|v l IH]; intros L H; inversion H as [|rs o L' l' H1 H2]; subst; constructor; [|apply IH; assumption].
  destruct (come_reply gid e rs v Hr H1) as (s1 & s2 & ->). apply String.eqb_refl.
Qed.
Print Assumptions C85_average.

(** ** As typed *)
(** C85, C76: the same for a roll typed in any way, if no combination of faces divides by zero. *)
Theorem C85_typed bot input secret e : moderate input -> typed input (DExpr (written e)) secret -> rollable e -> size e < 2 ^ 52 -> ~ In None (outcomes e) ->
  forall v, count (fun rs => part_is 2 (itoa v) (answer bot input rs)) (all_lists (asked e)) = count (is_value v) (outcomes e).
Proof.
  intros Hl Ht Hr Hs Hn v. pose proof (all_come e Hr Hs) as H. apply count_forall2.
  assert (Forall (fun o => o <> None) (outcomes e)) as Hf by (apply Forall_forall; intros o Ho ->; contradiction).
  refine (forall2_imp _ _ _ _ _ (forall2_right _ _ _ _ H Hf)). intros rs [w|] (Hc & Hw); [|contradiction].
  destruct (come_reply (db_game_id bot) e rs w Hr Hc) as (s1 & s2 & E). rewrite (reply_answer _ _ _ _ _ _ Hl Ht E). cbn [part_is r_parts nth_error is_value].
  destruct (String.eqb_spec (itoa w) (itoa v)) as [E'|E']; [apply itoa_inj in E'; lia|]. destruct (Z.eqb_spec w v); [exfalso; apply E'; f_equal; assumption|reflexivity].
Qed.
Print Assumptions C85_typed.
Theorem C85_typed_chance bot input secret e op t w holds : moderate input -> typed input (DComp (written e) op t) secret -> rollable e -> size e < 2 ^ 52 -> ~ In None (outcomes e) ->
  comparable (written e) -> has_value t w -> (forall v, holds v = true <-> compares op v w) ->
  count (fun rs => succeeded (answer bot input rs)) (all_lists (asked e)) = count (satisfied holds) (outcomes e).
Proof.
  intros Hl Ht Hr Hs Hn Hc Hw Hh. pose proof (all_come e Hr Hs) as H. apply count_forall2. destruct (typed_ok _ _ _ Ht) as (_ & Hop & Hi).
  assert (Forall (fun o => o <> None) (outcomes e)) as Hf by (apply Forall_forall; intros o Ho ->; contradiction).
  refine (forall2_imp _ _ _ _ _ (forall2_right _ _ _ _ H Hf)). intros rs [v|] (Hv & Hnn); [|contradiction].
  destruct (comp_reply (db_game_id bot) e op t w rs v Hr Hc Hop Hi Hw Hv) as (parts & E). rewrite (reply_answer _ _ _ _ _ _ Hl Ht E). cbn [succeeded r_success satisfied].
  apply Bool.eq_iff_eq_true. rewrite Hh, <- (compareb_spec op v w Hop). destruct (compareb op v w); split; auto.
Qed.
Print Assumptions C85_typed_chance.

(** 1D4*2-1D3: 12 equally likely lists of answers, average 3; the totals 1, 3, 5 come up twice. *)
Definition example_roll : wexpr := Bin Minus (Bin Times (Leaf (WDice 1 4)) (Leaf (WInt 2))) (Leaf (WDice 1 3)).
Example C85_example :
  rollable example_roll /\ size example_roll < 2 ^ 52 /\ undivided example_roll /\ comparable (written example_roll) /\
  outcomes example_roll = map Some [1; 0; -1; 3; 2; 1; 5; 4; 3; 7; 6; 5] /\
  (average example_roll == 3)%Q /\
  part_is 2 "5" (reply "DiceBot" (DExpr (written example_roll)) [3; 2]) = true /\
  count (fun rs => part_is 2 (itoa 5) (reply "DiceBot" (DExpr (written example_roll)) rs)) (all_lists (asked example_roll)) = 2%nat /\
  count (fun rs => succeeded (reply "DiceBot" (DComp (written example_roll) ">=" (Leaf 5)) rs)) (all_lists (asked example_roll)) = 4%nat.
Proof.
  split; [cbn; unfold in_int64, min_int, max_int, max_alloc_16, two63; lia|]. split; [reflexivity|]. split; [cbn; tauto|]. split; [exact I|]. vconj.
Qed.
(** 6/(1D2-1): half of the answers divide by zero. *)
Definition example_quotient : wexpr := Bin (Over RoundDown) (Leaf (WInt 6)) (Bin Minus (Leaf (WDice 1 2)) (Leaf (WInt 1))).
Example C85_example_quotient :
  rollable example_quotient /\ size example_quotient < 2 ^ 52 /\
  count (fun rs => is_none (reply "DiceBot" (DExpr (written example_quotient)) rs)) (all_lists (asked example_quotient)) = 1%nat /\
  count (fun rs => part_is 2 "6" (reply "DiceBot" (DExpr (written example_quotient)) rs)) (all_lists (asked example_quotient)) = 1%nat.
Proof.
  split; [cbn; unfold in_int64, min_int, max_int, max_alloc_16, two63; lia|]. split; [reflexivity|]. vconj.
Qed.

(** ** Basic rolls *)
Lemma count_successes (holds : Z -> bool) sides : forall k,
  count (fun rs => Nat.eqb (count (fun a => holds (a + 1)) rs) k) (all_lists sides) = success_ways holds sides k.
Proof.
  induction sides as [|s sides IH]; intros k; cbn [all_lists success_ways].
  - destruct k; reflexivity.
  - rewrite count_flat_map. set (h := fun a => holds (a + 1)).
    assert (forall a, count (fun rs => Nat.eqb (count h rs) k) (map (cons a) (all_lists sides)) =
              if h a then match k with O => O | S k' => success_ways holds sides k' end else success_ways holds sides k) as E.
    { intros a. rewrite count_map. destruct (h a) eqn:Ha.
      - destruct k as [|k']; [apply count_none; intros rs _|rewrite <- IH; apply count_ext; intros rs _]; unfold count at 1; cbn [filter]; rewrite Ha; reflexivity.
      - rewrite <- IH. apply count_ext. intros rs _. unfold count at 1. cbn [filter]. rewrite Ha. reflexivity. }
    rewrite (list_sum_ext _ _ _ (fun a _ => E a)), sum_cases, length_below. unfold good_faces. fold h. destruct k; [rewrite Nat.mul_0_r|]; reflexivity.
Qed.
Lemma b_settle ps : settle_rolls (map b_roll ps) [] (map (fun p => (Z.of_nat (fst p), snd p)) ps).
Proof.
  induction ps as [|p ps IH]; cbn [map]; [constructor|]. change (@nil die) with (@nil die ++ [] ++ []). constructor; [apply operand_int|apply operand_int|exact IH].
Qed.
Lemma b_groups ps : forall rs, Forall b_rollable ps -> in_sides (b_sides ps) rs ->
  exists groups, rolled_each (map (fun p => (Z.of_nat (fst p), snd p)) ps) groups /\ dice_for (b_sides ps) rs = concat groups.
Proof.
  induction ps as [|(n, s) ps IH]; intros rs Hok H; cbn [b_sides flat_map map fst snd] in *.
  - exists []. split; [constructor|reflexivity].
  - inversion_clear Hok. fold (b_sides ps) in *. unfold in_sides in H. apply Forall2_app_inv_l in H as (r1 & r2 & H2 & H3 & ->). destruct (IH r2 H1 H3) as (groups & G1 & G2).
    assert (length (repeat s n) = length r1) as El by (apply in_sides_length, H2). rewrite repeat_length in El. exists (faces s r1 :: groups). split.
    + constructor; [|exact G1]. cbn [fst snd] in *. destruct H0 as (B1 & B2 & B3). apply faces_rolled; try assumption; [apply B3|]. split; [auto|]. clear - H2. revert H2. generalize (repeat_spec n s). generalize (repeat s n).
      intros l Hl H2. induction H2 as [|x y l r1 Hxy _ IH]; constructor; [rewrite <- (Hl x (or_introl eq_refl)); exact Hxy|]. apply IH. intros z Hz. apply Hl. right. exact Hz.
    + rewrite dice_for_app by (rewrite repeat_length; exact El). rewrite dice_for_repeat by auto. rewrite G2. reflexivity.
Qed.
Lemma b_sides_int ps : Forall b_rollable ps -> Forall (fun s => s <= max_int) (b_sides ps).
Proof. unfold b_sides. intros H. apply Forall_flat_map. eapply Forall_impl; [|exact H]. intros p (_ & _ & H2). apply Forall_forall. intros x Hx. apply repeat_spec in Hx. subst. lia. Qed.
Lemma dice_for_values sides rs : in_sides sides rs -> values (dice_for sides rs) = map (fun a => a + 1) rs.
Proof. unfold values, dice_for. induction 1 as [|s a sides rs _ _ IH]; [reflexivity|]. cbn [combine map fst snd die_value]. rewrite IH. reflexivity. Qed.
Lemma basic_reply gid p ps op t w rs : Forall b_rollable (p :: ps) -> is_compare_op op -> has_value t w -> in_sides (b_sides (p :: ps)) rs ->
  exists s1 s2, reply gid (BComp (b_roll p) (map b_roll ps) op t) rs =
    Some (Result gid [s1; s2; ("成功数" ++ itoa (Z.of_nat (count (fun a => compareb op (a + 1) w) rs)))%string] (dice_for (b_sides (p :: ps)) rs) Unspecified false).
Proof.
  intros Hok Hop Hw Hs. destruct (b_groups (p :: ps) rs Hok Hs) as (groups & G1 & G2).
  assert (Z.of_nat (count (fun a => compareb op (a + 1) w) rs) = matching op w (values (concat groups))) as ->.
  { rewrite <- G2, (dice_for_values _ _ Hs). unfold matching. change (length (filter (fun v => compareb op v w) (map (fun a => a + 1) rs))) with (count (fun v => compareb op v w) (map (fun a => a + 1) rs)). rewrite count_map. reflexivity. }
  assert (gives gid (command_tree (BComp (b_roll p) (map b_roll ps) op t)) (dice_for (b_sides (p :: ps)) rs)
    (Result gid [parenthesize (rolls_words "B" (map (fun p => (Z.of_nat (fst p), snd p)) (p :: ps)) ++ op ++ itoa w); values_word (concat groups); ("成功数" ++ itoa (matching op w (values (concat groups))))%string] (dice_for (b_sides (p :: ps)) rs) Unspecified false)) as Hg.
  { apply C22_success_count; [|exact Hop|].
    - change (Forall roll_ok (map b_roll (p :: ps))). apply Forall_map. eapply Forall_impl; [|exact Hok]. intros q (Q1 & Q2 & Q3). unfold roll_ok, b_roll, rok. cbn. unfold max_alloc_16, in_int64, max_int, min_int, two63 in *. lia.
    - exists [], (map (fun p => (Z.of_nat (fst p), snd p)) (p :: ps)), groups, w. split; [exact (b_settle (p :: ps))|]. split; [exact G1|]. split; [exact G2|]. split; [exact Hw|reflexivity]. }
  eexists. eexists. unfold reply. rewrite (gives_source _ _ _ _ _ _ Hg (answers_dice _ _ Hs (b_sides_int _ Hok))). reflexivity.
Qed.
(** C85: the distribution of the number of successes of n1Bs1+n2Bs2+... compared with a number, the dice having any numbers of sides. *)
Theorem C85_successes gid p ps op t w holds k : Forall b_rollable (p :: ps) -> is_compare_op op -> has_value t w -> (forall v, holds v = true <-> compares op v w) ->
  count (fun rs => part_is 2 ("成功数" ++ itoa (Z.of_nat k)) (reply gid (BComp (b_roll p) (map b_roll ps) op t) rs)) (all_lists (b_sides (p :: ps))) =
    success_ways holds (b_sides (p :: ps)) k.
Proof.
  intros Hok Hop Hw Hh. rewrite <- count_successes. apply count_ext. intros rs Hrs. apply (proj1 (proj2 (C85_all_lists _))) in Hrs.
  destruct (basic_reply gid p ps op t w rs Hok Hop Hw Hrs) as (s1 & s2 & ->). cbn [part_is r_parts nth_error].
  assert (count (fun a => compareb op (a + 1) w) rs = count (fun a => holds (a + 1)) rs) as ->.
  { apply count_ext. intros a _. apply Bool.eq_iff_eq_true. rewrite Hh. apply compareb_spec, Hop. }
  set (c := count (fun a => holds (a + 1)) rs). destruct (String.eqb_spec ("成功数" ++ itoa (Z.of_nat c)) ("成功数" ++ itoa (Z.of_nat k))) as [E|E].
  - apply prefix_inj, itoa_inj in E. symmetry. apply Nat.eqb_eq. lia.
  - symmetry. apply Nat.eqb_neq. intros ->. apply E. reflexivity.
Qed.
Print Assumptions C85_successes.
(** 1B4+1B6>=3: 8 of the 24 equally likely pairs of answers give two successes, 12 one, 4 none. *)
Example C85_example_successes :
  Forall b_rollable [(1%nat, 4); (1%nat, 6)] /\
  map (success_ways (fun v => 3 <=? v) (b_sides [(1%nat, 4); (1%nat, 6)])) [0%nat; 1%nat; 2%nat] = [4%nat; 12%nat; 8%nat] /\
  count (fun rs => part_is 2 ("成功数" ++ itoa 1) (reply "DiceBot" (BComp (b_roll (1%nat, 4)) (map b_roll [(1%nat, 6)]) ">=" (Leaf 3)) rs)) (all_lists [4; 6]) = 12%nat.
Proof. split; [repeat constructor; cbn; unfold max_alloc_16, max_int, two63; lia|]. vconj. Qed.
