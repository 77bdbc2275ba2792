(** Property C83: averages. *)
From Coq Require Import Reals Permutation.
From Verif Require Import Grammar ProofBase Dice SpecDice DiceProofs Comp CompProofs Ast Eval Notation Command
  SpecSyntax SpecArith ArithProofs SpecRoll SpecLists SpecFair YieldsProofs DRollProofs NumberText BCDice CommandProofs
  Prop_droll Prop_lists Prop_fair.
Open Scope list_scope.
Open Scope Z_scope.

Lemma sumz_app a b : sumz (a ++ b) = sumz a + sumz b.
Proof. unfold sumz. induction a as [|x a IH]; cbn; lia. Qed.
Lemma sumz_const {A} (c : Z) (l : list A) : sumz (map (fun _ => c) l) = c * Z.of_nat (length l).
Proof. unfold sumz. induction l as [|x l IH]; cbn [map fold_right length]; lia. Qed.
Lemma sumz_plus {A} (f g : A -> Z) l : sumz (map (fun a => f a + g a) l) = sumz (map f l) + sumz (map g l).
Proof. unfold sumz. induction l as [|x l IH]; cbn [map fold_right]; lia. Qed.
Lemma sumz_ext {A} (f g : A -> Z) l : (forall a, In a l -> f a = g a) -> sumz (map f l) = sumz (map g l).
Proof. intros H. f_equal. apply map_ext_in. exact H. Qed.
Lemma sumz_flat {A B} (f : B -> Z) (g : A -> list B) l : sumz (map f (flat_map g l)) = sumz (map (fun a => sumz (map f (g a))) l).
Proof. induction l as [|x l IH]; [reflexivity|]. cbn [flat_map map]. rewrite map_app, sumz_app, IH. reflexivity. Qed.
Lemma all_length_Z n s : 0 <= s -> Z.of_nat (length (all_answers n s)) = s ^ Z.of_nat n.
Proof. intros H. rewrite all_length, Nat2Z.inj_pow, Z2Nat.id by exact H. reflexivity. Qed.
Lemma below_Z s : 0 <= s -> Z.of_nat (length (below s)) = s.
Proof. intros H. rewrite length_below. lia. Qed.
(** the sum of an additive quantity of the answers over all lists of answers *)
Lemma sum_all (f : Z -> Z) n s : 0 <= s ->
  s * sumz (map (fun rs => sumz (map f rs)) (all_answers n s)) = Z.of_nat n * s ^ Z.of_nat n * sumz (map f (below s)).
Proof.
  intros Hs. induction n as [|n IH]; [cbn; lia|]. cbn [all_answers]. rewrite sumz_flat.
  rewrite (sumz_ext _ (fun a => f a * s ^ Z.of_nat n + sumz (map (fun rs => sumz (map f rs)) (all_answers n s)))).
  - rewrite sumz_plus, sumz_const, below_Z by exact Hs.
    assert (sumz (map (fun a => f a * s ^ Z.of_nat n) (below s)) = sumz (map f (below s)) * s ^ Z.of_nat n) as ->.
    { clear. generalize (below s) as l, (s ^ Z.of_nat n) as P. intros l P. unfold sumz. induction l as [|x l IHl]; cbn [map fold_right]; [lia|]. rewrite IHl. ring. }
    rewrite Nat2Z.inj_succ, Z.pow_succ_r by lia. nia.
  - intros a _. rewrite map_map. rewrite (sumz_ext _ (fun rs => f a + sumz (map f rs))) by reflexivity. rewrite sumz_plus, sumz_const, all_length_Z by exact Hs. reflexivity.
Qed.
Lemma sum_below s : 0 <= s -> 2 * sumz (below s) = s * (s - 1).
Proof.
  intros Hs. unfold below. replace s with (Z.of_nat (Z.to_nat s)) at 2 3 by lia. induction (Z.to_nat s) as [|n IH]; [reflexivity|].
  rewrite seq_S, map_app, sumz_app. cbn [map Nat.add]. change (sumz [Z.of_nat n]) with (Z.of_nat n + 0). nia.
Qed.
(** C83: the average total of nDs, over all s^n equally likely lists of answers, is n(s+1)/2. *)
Theorem C83_average_total gid n s : (1 <= n)%nat -> Z.of_nat n <= max_alloc_16 -> 1 <= s -> Z.of_nat n * s <= max_int ->
  exists total : list Z -> Z,
    (forall rs, In rs (all_answers n s) -> part_is 2 (itoa (total rs)) (reply gid (DExpr (plain_roll n s)) rs) = true) /\
    2 * sumz (map total (all_answers n s)) = Z.of_nat n * (s + 1) * Z.of_nat (length (all_answers n s)).
Proof.
  intros H1 H2 H3 H4. exists (fun rs => sumz rs + Z.of_nat n). split.
  - intros rs Hrs. apply in_all in Hrs. destruct (plain_reply gid n s rs H1 H2 H3 H4 Hrs) as (s1 & s2 & ->). cbn [part_is r_parts nth_error]. apply String.eqb_refl.
  - rewrite sumz_plus, sumz_const, all_length_Z by lia. pose proof (sum_all (fun a => a) n s ltac:(lia)) as E. rewrite (sumz_ext (fun rs => sumz (map (fun a => a) rs)) sumz) in E by (intros; f_equal; apply map_id).
    rewrite map_id in E. pose proof (sum_below s ltac:(lia)) as B. set (X := sumz (map sumz (all_answers n s))) in *. set (P := s ^ Z.of_nat n) in *. set (Y := sumz (below s)) in *.
    assert (s * (2 * X) = s * (Z.of_nat n * P * (s - 1))) as E' by nia. apply Z.mul_reg_l in E'; nia.
Qed.
Print Assumptions C83_average_total.
Lemma below_mirror s (f : Z -> nat) : list_sum (map f (below s)) = list_sum (map (fun a => f (s - 1 - a)) (below s)).
Proof.
  rewrite <- (map_map (fun a => s - 1 - a) f). assert (Permutation (below s) (map (fun a => s - 1 - a) (below s))) as Hp.
  { apply NoDup_Permutation; [apply below_nodup|apply FinFun.Injective_map_NoDup; [intros x y; lia|apply below_nodup]|]. intros x. rewrite in_map_iff, in_below. split.
    - intros Hx. exists (s - 1 - x). rewrite in_below. lia.
    - intros (y & <- & Hy). apply in_below in Hy. lia. }
  apply (Permutation_map f) in Hp. revert Hp. generalize (map f (below s)) (map f (map (fun a => s - 1 - a) (below s))). clear. intros l1 l2 Hp. unfold list_sum. induction Hp; cbn [fold_right]; lia.
Qed.
Lemma ways_mirror n s : forall v, ways n s v = ways n s (Z.of_nat n * (s + 1) - v).
Proof.
  induction n as [|n IH]; intros v; cbn [ways]; [destruct (Z.eqb_spec v 0), (Z.eqb_spec (Z.of_nat 0 * (s + 1) - v) 0); try reflexivity; lia|].
  rewrite (below_mirror s (fun a => ways n s (Z.of_nat (S n) * (s + 1) - v - (a + 1)))). apply list_sum_ext. intros a _. rewrite IH. f_equal. lia.
Qed.
(** C83: the totals v and n(s+1) - v of nDs, which are equally far from the average, are equally likely. *)
Theorem C83_symmetric gid n s v : (1 <= n)%nat -> Z.of_nat n <= max_alloc_16 -> 1 <= s -> Z.of_nat n * s <= max_int ->
  count (fun rs => part_is 2 (itoa v) (reply gid (DExpr (plain_roll n s)) rs)) (all_answers n s) =
  count (fun rs => part_is 2 (itoa (Z.of_nat n * (s + 1) - v)) (reply gid (DExpr (plain_roll n s)) rs)) (all_answers n s).
Proof. intros H1 H2 H3 H4. rewrite !C74_totals_distribution by assumption. apply ways_mirror. Qed.
Print Assumptions C83_symmetric.
(** C83: the average number of successes of nBs compared with a number, of whose faces m satisfy the comparison, is nm/s. *)
Theorem C83_average_successes gid n s op t w hits : (1 <= n)%nat -> Z.of_nat n <= max_alloc_16 -> 1 <= s <= max_int -> is_compare_op op -> has_value t w ->
  NoDup hits -> (forall v, In v hits <-> 1 <= v <= s /\ compares op v w) ->
  exists successes : list Z -> Z,
    (forall rs, In rs (all_answers n s) -> part_is 2 ("成功数" ++ itoa (successes rs)) (reply gid (BComp (plain_b n s) [] op t) rs) = true) /\
    s * sumz (map successes (all_answers n s)) = Z.of_nat n * Z.of_nat (length hits) * Z.of_nat (length (all_answers n s)).
Proof.
  intros H1 H2 H3 Hop Hw Hn Hin. set (h := fun a => compareb op (a + 1) w). exists (fun rs => Z.of_nat (count h rs)). split.
  - intros rs Hrs. apply in_all in Hrs. destruct (b_reply gid n s op t w rs H1 H2 H3 Hop Hw Hrs) as (s1 & s2 & ->). cbn [part_is r_parts nth_error]. apply String.eqb_refl.
  - assert (forall rs, Z.of_nat (count h rs) = sumz (map (fun a => if h a then 1 else 0) rs)) as E.
    { intros rs. unfold sumz, count. induction rs as [|a rs IH]; [reflexivity|]. cbn [map fold_right filter]. destruct (h a); cbn [length]; lia. }
    rewrite (sumz_ext _ _ _ (fun rs _ => E rs)), sum_all, all_length_Z, <- E by lia. unfold h. rewrite (hits_count op w s hits Hop Hn Hin). lia.
Qed.
Print Assumptions C83_average_successes.
(** 2D6: the totals of the 36 lists of answers add up to 252 = 36 * 7; 6 lists each give 7, 2 each give 3 and 11. *)
Example C83_example :
  sumz (map (fun rs => sumz rs + 2) (all_answers 2 6)) = 252 /\
  count (fun rs => part_is 2 "3" (reply "DiceBot" (DExpr (plain_roll 2 6)) rs)) (all_answers 2 6) = 2%nat /\
  count (fun rs => part_is 2 "11" (reply "DiceBot" (DExpr (plain_roll 2 6)) rs)) (all_answers 2 6) = 2%nat.
Proof. vconj. Qed.
