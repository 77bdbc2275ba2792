(** Property C92: the same roll written differently. *)
From Coq Require Import Reals Permutation.
From Verif Require Import Grammar ProofBase Dice SpecDice DiceProofs Comp CompProofs Ast Eval Notation NotationProofs Command
  SpecSyntax SpecArith ArithProofs SpecRoll SpecTotals SpecLists SpecFair SpecOdds SpecAlike YieldsProofs DRollProofs NumberText BCDice CommandProofs
  SpecTyped Prop_droll Prop_lists Prop_exec Prop_totals Prop_fair Prop_chances Prop_average Prop_value Prop_typed Prop_complete Prop_odds.
Open Scope list_scope.
Open Scope Z_scope.

(** ** Combinations, up to order *)
Lemma flat_perm {A B} (f g : A -> list B) l : (forall a, Permutation (f a) (g a)) -> Permutation (flat_map f l) (flat_map g l).
Proof. intros H. induction l as [|x l IH]; [constructor|]. cbn [flat_map]. apply Permutation_app; [apply H|exact IH]. Qed.
Lemma map_same {A B} (f g : A -> B) l : (forall a, f a = g a) -> Permutation (map f l) (map g l).
Proof. intros H. rewrite (map_ext f g H). reflexivity. Qed.
Lemma comb_perm {A B C} (f : A -> B -> C) l1 l1' l2 l2' : Permutation l1 l1' -> Permutation l2 l2' -> Permutation (combine_all f l1 l2) (combine_all f l1' l2').
Proof.
  intros H1 H2. unfold combine_all. transitivity (flat_map (fun x => map (f x) l2') l1).
  - apply flat_perm. intros a. apply Permutation_map, H2.
  - apply Permutation_flat_map, H1.
Qed.
Lemma flat_cons {A B} (g : A -> B) (h : A -> list B) l : Permutation (flat_map (fun y => g y :: h y) l) (map g l ++ flat_map h l).
Proof.
  induction l as [|x l IH]; [constructor|]. cbn [flat_map map app]. constructor. rewrite IH. rewrite !app_assoc. apply Permutation_app_tail, Permutation_app_comm.
Qed.
Lemma flat_nil {A B} (l : list A) : flat_map (fun _ => @nil B) l = [].
Proof. induction l as [|x l IH]; [reflexivity|exact IH]. Qed.
Lemma comb_comm {A B C} (f : A -> B -> C) g l1 l2 : (forall x y, f x y = g y x) -> Permutation (combine_all f l1 l2) (combine_all g l2 l1).
Proof.
  intros H. unfold combine_all. induction l1 as [|x l1 IH]; cbn [flat_map map]; [rewrite flat_nil; constructor|].
  rewrite (flat_cons (fun y => g y x) (fun y => map (g y) l1)), IH. apply Permutation_app_tail. rewrite (map_ext (f x) (fun y => g y x)) by apply H. reflexivity.
Qed.
Lemma comb_assoc {A B C D E F} (f : D -> C -> F) (g : A -> B -> D) (f' : A -> E -> F) (g' : B -> C -> E) l1 l2 l3 :
  (forall x y z, f (g x y) z = f' x (g' y z)) -> combine_all f (combine_all g l1 l2) l3 = combine_all f' l1 (combine_all g' l2 l3).
Proof.
  intros H. unfold combine_all. rewrite flat_map_flat. apply flat_ext. intros x. rewrite flat_map_map, map_flat. apply flat_ext. intros y. rewrite map_map. apply map_ext. intros z. apply H.
Qed.
Lemma sums_together n m s : sums (n + m) s = combine_all Z.add (sums n s) (sums m s).
Proof.
  induction n as [|n IH]; cbn [Nat.add sums].
  - unfold combine_all. cbn [flat_map]. rewrite app_nil_r. rewrite <- (map_id (sums m s)) at 1. apply map_ext. intros z. reflexivity.
  - rewrite IH. symmetry. apply comb_assoc. intros x y z. lia.
Qed.
Lemma below_opposite s : Permutation (below s) (map (fun a => s - 1 - a) (below s)).
Proof.
  apply NoDup_Permutation; [apply below_nodup|apply FinFun.Injective_map_NoDup; [intros x y; lia|apply below_nodup]|]. intros x. rewrite in_map_iff, in_below. split.
  - intros Hx. exists (s - 1 - x). rewrite in_below. lia.
  - intros (y & <- & Hy). apply in_below in Hy. lia.
Qed.
Lemma sums_opposite n s : Permutation (map Z.opp (sums n s)) (map (fun x => x - Z.of_nat n * (s + 1)) (sums n s)).
Proof.
  induction n as [|n IH]; cbn [sums]; [cbn; rewrite Z.sub_0_r; reflexivity|]. rewrite !map_comb.
  transitivity (combine_all Z.add (map (fun a => - (a + 1)) (below s)) (map Z.opp (sums n s))).
  - rewrite comb_map. unfold combine_all. apply flat_perm. intros a. apply map_same. intros t. lia.
  - transitivity (combine_all Z.add (map (fun a => a - s) (below s)) (map (fun x => x - Z.of_nat n * (s + 1)) (sums n s))).
    + apply comb_perm; [|exact IH]. rewrite (Permutation_map (fun a => - (a + 1)) (below_opposite s)), map_map. apply map_same. intros a. cbn beta. lia.
    + rewrite comb_map. unfold combine_all. apply flat_perm. intros a. apply map_same. intros t. cbn beta. lia.
Qed.
Definition on_some (op : arith) (x y : option Z) : option Z := match x, y with Some x, Some y => math_op op x y | _, _ => None end.
Lemma outcomes_bin op a b : outcomes (Bin op a b) = combine_all (on_some op) (outcomes a) (outcomes b).
Proof. reflexivity. Qed.
Lemma comb_some op (f : Z -> Z -> Z) l1 l2 : (forall x y, math_op op x y = Some (f x y)) -> combine_all (on_some op) (map Some l1) (map Some l2) = map Some (combine_all f l1 l2).
Proof. intros H. rewrite comb_map, map_comb. unfold combine_all. apply flat_ext. intros x. apply map_ext. intros y. apply H. Qed.
Lemma alike_outcomes e e' : alike e e' -> Permutation (outcomes e) (outcomes e').
Proof.
  induction 1.
  - reflexivity.
  - symmetry. assumption.
  - etransitivity; eassumption.
  - cbn [outcomes]. apply Permutation_map. assumption.
  - rewrite !outcomes_bin. apply comb_perm; assumption.
  - rewrite !outcomes_bin. apply comb_comm. intros [x|] [y|]; try reflexivity. cbn. f_equal. lia.
  - rewrite !outcomes_bin. erewrite comb_assoc; [reflexivity|]. intros [x|] [y|] [z|]; try reflexivity. cbn. f_equal. lia.
  - rewrite !outcomes_bin. apply comb_comm. intros [x|] [y|]; try reflexivity. cbn. f_equal. lia.
  - rewrite !outcomes_bin. erewrite comb_assoc; [reflexivity|]. intros [x|] [y|] [z|]; try reflexivity. cbn. f_equal. lia.
  - rewrite !outcomes_bin. cbn [outcomes]. rewrite <- (map_id (outcomes a)) at 2. rewrite comb_map. unfold combine_all. apply flat_perm. intros x. apply map_same. intros y. destruct x, y; reflexivity.
  - cbn [outcomes]. rewrite map_map. rewrite <- (map_id (outcomes a)) at 2. apply map_same. intros [x|]; [|reflexivity]. cbn. f_equal. lia.
  - cbn [outcomes]. rewrite map_comb, comb_map. unfold combine_all. apply flat_perm. intros x. apply map_same. intros y. destruct x, y; try reflexivity. cbn. f_equal. lia.
  - reflexivity.
  - reflexivity.
  - rewrite outcomes_bin. cbn [outcomes]. rewrite (comb_some Plus Z.add) by reflexivity. rewrite sums_together. reflexivity.
  - rewrite outcomes_bin. cbn [outcomes]. rewrite map_map. change [Some (Z.of_nat n * (s + 1))] with (map Some [Z.of_nat n * (s + 1)]). rewrite (comb_some Minus Z.sub) by reflexivity.
    change (fun x : Z => option_map Z.opp (Some x)) with (fun x : Z => Some (Z.opp x)). rewrite <- (map_map Z.opp Some). apply Permutation_map. rewrite (sums_opposite n s). unfold combine_all. cbn [map].
    clear. induction (sums n s) as [|x l IH]; [constructor|]. cbn [map flat_map app]. constructor. exact IH.
Qed.
Lemma count_perm {A} (p : A -> bool) l l' : Permutation l l' -> count p l = count p l'.
Proof. unfold count. induction 1 as [|x l l' _ IH|x y l|]; cbn [filter]; [reflexivity|destruct (p x); cbn [length]; lia|destruct (p x), (p y); reflexivity|lia]. Qed.

(** C92: rolls that are alike have the same odds: of equally many lists of answers, equally many lead to each total, and equally many to none. *)
Theorem C92_same_odds gid e e' : alike e e' -> rollable e -> size e < 2 ^ 52 -> rollable e' -> size e' < 2 ^ 52 ->
  (forall v, count (fun rs => part_is 2 (itoa v) (reply gid (DExpr (written e)) rs)) (all_lists (asked e)) =
             count (fun rs => part_is 2 (itoa v) (reply gid (DExpr (written e')) rs)) (all_lists (asked e'))) /\
  count (fun rs => is_none (reply gid (DExpr (written e)) rs)) (all_lists (asked e)) = count (fun rs => is_none (reply gid (DExpr (written e')) rs)) (all_lists (asked e')) /\
  length (all_lists (asked e)) = length (all_lists (asked e')).
Proof.
  intros Ha H1 H2 H3 H4. pose proof (alike_outcomes _ _ Ha) as Hp. destruct (C85_distribution gid e H1 H2) as (A1 & A2 & A3). destruct (C85_distribution gid e' H3 H4) as (B1 & B2 & B3).
  split; [|split].
  - intros v. rewrite A1, B1. apply count_perm, Hp.
  - rewrite A2, B2. apply count_perm, Hp.
  - rewrite A3, B3. apply Permutation_length, Hp.
Qed.
Print Assumptions C92_same_odds.
(** C92: and the same chances of success, against the same target *)
Theorem C92_same_chance gid e e' op t w t' : alike e e' -> rollable e -> size e < 2 ^ 52 -> rollable e' -> size e' < 2 ^ 52 ->
  comparable (written e) -> comparable (written e') -> is_compare_op op -> iok t -> has_value t w -> iok t' -> has_value t' w ->
  count (fun rs => succeeded (reply gid (DComp (written e) op t) rs)) (all_lists (asked e)) =
  count (fun rs => succeeded (reply gid (DComp (written e') op t') rs)) (all_lists (asked e')).
Proof.
  intros Ha H1 H2 H3 H4 C1 C2 Hop Ht Hw Ht' Hw'. assert (forall v, compareb op v w = true <-> compares op v w) as Hh by (intros v; apply compareb_spec, Hop).
  rewrite (proj1 (C85_chance gid e op t w _ H1 H2 C1 Hop Ht Hw Hh)), (proj1 (C85_chance gid e' op t' w _ H3 H4 C2 Hop Ht' Hw' Hh)). apply count_perm, alike_outcomes, Ha.
Qed.
Print Assumptions C92_same_chance.
(** C92: as typed *)
Theorem C92_typed bot input input' secret secret' e e' : moderate input -> typed input (DExpr (written e)) secret -> moderate input' -> typed input' (DExpr (written e')) secret' ->
  alike e e' -> rollable e -> size e < 2 ^ 52 -> rollable e' -> size e' < 2 ^ 52 -> ~ In None (outcomes e) ->
  (forall v, count (fun rs => part_is 2 (itoa v) (answer bot input rs)) (all_lists (asked e)) = count (fun rs => part_is 2 (itoa v) (answer bot input' rs)) (all_lists (asked e'))) /\
  length (all_lists (asked e)) = length (all_lists (asked e')).
Proof.
  intros M1 T1 M2 T2 Ha H1 H2 H3 H4 Hn. pose proof (alike_outcomes _ _ Ha) as Hp. split.
  - intros v. rewrite (C85_typed bot input secret e M1 T1 H1 H2 Hn v), (C85_typed bot input' secret' e' M2 T2 H3 H4 ltac:(intros H; apply Hn; eapply Permutation_in; [symmetry; exact Hp|exact H]) v). apply count_perm, Hp.
  - apply (C92_same_odds (db_game_id bot) e e'); assumption.
Qed.
Print Assumptions C92_typed.
(** ** Opposite comparisons *)
Lemma opposite_holds op op' v w : In (op, op') opposites -> is_compare_op op /\ is_compare_op op' /\ compareb op' v w = negb (compareb op v w).
Proof.
  unfold opposites. cbn [In]. intros H. repeat destruct H as [[= <- <-]|H]; try contradiction; (split; [unfold is_compare_op; cbn; auto 10|]; split; [unfold is_compare_op; cbn; auto 10|]); unfold compareb; cbn [String.eqb Ascii.eqb Bool.eqb]; lia.
Qed.
Lemma count_three {A} (p q r : A -> bool) l : (forall a, (Nat.b2n (p a) + Nat.b2n (q a) + Nat.b2n (r a) = 1)%nat) -> (count p l + count q l + count r l = length l)%nat.
Proof.
  intros H. unfold count. induction l as [|a l IH]; [reflexivity|]. cbn [filter length]. specialize (H a). destruct (p a), (q a), (r a); cbn [Nat.b2n length] in *; lia.
Qed.
(** C92: the chances of a comparison and of the opposite one add up to 1, divisions by zero apart. *)
Theorem C92_opposite gid e op op' t w : rollable e -> size e < 2 ^ 52 -> comparable (written e) -> In (op, op') opposites -> iok t -> has_value t w ->
  (count (fun rs => succeeded (reply gid (DComp (written e) op t) rs)) (all_lists (asked e)) +
   count (fun rs => succeeded (reply gid (DComp (written e) op' t) rs)) (all_lists (asked e)) +
   count (fun rs => is_none (reply gid (DComp (written e) op t) rs)) (all_lists (asked e)) = length (all_lists (asked e)))%nat.
Proof.
  intros H1 H2 Hc Ho Ht Hw. destruct (opposite_holds op op' 0 w Ho) as (O1 & O2 & _).
  destruct (C85_chance gid e op t w (fun v => compareb op v w) H1 H2 Hc O1 Ht Hw ltac:(intros v; apply compareb_spec, O1)) as (-> & ->).
  rewrite (proj1 (C85_chance gid e op' t w (fun v => compareb op' v w) H1 H2 Hc O2 Ht Hw ltac:(intros v; apply compareb_spec, O2))), (proj2 (proj2 (C85_distribution gid e H1 H2))).
  apply count_three. intros [v|]; cbn [satisfied is_none]; [|reflexivity]. rewrite (proj2 (proj2 (opposite_holds op op' v w Ho))). destruct (compareb op v w); reflexivity.
Qed.
Print Assumptions C92_opposite.
(** ** Basic rolls *)
Lemma success_ways_perm holds l l' : Permutation l l' -> forall k, success_ways holds l k = success_ways holds l' k.
Proof.
  induction 1 as [|s l l' _ IH|s s' l|l l' l'' _ IH1 _ IH2]; intros k.
  - reflexivity.
  - cbn [success_ways]. rewrite !IH. destruct k; [reflexivity|]. rewrite !IH. reflexivity.
  - cbn [success_ways]. set (g := good_faces holds s). set (g' := good_faces holds s'). set (b := (Z.to_nat s - g)%nat). set (b' := (Z.to_nat s' - g')%nat). destruct k as [|[|k]]; nia.
  - rewrite IH1. apply IH2.
Qed.
(** C92: B rolls of the same dice, in any order and however put together, have the same distribution of successes. *)
Theorem C92_same_successes gid p ps p' ps' op t w t' k : Forall b_rollable (p :: ps) -> Forall b_rollable (p' :: ps') -> Permutation (b_sides (p :: ps)) (b_sides (p' :: ps')) ->
  is_compare_op op -> has_value t w -> has_value t' w ->
  count (fun rs => part_is 2 ("成功数" ++ itoa (Z.of_nat k)) (reply gid (BComp (b_roll p) (map b_roll ps) op t) rs)) (all_lists (b_sides (p :: ps))) =
  count (fun rs => part_is 2 ("成功数" ++ itoa (Z.of_nat k)) (reply gid (BComp (b_roll p') (map b_roll ps') op t') rs)) (all_lists (b_sides (p' :: ps'))).
Proof.
  intros H1 H2 Hp Hop Hw Hw'. assert (forall v, compareb op v w = true <-> compares op v w) as Hh by (intros v; apply compareb_spec, Hop).
  rewrite (C85_successes gid p ps op t w _ k H1 Hop Hw Hh), (C85_successes gid p' ps' op t' w _ k H2 Hop Hw' Hh). apply success_ways_perm, Hp.
Qed.
Print Assumptions C92_same_successes.

(** 1D6+3+1D6 is 2D6+3; 7-1D6 is 1D6; twice a die is not two dice. *)
Definition apart : wexpr := Bin Plus (Bin Plus (Leaf (WDice 1 6)) (Leaf (WInt 3))) (Leaf (WDice 1 6)).
Definition together : wexpr := Bin Plus (Leaf (WDice 2 6)) (Leaf (WInt 3)).
Example C92_example :
  alike apart together /\ rollable apart /\ size apart < 2 ^ 52 /\ rollable together /\ size together < 2 ^ 52 /\ comparable (written apart) /\ comparable (written together) /\
  asked apart = [6; 6] /\ part_is 2 "8" (reply "DiceBot" (DExpr (written apart)) [1; 2]) = true /\ part_is 2 "8" (reply "DiceBot" (DExpr (written together)) [1; 2]) = true /\
  count (fun rs => part_is 2 (itoa 8) (reply "DiceBot" (DExpr (written apart)) rs)) (all_lists (asked apart)) = 4%nat.
Proof.
  split.
  { unfold apart, together. eapply alike_trans; [apply alike_plus_assoc|]. eapply alike_trans; [apply alike_bin; [apply alike_refl|apply alike_plus_comm]|].
    eapply alike_trans; [apply alike_sym, alike_plus_assoc|]. apply alike_bin; [|apply alike_refl]. exact (alike_together 1 1 6). }
  split; [cbn; unfold in_int64, min_int, max_int, max_alloc_16, two63; lia|]. split; [reflexivity|]. split; [cbn; unfold in_int64, min_int, max_int, max_alloc_16, two63; lia|]. split; [reflexivity|].
  split; [exact I|]. split; [exact I|]. vconj.
Qed.
Example C92_example_opposite : alike (Bin Minus (Leaf (WInt 7)) (Leaf (WDice 1 6))) (Bin Plus (Leaf (WDice 1 6)) (Leaf (WInt 0))).
Proof.
  eapply alike_trans; [apply alike_minus|]. eapply alike_trans; [apply alike_bin; [apply alike_refl|exact (alike_opposite 1 6)]|].
  eapply alike_trans; [apply alike_plus_comm|]. eapply alike_trans; [apply alike_bin; [apply alike_minus|apply alike_refl]|]. eapply alike_trans; [apply alike_plus_assoc|].
  apply alike_bin; [apply alike_refl|]. eapply alike_trans; [apply alike_bin; [apply alike_neg_int|apply alike_refl]|]. exact (alike_ints (-7) 7).
Qed.
Example C92_example_twice : ~ alike (Bin Times (Leaf (WInt 2)) (Leaf (WDice 1 6))) (Leaf (WDice 2 6)).
Proof. intros H. apply alike_outcomes, Permutation_length in H. discriminate H. Qed.
Example C92_example_successes :
  Forall b_rollable [(1%nat, 4); (2%nat, 6); (1%nat, 4)] /\ Forall b_rollable [(2%nat, 4); (2%nat, 6)] /\ Permutation (b_sides [(1%nat, 4); (2%nat, 6); (1%nat, 4)]) (b_sides [(2%nat, 4); (2%nat, 6)]).
Proof.
  split; [repeat constructor; cbn; unfold max_alloc_16, max_int, two63; lia|]. split; [repeat constructor; cbn; unfold max_alloc_16, max_int, two63; lia|].
  cbn. constructor. apply (Permutation_app_comm [6; 6] [4]).
Qed.
