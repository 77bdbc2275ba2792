(** Property C93: successive commands are independent. *)
From Coq Require Import Reals.
From Verif Require Import Grammar ProofBase Dice SpecDice DiceProofs Comp CompProofs Ast Eval Notation NotationProofs Command
  SpecText SpecGrammar SpecSyntax SpecArith ArithProofs SpecRoll SpecTotals SpecLists SpecFair SpecOdds SpecTyped SpecIndependent YieldsProofs DRollProofs NumberText BCDice CommandProofs
  Prop_arith Prop_droll Prop_lists Prop_exec Prop_totals Prop_fair Prop_chances Prop_average Prop_value Prop_typed Prop_complete Prop_odds Prop_monotone.
Open Scope list_scope.
Open Scope Z_scope.

Lemma forall2_in {A B} (R : A -> B -> Prop) l l' a : Forall2 R l l' -> In a l -> exists b, In b l' /\ R a b.
Proof.
  induction 1 as [|x y l l' Hxy _ IH]; intros Hi; [destruct Hi|]. destruct Hi as [<-|Hi]; [exists y; split; [left; reflexivity|exact Hxy]|].
  destruct (IH Hi) as (b & Hb & Hr). exists b. split; [right; exact Hb|exact Hr].
Qed.
Lemma sum_value e rs : rollable e -> size e < 2 ^ 52 -> ~ In None (outcomes e) -> in_sides (asked e) rs -> exists v, comes_to e rs (Some v).
Proof.
  intros Hr Hs Hn Hi. destruct (forall2_in _ _ _ rs (all_come e Hr Hs) (proj2 (proj1 (proj2 (C85_all_lists _)) rs) Hi)) as ([v|] & Ho & Hc); [exists v; exact Hc|contradiction].
Qed.
(** Every command with fixed dice has a result on every list of answers. *)
Lemma fixed_gives gid c sides : fixed_dice c sides ->
  Forall (fun s => s <= max_int) sides /\ forall rs, in_sides sides rs -> exists r, gives gid (command_tree c) (dice_for sides rs) r.
Proof.
  intros [e v Hv|e Hr Hs Hn|e op t w Hr Hs Hn Hc Hop Ht Hw|p ps Hok|p ps op t w Hok Hop Hw|items Hne Hl].
  - split; [constructor|]. intros rs H. inversion H. subst. apply has_value_mach in Hv. destruct (run_calculation gid e (FQueue [])) as (s & Hs & _).
    exists (Result gid [s; "計算結果"%string; itoa v] [] Unspecified false). intros q. destruct (run_calculation gid e (FQueue q)) as (s' & Hs' & Hr).
    rewrite Hs in Hs'. injection Hs' as <-. rewrite Hv in Hr. exact Hr.
  - split; [apply sides_int, Hr|]. intros rs Hi. destruct (sum_value e rs Hr Hs Hn Hi) as (v & ie & (_ & fin & Hv & <-) & Hm & Ho).
    apply eq_sym, (ordinary_value _ v Ho) in Hm. destruct (notates_mtree (mid_of e) true) as (s1 & Hs1). destruct (notates_stree fin true) as (s2 & Hs2).
    exists (Result gid [parenthesize s1; s2; itoa v] (dice_for (asked e) rs) Unspecified false).
    apply C15_d_expr_exact; [apply written_ok, Hr|]. exists [], (dice_for (asked e) rs), (mid_of e), fin, v, s1, s2. split; [reflexivity|]. split; [split; [apply settle_written|split; assumption]|]. auto.
  - split; [apply sides_int, Hr|]. intros rs Hi. destruct (sum_value e rs Hr Hs Hn Hi) as (v & ie & (_ & fin & Hv & <-) & Hm & Ho).
    apply eq_sym, (ordinary_value _ v Ho) in Hm. destruct (notates_mtree (mid_of e) true) as (s1 & Hs1). destruct (notates_stree fin true) as (s2 & Hs2). set (b := compareb op v w).
    exists (Result gid [parenthesize (s1 ++ op ++ itoa w); s2; itoa v; if b then "成功" else "失敗"]%string (dice_for (asked e) rs) (if b then Success else Failure) false).
    apply C16_d_comp_exact; [apply written_ok, Hr|assumption|assumption|]. split; [exact Hc|]. exists [], (dice_for (asked e) rs), (mid_of e), fin, v, w, s1, s2, b. split; [reflexivity|].
    split; [split; [apply settle_written|split; assumption]|]. split; [exact Hw|]. split; [apply compareb_spec, Hop|]. auto.
  - split; [apply b_sides_int, Hok|]. intros rs Hi. destruct (b_groups (p :: ps) rs Hok Hi) as (groups & G1 & G2). eexists. apply C21_basic_exact.
    + change (Forall roll_ok (map b_roll (p :: ps))). apply Forall_map. eapply Forall_impl; [|exact Hok]. intros q (Q1 & Q2 & Q3). unfold roll_ok, b_roll, rok. cbn. unfold max_alloc_16, in_int64, max_int, min_int, two63 in *. lia.
    + exists [], (map (fun p => (Z.of_nat (fst p), snd p)) (p :: ps)), groups. split; [exact (b_settle (p :: ps))|]. split; [exact G1|]. split; [exact G2|reflexivity].
  - split; [apply b_sides_int, Hok|]. intros rs Hi. destruct (b_groups (p :: ps) rs Hok Hi) as (groups & G1 & G2). eexists. apply C22_success_count; [|exact Hop|].
    + change (Forall roll_ok (map b_roll (p :: ps))). apply Forall_map. eapply Forall_impl; [|exact Hok]. intros q (Q1 & Q2 & Q3). unfold roll_ok, b_roll, rok. cbn. unfold max_alloc_16, in_int64, max_int, min_int, two63 in *. lia.
    + exists [], (map (fun p => (Z.of_nat (fst p), snd p)) (p :: ps)), groups, w. split; [exact (b_settle (p :: ps))|]. split; [exact G1|]. split; [exact G2|]. split; [exact Hw|reflexivity].
  - split; [repeat constructor; exact Hl|]. intros rs Hi. inversion Hi as [|? a ? l Ha Hl2]. subst. inversion Hl2. subst. cbn [dice_for combine map fst snd].
    destruct (C31_every_legal_die gid items (Die (a + 1) (Z.of_nat (length items))) Hl) as (item & _ & Hg); [unfold legal; cbn; lia|reflexivity|]. eexists. exact Hg.
Qed.

(** One command: it takes exactly its dice, and its result is the one it has on these answers alone. *)
Lemma fixed_one bot a rs intn k : attempt_ok a -> in_sides (a_sides a) rs -> answers_to intn k (dice_for (a_sides a) rs) ->
  exists r, answer bot (a_input a) rs = Some r /\ r_secret r = a_secret a /\ map die_sides (dice_for (a_sides a) rs) = a_sides a /\
    execute_command_with bot (a_input a) (FRandom intn k) = (Ok r, FRandom intn (k + length (a_sides a))).
Proof.
  intros (Hl & Ht & Hf) Hi Ha. destruct (fixed_gives (db_game_id bot) _ _ Hf) as (Hs & Hg). destruct (Hg rs Hi) as (r & Hr).
  assert (forall intn k, answers_to intn k (dice_for (a_sides a) rs) ->
    execute_command_with bot (a_input a) (FRandom intn k) = (Ok (Result (r_game_id r) (r_parts r) (r_dice r) (r_success r) (a_secret a)), FRandom intn (k + length (dice_for (a_sides a) rs)))) as K.
  { intros intn' k' Ha'. pose proof (C76_typed_command bot (a_input a) (a_command a) (a_secret a) (FRandom intn' k') Hl Ht) as T. cbv zeta in T. rewrite (gives_source _ _ _ _ _ _ Hr Ha') in T. exact T. }
  assert (length (dice_for (a_sides a) rs) = length (a_sides a)) as El.
  { unfold dice_for. rewrite map_length, combine_length, <- (in_sides_length _ _ Hi), Nat.min_id. reflexivity. }
  exists (Result (r_game_id r) (r_parts r) (r_dice r) (r_success r) (a_secret a)). split; [|split; [reflexivity|split]].
  - unfold answer. rewrite (K (source rs) 0%nat (answers_dice _ _ Hi Hs)). reflexivity.
  - unfold dice_for. rewrite map_map. cbn [die_sides]. clear - Hi. unfold in_sides in Hi. induction Hi as [|s x l l' _ _ IH]; [reflexivity|]. cbn [combine map fst]. rewrite IH. reflexivity.
  - rewrite (K intn k Ha), El. reflexivity.
Qed.
Lemma in_sides_app l1 l2 rs : in_sides (l1 ++ l2) rs -> exists r1 r2, rs = r1 ++ r2 /\ in_sides l1 r1 /\ in_sides l2 r2.
Proof. unfold in_sides. intros H. apply Forall2_app_inv_l in H as (r1 & r2 & H1 & H2 & ->). exists r1, r2. auto. Qed.
Lemma dice_length sides rs : in_sides sides rs -> length (dice_for sides rs) = length sides.
Proof. intros H. unfold dice_for. rewrite map_length, combine_length, <- (in_sides_length _ _ H), Nat.min_id. reflexivity. Qed.
Definition inputs_of (l : list attempt) : list session_op := map (fun a => Input (a_input a)) l.
Definition outcomes_of (entries : list (dicebot * string * outcome result)) : list (outcome result) := map snd entries.
Lemma session_fixed reg bot l : forall rss intn k, Forall attempt_ok l -> Forall2 (fun a rs => in_sides (a_sides a) rs) l rss ->
  answers_to intn k (dice_for (flat_map a_sides l) (concat rss)) ->
  exists rs, Forall2 (fun (p : attempt * list Z) r => answer bot (a_input (fst p)) (snd p) = Some r /\ r_secret r = a_secret (fst p)) (combine l rss) rs /\
    session reg (BCDice bot (FRandom intn k)) (inputs_of l) =
      (map (fun p => (bot, a_input (fst p), Ok (snd p))) (combine l rs), BCDice bot (FRandom intn (k + length (flat_map a_sides l)))).
Proof.
  induction l as [|a l IH]; intros rss intn k Hok Hi Ha; inversion Hi as [|? r1 ? rss' Hi1 Hi2]; subst.
  - exists []. split; [constructor|]. cbn. rewrite Nat.add_0_r. reflexivity.
  - inversion_clear Hok as [|? ? Hok1 Hok2]. cbn [flat_map concat] in Ha. rewrite dice_for_app in Ha by (apply in_sides_length, Hi1). apply answers_app in Ha as (A1 & A2). rewrite (dice_length _ _ Hi1) in A2.
    destruct (fixed_one bot a r1 intn k Hok1 Hi1 A1) as (r & R1 & R2 & _ & R3). destruct (IH rss' intn (k + length (a_sides a))%nat Hok2 Hi2 A2) as (rs & S1 & S2).
    exists (r :: rs). split; [constructor; [split; assumption|exact S1]|]. unfold inputs_of in *. cbn [map session flat_map combine fst snd]. unfold execute_command. cbn [bd_bot bd_feeder]. rewrite R3, S2, app_length, Nat.add_assoc. reflexivity.
Qed.
Lemma all_fixed_int l : Forall attempt_ok l -> Forall (fun s => s <= max_int) (flat_map a_sides l).
Proof. intros H. apply Forall_flat_map. eapply Forall_impl; [|exact H]. intros a (_ & _ & Hf). exact (proj1 (fixed_gives "" _ _ Hf)). Qed.
Lemma concat_sides l : forall rss, Forall2 (fun a rs => in_sides (a_sides a) rs) l rss -> in_sides (flat_map a_sides l) (concat rss).
Proof. induction l as [|a l IH]; intros rss H; inversion H; subst; cbn; [constructor|]. apply Forall2_app; [assumption|apply IH; assumption]. Qed.
(** C93: each of several commands given one after another takes exactly its dice: with lists of answers, one for each command, put one after another, each
    command has the result that it has alone on its own list. *)
Theorem C93_one_by_one reg bot l rss : Forall attempt_ok l -> Forall2 (fun a rs => In rs (all_lists (a_sides a))) l rss ->
  exists rs, Forall2 (fun (p : attempt * list Z) r => answer bot (a_input (fst p)) (snd p) = Some r /\ r_secret r = a_secret (fst p)) (combine l rss) rs /\
    session reg (BCDice bot (FRandom (source (concat rss)) 0)) (inputs_of l) =
      (map (fun p => (bot, a_input (fst p), Ok (snd p))) (combine l rs), BCDice bot (FRandom (source (concat rss)) (length (flat_map a_sides l)))).
Proof.
  intros Hok Hi. apply (forall2_imp _ (fun a rs => in_sides (a_sides a) rs)) in Hi; [|intros a rs H; apply (proj1 (proj2 (C85_all_lists _))), H].
  apply (session_fixed reg bot l rss _ 0%nat Hok Hi). apply answers_dice; [apply concat_sides, Hi|apply all_fixed_int, Hok].
Qed.
Print Assumptions C93_one_by_one.

(** ** Counting *)
Definition happens (event : result -> bool) (o : option result) : bool := match o with Some r => event r | None => false end.
Lemma count_comb {A B C} (f : A -> B -> C) (P : C -> bool) (p : A -> bool) (q : B -> bool) l1 l2 :
  (forall x y, In x l1 -> In y l2 -> P (f x y) = p x && q y) -> count P (combine_all f l1 l2) = (count p l1 * count q l2)%nat.
Proof.
  unfold combine_all. induction l1 as [|x l1 IH]; intros H; [reflexivity|]. cbn [flat_map]. unfold count at 1. rewrite filter_app, app_length. fold (count P (map (f x) l2)). fold (count P (flat_map (fun x => map (f x) l2) l1)).
  rewrite IH by (intros; apply H; [right|]; assumption). rewrite count_map.
  rewrite (count_ext _ (fun y => p x && q y) l2) by (intros y Hy; apply H; [left; reflexivity|exact Hy]).
  assert (count p (x :: l1) = ((if p x then 1 else 0) + count p l1)%nat) as -> by (unfold count; cbn [filter]; destruct (p x); reflexivity).
  destruct (p x); cbn [andb]; [change (count (fun y => q y) l2) with (count q l2); ring|]. rewrite count_none by reflexivity. reflexivity.
Qed.
(** the events, each on its own part of the answers *)
Fixpoint all_in (bot : dicebot) (l : list attempt) (rs : list Z) : bool :=
  match l with
  | [] => true
  | a :: l' => happens (a_event a) (answer bot (a_input a) (firstn (length (a_sides a)) rs)) && all_in bot l' (skipn (length (a_sides a)) rs)
  end.
Lemma count_all_in bot l : count (all_in bot l) (all_lists (flat_map a_sides l)) =
  fold_right Nat.mul 1%nat (map (fun a => count (fun rs => happens (a_event a) (answer bot (a_input a) rs)) (all_lists (a_sides a))) l).
Proof.
  induction l as [|a l IH]; [reflexivity|]. cbn [flat_map map fold_right]. rewrite all_lists_app, <- IH. apply count_comb. intros x y Hx _. apply (proj1 (proj2 (C85_all_lists _))) in Hx.
  apply in_sides_length in Hx. cbn [all_in]. rewrite Hx, firstn_app, skipn_app, Nat.sub_diag, firstn_all, skipn_all, firstn_O, app_nil_r. reflexivity.
Qed.
Lemma split_sides l : forall rs, in_sides (flat_map a_sides l) rs -> exists rss, rs = concat rss /\ Forall2 (fun a r => in_sides (a_sides a) r) l rss.
Proof.
  induction l as [|a l IH]; intros rs H; cbn [flat_map] in H.
  - inversion H. exists []. split; [reflexivity|constructor].
  - apply in_sides_app in H as (r1 & r2 & -> & H1 & H2). destruct (IH r2 H2) as (rss & -> & H3). exists (r1 :: rss). split; [reflexivity|constructor; assumption].
Qed.
Lemma all_in_happened bot l : forall rss rs, Forall2 (fun a r => in_sides (a_sides a) r) l rss ->
  Forall2 (fun (p : attempt * list Z) r => answer bot (a_input (fst p)) (snd p) = Some r /\ r_secret r = a_secret (fst p)) (combine l rss) rs ->
  all_happened (map a_event l) (outcomes_of (map (fun p => (bot, a_input (fst p), Ok (snd p))) (combine l rs))) = all_in bot l (concat rss).
Proof.
  unfold outcomes_of. induction l as [|a l IH]; intros rss rs Hi Hr; inversion Hi as [|? r1 ? rss' Hi1 Hi2]; subst; cbn [combine] in Hr; inversion Hr as [|? r ? rs' (R1 & _) R2]; subst; [reflexivity|].
  cbn [combine map all_happened all_in concat fst snd happened] in *. apply in_sides_length in Hi1. rewrite Hi1, firstn_app, skipn_app, Nat.sub_diag, firstn_all, skipn_all, firstn_O, app_nil_r. cbn [skipn app]. rewrite R1. cbn [happens].
  f_equal. apply IH; assumption.
Qed.
(** C93: of the equally likely lists of answers for several commands given one after another, the number of those on which an event comes to pass for each of them is the
    product of the numbers of those on which each comes to pass when its command is given alone. *)
Theorem C93_independent reg bot l : Forall attempt_ok l ->
  count (fun rs => all_happened (map a_event l) (outcomes_of (fst (session reg (BCDice bot (FRandom (source rs) 0)) (inputs_of l))))) (all_lists (flat_map a_sides l)) =
    fold_right Nat.mul 1%nat (map (fun a => count (fun rs => happens (a_event a) (answer bot (a_input a) rs)) (all_lists (a_sides a))) l).
Proof.
  intros Hok. rewrite <- count_all_in. apply count_ext. intros rs Hrs. apply (proj1 (proj2 (C85_all_lists _))) in Hrs. destruct (split_sides l rs Hrs) as (rss & -> & Hi).
  destruct (session_fixed reg bot l rss (source (concat rss)) 0%nat Hok Hi) as (rs & R1 & R2); [apply answers_dice; [exact Hrs|apply all_fixed_int, Hok]|].
  rewrite R2. cbn [fst]. apply all_in_happened; assumption.
Qed.
Print Assumptions C93_independent.

(** C93: the results so far tell nothing about the next one: among the lists of answers on which the events so far come to pass, the next event comes to pass in the same
    proportion as when its command is given alone. *)
Theorem C93_no_memory reg bot l a : Forall attempt_ok l -> attempt_ok a ->
  count (fun rs => all_happened (map a_event (l ++ [a])) (outcomes_of (fst (session reg (BCDice bot (FRandom (source rs) 0)) (inputs_of (l ++ [a])))))) (all_lists (flat_map a_sides (l ++ [a]))) =
    (count (fun rs => all_happened (map a_event l) (outcomes_of (fst (session reg (BCDice bot (FRandom (source rs) 0)) (inputs_of l))))) (all_lists (flat_map a_sides l)) *
     count (fun rs => happens (a_event a) (answer bot (a_input a) rs)) (all_lists (a_sides a)))%nat.
Proof.
  intros Hl Ha. rewrite !C93_independent by (try apply Forall_app; auto). rewrite map_app. cbn [map].
  set (n := count _ (all_lists (a_sides a))). generalize (map (fun a => count (fun rs => happens (a_event a) (answer bot (a_input a) rs)) (all_lists (a_sides a))) l). intros ms.
  induction ms as [|m ms IH]; cbn [app fold_right]; [lia|]. rewrite IH. apply Nat.mul_assoc.
Qed.
Print Assumptions C93_no_memory.
(** C93: the order in which the commands are given does not matter for the chances. *)
Theorem C93_any_order reg bot l l' : Forall attempt_ok l -> Permutation.Permutation l l' ->
  count (fun rs => all_happened (map a_event l) (outcomes_of (fst (session reg (BCDice bot (FRandom (source rs) 0)) (inputs_of l))))) (all_lists (flat_map a_sides l)) =
  count (fun rs => all_happened (map a_event l') (outcomes_of (fst (session reg (BCDice bot (FRandom (source rs) 0)) (inputs_of l'))))) (all_lists (flat_map a_sides l')).
Proof.
  intros Hl Hp. assert (Forall attempt_ok l') as Hl' by (eapply Permutation.Permutation_Forall; eassumption). rewrite !C93_independent by assumption. clear - Hp.
  induction Hp as [|a l l' _ IH|a b l|l l' l'' _ IH1 _ IH2]; cbn [map fold_right]; [reflexivity|rewrite IH; reflexivity|rewrite !Nat.mul_assoc; f_equal; apply Nat.mul_comm|congruence].
Qed.
Print Assumptions C93_any_order.
Lemma map_repeated {A B} (f : A -> B) x n : map f (repeat x n) = repeat (f x) n.
Proof. induction n as [|n IH]; [reflexivity|]. cbn. rewrite IH. reflexivity. Qed.
(** C93: a command given n times: in m^n of the equally likely cases all n succeed, if one alone succeeds in m. *)
Theorem C93_repeated reg bot a n : attempt_ok a ->
  count (fun rs => all_happened (repeat (a_event a) n) (outcomes_of (fst (session reg (BCDice bot (FRandom (source rs) 0)) (repeat (Input (a_input a)) n))))) (all_lists (concat (repeat (a_sides a) n))) =
    (count (fun rs => happens (a_event a) (answer bot (a_input a) rs)) (all_lists (a_sides a)) ^ n)%nat.
Proof.
  intros Ha. pose proof (C93_independent reg bot (repeat a n) ltac:(apply Forall_forall; intros x Hx; apply repeat_spec in Hx; subst; exact Ha)) as H.
  unfold inputs_of in H. rewrite flat_map_concat_map in H. rewrite !map_repeated in H. rewrite H. clear. induction n as [|n IH]; [reflexivity|]. cbn [repeat fold_right Nat.pow]. rewrite IH. reflexivity.
Qed.
Print Assumptions C93_repeated.

(** "S2d6 attack!" with a total of 7 (6 of 36), and then "2d6+1>=8 hit!" with a success (21 of 36): 126 of 1296. *)
Definition attack : attempt := Attempt "S2d6 attack!" (DExpr (plain_roll 2 6)) true [6; 6] (fun r => part_is 2 "7" (Some r)).
Definition hit : attempt := Attempt "2d6+1>=8 hit!" (DComp (written typed_roll) ">=" (Leaf 8)) false [6; 6] (fun r => succeeded (Some r)).
Lemma attack_ok : attempt_ok attack.
Proof.
  split; [exact (proj1 (proj2 C76_example))|]. split; [exact (proj1 C76_example)|]. apply (fixed_sum (Leaf (WDice 2 6))).
  - cbn. unfold max_alloc_16, max_int, two63. lia.
  - reflexivity.
  - vm_compute. intros H. repeat (destruct H as [H|H]; [discriminate H|]). exact H.
Qed.
Lemma hit_ok : attempt_ok hit.
Proof.
  destruct C91_example_typed as (H1 & H2 & H3 & H4 & _ & H5 & _). split; [exact H1|]. split; [exact H2|]. eapply (fixed_comparison typed_roll ">=" (Leaf 8) 8); try assumption.
  - vm_compute. intros H. repeat (destruct H as [H|H]; [discriminate H|]). exact H.
  - unfold is_compare_op. cbn. auto 10.
  - cbn. unfold in_int64, min_int, max_int, two63. lia.
  - reflexivity.
Qed.
Example C93_example : Forall attempt_ok [attack; hit] /\
  map (fun a => count (fun rs => happens (a_event a) (answer basic_bot (a_input a) rs)) (all_lists (a_sides a))) [attack; hit] = [6; 21]%nat /\
  all_happened [a_event attack; a_event hit] (outcomes_of (fst (session game_registry (BCDice basic_bot (FRandom (source [2; 3; 5; 1]) 0)) (inputs_of [attack; hit])))) = true /\
  all_happened [a_event attack; a_event hit] (outcomes_of (fst (session game_registry (BCDice basic_bot (FRandom (source [2; 3; 1; 1]) 0)) (inputs_of [attack; hit])))) = false.
Proof. split; [constructor; [apply attack_ok|constructor; [apply hit_ok|constructor]]|]. vconj. Qed.
Example C93_example_count :
  count (fun rs => all_happened [a_event attack; a_event hit] (outcomes_of (fst (session game_registry (BCDice basic_bot (FRandom (source rs) 0)) [Input "S2d6 attack!"; Input "2d6+1>=8 hit!"]%string)))) (all_lists [6; 6; 6; 6]) = 126%nat.
Proof.
  transitivity (fold_right Nat.mul 1%nat (map (fun a => count (fun rs => happens (a_event a) (answer basic_bot (a_input a) rs)) (all_lists (a_sides a))) [attack; hit])).
  - exact (C93_independent game_registry basic_bot [attack; hit] (proj1 C93_example)).
  - rewrite (proj1 (proj2 C93_example)). reflexivity.
Qed.
