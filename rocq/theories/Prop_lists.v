(** Properties C21-C32, C36: B, R, U rolls, CHOICE; crashes; notation. *)
From Coq Require Import Permutation.
From Verif Require Import Grammar ProofBase Dice SpecDice DiceProofs Comp CompProofs Ast Eval Notation NotationProofs Command
  SpecSyntax ArithProofs SpecRoll SpecLists SpecCounts YieldsProofs DRollProofs WpProofs WpEval ListProofs RerollProofs ExplodeProofs WpCommand.
Open Scope list_scope.
Open Scope Z_scope.

(** * C21 *)
(** C21: exactly the dice sequences and results of xBy+...: operand dice first, then one group of dice per roll; shown
    are the values of all rolled dice, in order. *)
Theorem C21_basic_exact gid r rs ds res : Forall roll_ok (r :: rs) ->
  (gives gid (command_tree (BList r rs)) ds res <->
   exists ops ps groups,
     settle_rolls (r :: rs) ops ps /\ rolled_each ps groups /\ ds = ops ++ concat groups /\
     res = Result gid [parenthesize (rolls_words "B" ps); values_word (concat groups)] ds Unspecified false).
Proof. apply gives_blist. Qed.
Print Assumptions C21_basic_exact.
Lemma rolled_each_number ps groups : rolled_each ps groups ->
  Z.of_nat (length (concat groups)) = fold_right Z.add 0 (map fst ps).
Proof.
  induction 1 as [|p g ps gs (H1 & H2 & H3 & H4) _ IH]; [reflexivity|]. cbn [concat map fold_right]. rewrite app_length. lia.
Qed.
(** C21 with any feeder *)
Theorem C21_basic_any_feeder gid r rs f res f' : Forall roll_ok (r :: rs) ->
  run_command gid (command_tree (BList r rs)) f = (Ok res, f') ->
  exists ops ps groups,
    draws f (ops ++ concat groups) f' /\ settle_rolls (r :: rs) ops ps /\ rolled_each ps groups /\
    nth_error (r_parts res) 1 = Some (values_word (concat groups)) /\ r_dice res = ops ++ concat groups.
Proof.
  intros Hok H. destruct (run_command_gives _ _ _ _ _ H) as (ds & Hd & Hg).
  apply (gives_blist gid r rs ds res Hok) in Hg as (ops & ps & groups & H1 & H2 & -> & ->).
  exists ops, ps, groups. repeat split; assumption.
Qed.
Print Assumptions C21_basic_any_feeder.
(** C21: the number of dice reported is that of the operands' dice plus the sum of the counts. *)
Theorem C21_number_of_dice gid r rs f res f' : Forall roll_ok (r :: rs) -> run_command gid (command_tree (BList r rs)) f = (Ok res, f') ->
  exists ops ps, settle_rolls (r :: rs) ops ps /\ Z.of_nat (length (r_dice res)) = Z.of_nat (length ops) + fold_right Z.add 0 (map fst ps).
Proof.
  intros Hok H. destruct (C21_basic_any_feeder gid r rs f res f' Hok H) as (ops & ps & groups & _ & Hs & Hg & _ & ->).
  exists ops, ps. split; [exact Hs|]. rewrite app_length, <- (rolled_each_number _ _ Hg). lia.
Qed.
Print Assumptions C21_number_of_dice.
Example C21_example :
  let c := BList (Leaf (RInt 2), Leaf (RInt 6)) [(Leaf (RRand (Leaf 1) (Leaf 2)), Leaf (RInt 10))] in
  parse_command "2b6+[1...2]B10" = Ok (command_tree c) /\
  run_command "DiceBot" (command_tree c) (FQueue [Die 2 2; Die 6 6; Die 1 6; Die 9 10; Die 3 10]) =
    (Ok (Result "DiceBot" ["(2B6+2B10)"; "6,1,9,3"]%string [Die 2 2; Die 6 6; Die 1 6; Die 9 10; Die 3 10] Unspecified false), FQueue []).
Proof. vconj. Qed.

(** * C22 *)
(** C22: B comparison: the success count is the number of rolled values matching the target. *)
Theorem C22_success_count gid r rs op t ds res : Forall roll_ok (r :: rs) -> is_compare_op op ->
  (gives gid (command_tree (BComp r rs op t)) ds res <->
   exists ops ps groups w,
     settle_rolls (r :: rs) ops ps /\ rolled_each ps groups /\ ds = ops ++ concat groups /\ has_value t w /\
     res = Result gid [parenthesize (rolls_words "B" ps ++ op ++ itoa w); values_word (concat groups);
                       ("成功数" ++ itoa (matching op w (values (concat groups))))%string] ds Unspecified false).
Proof. apply gives_bcomp. Qed.
Print Assumptions C22_success_count.
Lemma matching_is_count op w vs : is_compare_op op ->
  exists hits misses, Permutation vs (hits ++ misses) /\
    Forall (fun v => compares op v w) hits /\ Forall (fun v => ~ compares op v w) misses /\
    matching op w vs = Z.of_nat (length hits).
Proof.
  intros Hop. exists (filter (fun v => compareb op v w) vs), (filter (fun v => negb (compareb op v w)) vs).
  split; [|split; [|split; [|reflexivity]]].
  - induction vs as [|v vs IH]; cbn; [constructor|]. destruct (compareb op v w); cbn.
    + constructor. exact IH.
    + eapply perm_trans; [constructor; exact IH|]. apply Permutation_middle.
  - apply Forall_forall. intros v Hv. apply filter_In in Hv as (_ & Hv). apply compareb_spec; assumption.
  - apply Forall_forall. intros v Hv Hc. apply filter_In in Hv as (_ & Hv). apply compareb_spec in Hc; [|exact Hop]. rewrite Hc in Hv. discriminate.
Qed.
(** Reading operands is a function of the dice. *)
Lemma settle_rolls_fun rs ops ps ops' ps' x x' : Forall roll_ok rs -> settle_rolls rs ops ps -> settle_rolls rs ops' ps' -> ops ++ x = ops' ++ x' -> ops = ops' /\ ps = ps' /\ x = x'.
Proof.
  intros Hok H H' E. assert (KB <> KRand) as Hk by discriminate.
  pose proof (proj2 (yields_va_rolls default_max_rerolls KB rs Hk Hok [] ops _) (ex_intro _ ps (conj H eq_refl))) as Y.
  pose proof (proj2 (yields_va_rolls default_max_rerolls KB rs Hk Hok [] ops' _) (ex_intro _ ps' (conj H' eq_refl))) as Y'.
  pose proof (yields_run _ _ _ _ Y x) as Z1. pose proof (yields_run _ _ _ _ Y' x') as Z2. rewrite E, Z2 in Z1. injection Z1 as Ev Ex Eo. cbn in Eo. subst. split; [reflexivity|]. split; [|reflexivity].
  clear - Ev. revert ps' Ev. induction ps as [|(a, b) ps IH]; intros [|(a', b') ps'] E; cbn in E; try discriminate E; [reflexivity|]. injection E as -> -> E. f_equal. apply IH, E.
Qed.
(** C22: the success count is the number of rolled values that satisfy the comparison. *)
Theorem C22_matching_is_count gid r rs op t ds res : Forall roll_ok (r :: rs) -> is_compare_op op -> gives gid (command_tree (BComp r rs op t)) ds res ->
  exists ops ps rolled_dice w hits misses, settle_rolls (r :: rs) ops ps /\ ds = ops ++ rolled_dice /\ Z.of_nat (length rolled_dice) = fold_right Z.add 0 (map fst ps) /\ has_value t w /\
    Permutation (values rolled_dice) (hits ++ misses) /\ Forall (fun v => compares op v w) hits /\ Forall (fun v => ~ compares op v w) misses /\
    nth_error (r_parts res) 2 = Some ("成功数" ++ itoa (Z.of_nat (length hits)))%string.
Proof.
  intros Hok Hop H. apply (C22_success_count gid r rs op t ds res Hok Hop) in H as (ops & ps & groups & w & Hs & Hg & -> & Hw & ->).
  destruct (matching_is_count op w (values (concat groups)) Hop) as (hits & misses & H1 & H2 & H3 & H4).
  exists ops, ps, (concat groups), w, hits, misses. split; [exact Hs|]. split; [reflexivity|]. split; [apply rolled_each_number, Hg|]. split; [exact Hw|]. repeat (split; [assumption|]). cbn. rewrite H4. reflexivity.
Qed.
Print Assumptions C22_matching_is_count.
(** C22: at most as many successes as dice. *)
Theorem C22_bounds gid r rs op t ds res : Forall roll_ok (r :: rs) -> is_compare_op op -> gives gid (command_tree (BComp r rs op t)) ds res ->
  exists k, nth_error (r_parts res) 2 = Some ("成功数" ++ itoa k)%string /\ 0 <= k <= Z.of_nat (length (r_dice res)).
Proof.
  intros Hok Hop H. apply (C22_success_count gid r rs op t ds res Hok Hop) in H as (ops & ps & groups & w & _ & _ & -> & _ & ->).
  exists (matching op w (values (concat groups))). split; [reflexivity|]. cbn. rewrite app_length. pose proof (matching_le op w (values (concat groups))) as Hm. assert (length (values (concat groups)) = length (concat groups)) as El by (unfold values; apply map_length). rewrite El in Hm. lia.
Qed.
Print Assumptions C22_bounds.
Lemma matching_complement op op' w vs :
  In (op, op') [("=", "<>"); ("<", ">="); (">", "<=")]%string ->
  matching op w vs + matching op' w vs = Z.of_nat (length vs).
Proof.
  intros H. unfold matching. induction vs as [|v vs IH]; [reflexivity|]. cbn [filter].
  assert (compareb op' v w = negb (compareb op v w)) as E.
  { repeat destruct H as [[= <- <-]|H]; [..|contradiction]; cbn; try reflexivity; apply Bool.eq_iff_eq_true; rewrite Bool.negb_true_iff; lia. }
  rewrite E. destruct (compareb op v w); cbn [negb length]; lia.
Qed.
(** C22: with the same dice, an operator and its complement count every rolled die once. *)
Theorem C22_complement gid r rs op op' t ds res res' : Forall roll_ok (r :: rs) -> In (op, op') [("=", "<>"); ("<", ">="); (">", "<=")]%string ->
  gives gid (command_tree (BComp r rs op t)) ds res -> gives gid (command_tree (BComp r rs op' t)) ds res' ->
  exists ops ps k k', settle_rolls (r :: rs) ops ps /\ nth_error (r_parts res) 2 = Some ("成功数" ++ itoa k)%string /\ nth_error (r_parts res') 2 = Some ("成功数" ++ itoa k')%string /\
    k + k' = Z.of_nat (length ds) - Z.of_nat (length ops) /\ nth_error (r_parts res) 1 = nth_error (r_parts res') 1.
Proof.
  intros Hok Hop H H'. assert (is_compare_op op /\ is_compare_op op') as (O1 & O2).
  { repeat destruct Hop as [[= <- <-]|Hop]; [..|contradiction]; cbn; tauto. }
  apply (C22_success_count gid r rs op t ds res Hok O1) in H as (ops & ps & groups & w & Hs & _ & E & Hw & ->).
  apply (C22_success_count gid r rs op' t ds res' Hok O2) in H' as (ops' & ps' & groups' & w' & Hs' & _ & E' & Hw' & ->).
  rewrite E in E'. destruct (settle_rolls_fun _ _ _ _ _ _ _ Hok Hs Hs' E') as (-> & -> & Eg). assert (w' = w) as -> by (apply has_value_mach in Hw, Hw'; congruence).
  eexists ops', ps', _, _. split; [exact Hs'|]. split; [reflexivity|]. split; [reflexivity|]. rewrite <- Eg. split; [|reflexivity].
  rewrite (matching_complement op op' w _ Hop), E, app_length. unfold values. rewrite map_length. lia.
Qed.
Print Assumptions C22_complement.
Example C22_example :
  let c := BComp (Leaf (RInt 3), Leaf (RInt 6)) [] ">" (Bin Plus (Leaf 2) (Leaf 1)) in
  parse_command "3B6>2+1" = Ok (command_tree c) /\
  run_command "DiceBot" (command_tree c) (FQueue [Die 4 6; Die 3 6; Die 6 6]) =
    (Ok (Result "DiceBot" ["(3B6>3)"; "4,3,6"; "成功数2"]%string [Die 4 6; Die 3 6; Die 6 6] Unspecified false), FQueue []).
Proof. vconj. Qed.

(** * C23, C24 *)
(** C23: an R list with threshold v >= 2 performs its rolls and then, first in first out, the re-rolls. *)
Theorem C23_reroll_exact gid r rs th v ds res : Forall roll_ok (r :: rs) -> has_value th v -> v >= 2 ->
  (gives gid (command_tree (RList r rs (Some th))) ds res <->
   exists ops ps groups,
     settle_rolls (r :: rs) ops ps /\ rerolls v cap ps groups /\ ds = ops ++ concat groups /\
     res = Result gid [parenthesize (rolls_words "R" ps ++ "[" ++ itoa v ++ "]"); join " + " (map values_word groups)] ds Unspecified false).
Proof.
  intros Hok Hv H2. rewrite (gives_rlist gid r rs (Some th) ds res Hok). split.
  - intros (ops & ps & t & Hs & Ht & H). destruct t as [v'|]; [|contradiction]. cbn in Ht.
    apply has_value_mach in Hv, Ht. rewrite Hv in Ht. injection Ht as <-. cbn [hint] in H. replace (v <? 2) with false in H by lia.
    destruct H as (groups & Hg & -> & ->). exists ops, ps, groups. repeat split; assumption.
  - intros (ops & ps & groups & Hs & Hg & -> & ->). exists ops, ps, (Some v). split; [exact Hs|]. split; [exact Hv|].
    cbn [hint]. replace (v <? 2) with false by lia. exists groups. repeat split; assumption.
Qed.
Print Assumptions C23_reroll_exact.
Lemma rerolls_at_most_cap t ps groups : rerolls t cap ps groups -> Z.of_nat (length groups) <= 10000.
Proof. intros H. apply rerolls_groups in H as (H & _). unfold cap in H. lia. Qed.
(** C23: never more than 10000 rolls are shown. *)
Theorem C23_at_most_cap gid r rs th v ds res : Forall roll_ok (r :: rs) -> has_value th v -> v >= 2 -> gives gid (command_tree (RList r rs (Some th))) ds res ->
  exists ops ps groups, settle_rolls (r :: rs) ops ps /\ ds = ops ++ concat groups /\ nth_error (r_parts res) 1 = Some (join " + " (map values_word groups)) /\ Z.of_nat (length groups) <= 10000.
Proof.
  intros Hok Hv H2 H. apply (C23_reroll_exact gid r rs th v ds res Hok Hv H2) in H as (ops & ps & groups & Hs & Hg & -> & ->).
  exists ops, ps, groups. repeat split; [exact Hs|apply (rerolls_at_most_cap v ps groups Hg)].
Qed.
Print Assumptions C23_at_most_cap.
Lemma rerolls_initial_first t n ps groups : rerolls t n ps groups -> (length groups < n)%nat ->
  exists first more, groups = first ++ more /\ rolled_each ps first.
Proof.
  assert (forall n qs groups, rerolls t n qs groups -> (length groups < n)%nat -> forall ps q, qs = ps ++ q ->
    exists first more, groups = first ++ more /\ rolled_each ps first) as G.
  { intros n' qs gs H. induction H as [q|n'|n' x y q g gs Hr Hz H IH|n' x y q g gs Hr Hz H IH]; intros Hl ps' q' E; cbn [length] in Hl.
    - lia.
    - symmetry in E. apply app_eq_nil in E as (-> & _). exists [], []. split; [reflexivity|constructor].
    - destruct ps' as [|p ps']; [exists [], (g :: gs); split; [reflexivity|constructor]|]. injection E as <- ->.
      destruct (IH ltac:(lia) ps' q' eq_refl) as (f & m & -> & Hf). exists (g :: f), m. split; [reflexivity|]. constructor; assumption.
    - destruct ps' as [|p ps']; [exists [], (g :: gs); split; [reflexivity|constructor]|]. injection E as <- ->.
      destruct (IH ltac:(lia) ps' (q' ++ [(at_least t g, y)]) (eq_sym (app_assoc _ _ _))) as (f & m & -> & Hf).
      exists (g :: f), m. split; [reflexivity|]. constructor; assumption. }
  intros H Hl. apply (G n ps groups H Hl ps []). symmetry. apply app_nil_r.
Qed.
(** C23: if it stops before the cap, every pending roll has been performed: the initial rolls come first, in order. *)
Theorem C23_initial_rolls_first gid r rs th v ds res : Forall roll_ok (r :: rs) -> has_value th v -> v >= 2 -> gives gid (command_tree (RList r rs (Some th))) ds res ->
  exists ops ps groups, settle_rolls (r :: rs) ops ps /\ ds = ops ++ concat groups /\ nth_error (r_parts res) 1 = Some (join " + " (map values_word groups)) /\
    (Z.of_nat (length groups) < 10000 -> exists first more, groups = first ++ more /\ rolled_each ps first).
Proof.
  intros Hok Hv H2 H. apply (C23_reroll_exact gid r rs th v ds res Hok Hv H2) in H as (ops & ps & groups & Hs & Hg & -> & ->).
  exists ops, ps, groups. repeat split; [exact Hs|]. intros Hl. apply (rerolls_initial_first v cap ps groups Hg). unfold cap. lia.
Qed.
Print Assumptions C23_initial_rolls_first.

Lemma rerolls_conservation t n ps groups : rerolls t n ps groups -> (length groups < n)%nat ->
  Z.of_nat (length (concat groups)) = fold_right Z.add 0 (map fst ps) + at_least t (concat groups).
Proof.
  assert (forall a b, at_least t (a ++ b) = at_least t a + at_least t b) as Happ.
  { intros. unfold at_least. rewrite values_app, filter_app, app_length. lia. }
  assert (forall a b, fold_right Z.add 0 (map fst (a ++ b)) = fold_right Z.add 0 (map fst a) + fold_right Z.add 0 (@map (Z * Z) Z fst b)) as Hs.
  { intros a b. induction a as [|x a IH]; cbn; [lia|]. rewrite IH. lia. }
  induction 1 as [q|n|n x y q g gs Hr Hz H IH|n x y q g gs Hr Hz H IH]; cbn [length concat map fold_right fst]; intros Hl.
  - lia.
  - reflexivity.
  - rewrite app_length, Happ. specialize (IH ltac:(lia)). destruct Hr as (_ & _ & R3 & _). lia.
  - rewrite app_length, Happ. specialize (IH ltac:(lia)). rewrite Hs in IH. cbn [map fold_right fst] in IH. destruct Hr as (_ & _ & R3 & _). lia.
Qed.
(** C24: dice rolled = initial dice + values at or above the threshold, if the cap was not reached. *)
Theorem C24_conservation gid r rs th v ds res : Forall roll_ok (r :: rs) -> has_value th v -> v >= 2 -> gives gid (command_tree (RList r rs (Some th))) ds res ->
  exists ops ps groups, settle_rolls (r :: rs) ops ps /\ r_dice res = ops ++ concat groups /\ nth_error (r_parts res) 1 = Some (join " + " (map values_word groups)) /\
    (Z.of_nat (length groups) < 10000 -> Z.of_nat (length (r_dice res)) = Z.of_nat (length ops) + fold_right Z.add 0 (map fst ps) + at_least v (concat groups)).
Proof.
  intros Hok Hv H2 H. apply (C23_reroll_exact gid r rs th v ds res Hok Hv H2) in H as (ops & ps & groups & Hs & Hg & -> & ->).
  exists ops, ps, groups. repeat split; [exact Hs|]. intros Hl. cbn. rewrite app_length, Nat2Z.inj_add, (rerolls_conservation v cap ps groups Hg) by (unfold cap; lia). lia.
Qed.
Print Assumptions C24_conservation.
Example C23_C24_example :
  let c := RList (Leaf (RInt 2), Leaf (RInt 6)) [(Leaf (RInt 1), Leaf (RInt 10))] (Some (Leaf 5)) in
  parse_command "2R6+1R10[5]" = Ok (command_tree c) /\
  run_command "DiceBot" (command_tree c) (FQueue [Die 5 6; Die 6 6; Die 7 10; Die 5 6; Die 1 6; Die 2 10; Die 4 6]) =
    (Ok (Result "DiceBot" ["(2R6+1R10[5])"; "5,6 + 7 + 5,1 + 2 + 4"]%string
      [Die 5 6; Die 6 6; Die 7 10; Die 5 6; Die 1 6; Die 2 10; Die 4 6] Unspecified false), FQueue []).
Proof. vconj. Qed.

(** * C25 *)
Lemma threshold_value_fun th t t' : threshold_value th t -> threshold_value th t' -> t = t'.
Proof.
  destruct th, t, t'; cbn; try tauto. intros H1 H2. apply has_value_mach in H1, H2. rewrite H1 in H2. injection H2 as <-. reflexivity.
Qed.
(** The threshold is missing or below 2 *)
Definition bad_threshold (th : option iexpr) : Prop := th = None \/ exists e v, th = Some e /\ has_value e v /\ v < 2.
(** The hint shown for it *)
Definition hint_shown (missing : string) (th : option iexpr) (h : string) : Prop :=
  (th = None /\ h = missing) \/ (exists e v, th = Some e /\ has_value e v /\ v < 2 /\ h = hint_small).
Lemma hint_of_bad missing th t : bad_threshold th -> threshold_value th t -> exists h, hint missing t = Some h /\ hint_shown missing th h.
Proof.
  intros [->|(e & v & -> & Hv & H2)] Ht.
  - destruct t; [contradiction|]. exists missing. split; [reflexivity|]. left. split; reflexivity.
  - assert (t = Some v) as -> by (apply (threshold_value_fun (Some e)); assumption). cbn. replace (v <? 2) with true by lia.
    exists hint_small. split; [reflexivity|]. right. exists e, v. repeat split; assumption.
Qed.
(** What a command that only shows a hint does: the two parts, no dice reported, only operand dice taken. *)
Definition only_hint (gid : string) (rs : list roll) (missing : string) (th : option iexpr) (f : feeder) (res : result) (f' : feeder) : Prop :=
  exists ops ps head h, draws f ops f' /\ settle_rolls rs ops ps /\ hint_shown missing th h /\
    res = Result gid [head; h] [] Unspecified false.

(** C25, R list: with a missing threshold or one below 2, success means the hint. *)
Theorem C25_r_list gid r rs th f res f' : Forall roll_ok (r :: rs) -> bad_threshold th ->
  run_command gid (command_tree (RList r rs th)) f = (Ok res, f') -> only_hint gid (r :: rs) hint_r th f res f'.
Proof.
  intros Hok Hb H. destruct (run_command_gives _ _ _ _ _ H) as (ds & Hd & Hg).
  apply (gives_rlist gid r rs th ds res Hok) in Hg as (ops & ps & t & Hs & Ht & Hg).
  destruct (hint_of_bad hint_r th t Hb Ht) as (h & Eh & Hsh). rewrite Eh in Hg. destruct Hg as (-> & ->).
  eexists ops, ps, _, h. repeat split; eassumption.
Qed.
Print Assumptions C25_r_list.
(** C25, R comparison: the target is the threshold if none is given. *)
Theorem C25_r_comp gid r rs th op t f res f' : Forall roll_ok (r :: rs) -> is_compare_op op ->
  bad_threshold (match th with Some e => Some e | None => Some t end) ->
  run_command gid (command_tree (RComp r rs th op t)) f = (Ok res, f') ->
  only_hint gid (r :: rs) hint_r (match th with Some e => Some e | None => Some t end) f res f'.
Proof.
  intros Hok Hop Hb H. destruct (run_command_gives _ _ _ _ _ H) as (ds & Hd & Hg).
  apply (gives_rcomp gid r rs th op t ds res Hok Hop) in Hg as (ops & ps & given & w & Hs & Ht & Hw & Hg). cbv zeta in Hg.
  set (v := match given with Some v => v | None => w end) in *.
  assert (threshold_value (match th with Some e => Some e | None => Some t end) (Some v)) as Hv.
  { destruct th, given; cbn in *; try contradiction; assumption. }
  destruct (hint_of_bad hint_r _ _ Hb Hv) as (h & Eh & Hsh). rewrite Eh in Hg. destruct Hg as (-> & ->).
  eexists ops, ps, _, h. repeat split; eassumption.
Qed.
Print Assumptions C25_r_comp.
(** C25, U expression *)
Theorem C25_u_expr gid r rs th b f res f' : Forall roll_ok (r :: rs) -> bonus_ok b -> bad_threshold th ->
  run_command gid (command_tree (UExpr r rs th b)) f = (Ok res, f') -> only_hint gid (r :: rs) hint_u th f res f'.
Proof.
  intros Hok Hbo Hb H. destruct (run_command_gives _ _ _ _ _ H) as (ds & Hd & Hg).
  apply (gives_uexpr gid r rs th b ds res Hok Hbo) in Hg as (ops & ps & t & m & Hs & Ht & Hm & Hg). cbv zeta in Hg.
  destruct (hint_of_bad hint_u th t Hb Ht) as (h & Eh & Hsh). rewrite Eh in Hg. destruct Hg as (-> & ->).
  eexists ops, ps, _, h. repeat split; eassumption.
Qed.
Print Assumptions C25_u_expr.
(** C25, U comparison (the target is no substitute for the threshold here) *)
Theorem C25_u_comp gid r rs th b op t f res f' : Forall roll_ok (r :: rs) -> bonus_ok b -> is_compare_op op -> bad_threshold th ->
  run_command gid (command_tree (UComp r rs th b op t)) f = (Ok res, f') -> only_hint gid (r :: rs) hint_u th f res f'.
Proof.
  intros Hok Hbo Hop Hb H. destruct (run_command_gives _ _ _ _ _ H) as (ds & Hd & Hg).
  apply (gives_ucomp gid r rs th b op t ds res Hok Hbo Hop) in Hg as (ops & ps & v & m & w & Hs & Ht & Hm & Hw & Hg). cbv zeta in Hg.
  destruct (hint_of_bad hint_u th v Hb Ht) as (h & Eh & Hsh). rewrite Eh in Hg. destruct Hg as (-> & ->).
  eexists ops, ps, _, h. repeat split; eassumption.
Qed.
Print Assumptions C25_u_comp.

Lemma yields_nil_run {A} (c : comp A) : forall l a, yields l c [] a -> forall f, run c (EState f l) = (Ok a, EState f l).
Proof.
  induction c as [x|e|p|n s k IH|k IH]; intros l a H f; cbn [yields] in H; try contradiction.
  - destruct H as (_ & ->). reflexivity.
  - destruct H as (d1 & d2 & E & (H1 & H2 & H3 & _) & _). symmetry in E. apply app_eq_nil in E as (-> & _). cbn in H3. lia.
  - cbn. apply IH. exact H.
Qed.
(** C25, success: if the operands need no dice, the command ends with the hint for every feeder, and leaves it alone. *)
Theorem C25_succeeds gid r rs th ps f : Forall roll_ok (r :: rs) -> settle_rolls (r :: rs) [] ps -> bad_threshold th ->
  exists head h, hint_shown hint_r th h /\
    run_command gid (command_tree (RList r rs th)) f = (Ok (Result gid [head; h] [] Unspecified false), f).
Proof.
  intros Hok Hs Hb.
  assert (exists t, threshold_value th t) as (t & Ht).
  { destruct Hb as [->|(e & v & -> & Hv & _)]; [exists None; exact I|exists (Some v); exact Hv]. }
  destruct (hint_of_bad hint_r th t Hb Ht) as (h & Eh & Hsh). eexists _, h. split; [exact Hsh|].
  assert (gives gid (command_tree (RList r rs th)) [] (Result gid [parenthesize (rolls_words "R" ps ++ threshold_word t); h] [] Unspecified false)) as Hg.
  { apply (gives_rlist gid r rs th _ _ Hok). exists [], ps, t. split; [exact Hs|]. split; [exact Ht|]. rewrite Eh. split; reflexivity. }
  apply gives_yields in Hg. unfold run_command. rewrite (yields_nil_run _ _ _ Hg f). reflexivity.
Qed.
Print Assumptions C25_succeeds.
Theorem C25_succeeds_u gid r rs th b ps m f : Forall roll_ok (r :: rs) -> bonus_ok b -> settle_rolls (r :: rs) [] ps ->
  bonus_value b m -> bad_threshold th ->
  exists head h, hint_shown hint_u th h /\
    run_command gid (command_tree (UExpr r rs th b)) f = (Ok (Result gid [head; h] [] Unspecified false), f).
Proof.
  intros Hok Hbo Hs Hm Hb.
  assert (exists t, threshold_value th t) as (t & Ht).
  { destruct Hb as [->|(e & v & -> & Hv & _)]; [exists None; exact I|exists (Some v); exact Hv]. }
  destruct (hint_of_bad hint_u th t Hb Ht) as (h & Eh & Hsh). eexists _, h. split; [exact Hsh|].
  assert (gives gid (command_tree (UExpr r rs th b)) [] (Result gid [parenthesize (rolls_words "U" ps ++ threshold_word t ++ bonus_word m); h] [] Unspecified false)) as Hg.
  { apply (gives_uexpr gid r rs th b _ _ Hok Hbo). exists [], ps, t, m. split; [exact Hs|]. split; [exact Ht|]. split; [exact Hm|]. cbv zeta. rewrite Eh. split; reflexivity. }
  apply gives_yields in Hg. unfold run_command. rewrite (yields_nil_run _ _ _ Hg f). reflexivity.
Qed.
Print Assumptions C25_succeeds_u.
Example C25_example :
  parse_command "2R6" = Ok (command_tree (RList (Leaf (RInt 2), Leaf (RInt 6)) [] None)) /\
  run_command "DiceBot" (command_tree (RList (Leaf (RInt 2), Leaf (RInt 6)) [] None)) (FQueue [Die 1 6; Die 2 6]) =
    (Ok (Result "DiceBot" ["(2R6)"%string; hint_r] [] Unspecified false), FQueue [Die 1 6; Die 2 6]) /\
  run_command "DiceBot" (command_tree (UComp (Leaf (RInt 2), Leaf (RInt 6)) [] (Some (Bin Minus (Leaf 3) (Leaf 2))) None ">=" (Leaf 9))) (FQueue [Die 1 6]) =
    (Ok (Result "DiceBot" ["(2U6[1]>=9)"%string; hint_small] [] Unspecified false), FQueue [Die 1 6]).
Proof. vconj. Qed.

(** * C26 *)
(** C26: R comparison. The re-roll threshold is the one given, or else the target; the successes are counted over all
    groups including re-rolls. *)
Theorem C26_r_comparison gid r rs th op t v w ds res : Forall roll_ok (r :: rs) -> is_compare_op op ->
  has_value t w -> match th with Some e => has_value e v | None => v = w end -> v >= 2 ->
  (gives gid (command_tree (RComp r rs th op t)) ds res <->
   exists ops ps groups,
     settle_rolls (r :: rs) ops ps /\ rerolls v cap ps groups /\ ds = ops ++ concat groups /\
     res = Result gid [parenthesize (rolls_words "R" ps ++ ("[" ++ itoa v ++ "]") ++ op ++ itoa w); join " + " (map values_word groups);
                       ("成功数" ++ itoa (matching op w (values (concat groups))))%string] ds Unspecified false).
Proof.
  intros Hok Hop Hw Hv H2. rewrite (gives_rcomp gid r rs th op t ds res Hok Hop). split.
  - intros (ops & ps & given & w' & Hs & Ht & Hw' & H). cbv zeta in H.
    assert (w' = w) as -> by (apply has_value_mach in Hw, Hw'; congruence).
    assert (match given with Some v => v | None => w end = v) as E.
    { destruct th, given; cbn in Ht; try contradiction; [apply has_value_mach in Ht, Hv; congruence|congruence]. }
    rewrite E in H. cbn [hint] in H. replace (v <? 2) with false in H by lia. destruct H as (groups & Hg & -> & ->).
    exists ops, ps, groups. repeat split; assumption.
  - intros (ops & ps & groups & Hs & Hg & -> & ->). exists ops, ps, (match th with Some _ => Some v | None => None end), w.
    split; [exact Hs|]. split; [destruct th; [exact Hv|exact I]|]. split; [exact Hw|]. cbv zeta.
    assert (match (match th with Some _ => Some v | None => None end) with Some v => v | None => w end = v) as -> by (destruct th; congruence).
    cbn [hint]. replace (v <? 2) with false by lia. exists groups. repeat split; assumption.
Qed.
Print Assumptions C26_r_comparison.
(** C24 for comparisons: likewise, with the target as threshold if none is given *)
Theorem C24_conservation_comparison gid r rs th op t v w ds res : Forall roll_ok (r :: rs) -> is_compare_op op -> has_value t w -> match th with Some e => has_value e v | None => v = w end -> v >= 2 ->
  gives gid (command_tree (RComp r rs th op t)) ds res ->
  exists ops ps groups, settle_rolls (r :: rs) ops ps /\ r_dice res = ops ++ concat groups /\ nth_error (r_parts res) 1 = Some (join " + " (map values_word groups)) /\
    (Z.of_nat (length groups) < 10000 -> Z.of_nat (length (r_dice res)) = Z.of_nat (length ops) + fold_right Z.add 0 (map fst ps) + at_least v (concat groups)).
Proof.
  intros Hok Hop Hw Hv H2 H. apply (C26_r_comparison gid r rs th op t v w ds res Hok Hop Hw Hv H2) in H as (ops & ps & groups & Hs & Hg & -> & ->).
  exists ops, ps, groups. repeat split; [exact Hs|]. intros Hl. cbn. rewrite app_length, Nat2Z.inj_add, (rerolls_conservation v cap ps groups Hg) by (unfold cap; lia). lia.
Qed.
Print Assumptions C24_conservation_comparison.
Example C26_example :
  let c := RComp (Leaf (RInt 2), Leaf (RInt 6)) [] None ">=" (Leaf 5) in
  parse_command "2R6>=5" = Ok (command_tree c) /\
  run_command "DiceBot" (command_tree c) (FQueue [Die 5 6; Die 3 6; Die 6 6; Die 2 6]) =
    (Ok (Result "DiceBot" ["(2R6[5]>=5)"; "5,3 + 6 + 2"; "成功数2"]%string [Die 5 6; Die 3 6; Die 6 6; Die 2 6] Unspecified false), FQueue []).
Proof. vconj. Qed.

(** * C27, C28 *)
(** C27, C28: a U expression with threshold v >= 2: one exploding chain per die, group by group; the parts show the
    group sums, and the maximum group sum and the total, each plus the bonus. *)
Theorem C27_u_expr_exact gid r rs th b v ds res : Forall roll_ok (r :: rs) -> bonus_ok b -> has_value th v -> v >= 2 ->
  (gives gid (command_tree (UExpr r rs (Some th) b)) ds res <->
   exists ops ps m groups s3,
     settle_rolls (r :: rs) ops ps /\ bonus_value b m /\ chains_each v cap ps groups /\ ds = ops ++ concat (concat groups) /\
     max_and_total (concat groups) m s3 /\
     res = Result gid [parenthesize (rolls_words "U" ps ++ ("[" ++ itoa v ++ "]") ++ bonus_word m);
                       (join "," (map group_word (concat groups)) ++ modifier_word m)%string; s3] ds Unspecified false).
Proof.
  intros Hok Hb Hv H2. rewrite (gives_uexpr gid r rs (Some th) b ds res Hok Hb). split.
  - intros (ops & ps & t & m & Hs & Ht & Hm & H). destruct t as [v'|]; [|contradiction]. cbn in Ht.
    assert (v' = v) as -> by (apply has_value_mach in Hv, Ht; congruence). cbv zeta in H. cbn [hint] in H. replace (v <? 2) with false in H by lia.
    destruct H as (groups & s3 & Hg & -> & H3 & ->). exists ops, ps, m, groups, s3. repeat split; assumption.
  - intros (ops & ps & m & groups & s3 & Hs & Hm & Hg & -> & H3 & ->). exists ops, ps, (Some v), m. split; [exact Hs|]. split; [exact Hv|]. split; [exact Hm|].
    cbv zeta. cbn [hint]. replace (v <? 2) with false by lia. exists groups, s3. repeat split; assumption.
Qed.
Print Assumptions C27_u_expr_exact.
Lemma chains_number t n ps groups : chains_each t n ps groups ->
  Z.of_nat (length (concat groups)) = fold_right Z.add 0 (map fst ps).
Proof.
  induction 1 as [|p g ps gs (H1 & H2 & H3 & H4) _ IH]; [reflexivity|]. cbn [concat map fold_right]. rewrite app_length. lia.
Qed.
(** C27: as many groups are shown as the sum of the counts. *)
Theorem C27_number_of_groups gid r rs th b v ds res : Forall roll_ok (r :: rs) -> bonus_ok b -> has_value th v -> v >= 2 -> gives gid (command_tree (UExpr r rs (Some th) b)) ds res ->
  exists ops ps m groups, settle_rolls (r :: rs) ops ps /\ bonus_value b m /\ ds = ops ++ concat groups /\
    nth_error (r_parts res) 1 = Some (join "," (map group_word groups) ++ modifier_word m)%string /\ Z.of_nat (length groups) = fold_right Z.add 0 (map fst ps).
Proof.
  intros Hok Hb Hv H2 H. apply (C27_u_expr_exact gid r rs th b v ds res Hok Hb Hv H2) in H as (ops & ps & m & groups & s3 & Hs & Hm & Hg & -> & _ & ->).
  exists ops, ps, m, (concat groups). repeat split; [exact Hs|exact Hm|apply (chains_number _ _ _ _ Hg)].
Qed.
Print Assumptions C27_number_of_groups.
Lemma max_and_total_text groups m s : max_and_total groups m s ->
  Forall (fun g => in_int64 (total_of g)) groups ->
  (forall g, In g groups -> in_int64 (total_of g + m)) -> in_int64 (total_of (concat groups) + m) ->
  exists g, In g groups /\ (forall g', In g' groups -> total_of g' <= total_of g) /\
    s = (itoa (total_of g + m) ++ "/" ++ itoa (total_of (concat groups) + m) ++ " (最大/合計)")%string.
Proof.
  intros (mx & (Hin & Hmax) & ->) Hg Hm Ht. apply in_map_iff in Hin as (g & Eg & Hin).
  assert (forall g, In g groups -> group_sum g = total_of g) as Hsum.
  { intros g' Hg'. apply wrap64_id. rewrite Forall_forall in Hg. apply Hg, Hg'. }
  exists g. split; [exact Hin|]. split.
  - intros g' Hg'. rewrite <- !Hsum by assumption. rewrite Eg. apply Hmax. apply in_map. exact Hg'.
  - rewrite <- Eg, (Hsum g Hin), (wrap64_id (total_of g + m)), (wrap64_id (total_of (concat groups) + m)) by (first [assumption | apply Hm; assumption]). reflexivity.
Qed.
(** C28: executing a U expression: the dice after those of the operands fall into chains, one group each; without overflow the
    last part of the reply is literally: max of the group totals + bonus / total of all values + bonus. *)
Theorem C28_max_and_total gid r rs th b v ds res : Forall roll_ok (r :: rs) -> bonus_ok b -> has_value th v -> v >= 2 ->
  gives gid (command_tree (UExpr r rs (Some th) b)) ds res ->
  exists ops ps m chains, let groups := concat chains in
    settle_rolls (r :: rs) ops ps /\ bonus_value b m /\ chains_each v cap ps chains /\ ds = ops ++ concat groups /\
    (Forall (fun g => in_int64 (total_of g)) groups -> (forall g, In g groups -> in_int64 (total_of g + m)) -> in_int64 (total_of (concat groups) + m) ->
     exists g, In g groups /\ (forall g', In g' groups -> total_of g' <= total_of g) /\
       nth_error (r_parts res) 2 = Some (itoa (total_of g + m) ++ "/" ++ itoa (total_of (concat groups) + m) ++ " (最大/合計)")%string).
Proof.
  intros Hok Hb Hv H2 H. apply (C27_u_expr_exact gid r rs th b v ds res Hok Hb Hv H2) in H as (ops & ps & m & groups & s3 & Hs & Hm & Hg & Hd & H3 & ->).
  exists ops, ps, m, groups. repeat (split; [assumption|]). intros G1 G2 G3. destruct (max_and_total_text _ _ _ H3 G1 G2 G3) as (g & Hin & Hmax & ->). exists g. auto.
Qed.
Print Assumptions C28_max_and_total.
Example C27_C28_example :
  let c := UExpr (Leaf (RInt 2), Leaf (RInt 6)) [(Leaf (RInt 1), Leaf (RInt 10))] (Some (Leaf 5)) (Some (false, Leaf 1)) in
  parse_command "2U6+1U10[5]-1" = Ok (command_tree c) /\
  run_command "DiceBot" (command_tree c) (FQueue [Die 5 6; Die 6 6; Die 1 6; Die 4 6; Die 8 10; Die 3 10]) =
    (Ok (Result "DiceBot" ["(2U6+1U10[5]-1)"; "12[5,6,1],4,11[8,3]-1"; "11/26 (最大/合計)"]%string
      [Die 5 6; Die 6 6; Die 1 6; Die 4 6; Die 8 10; Die 3 10] Unspecified false), FQueue []).
Proof. vconj. Qed.

(** * C29 *)
(** C29: U comparison: the success count is the number of groups whose sum plus bonus satisfies op target. *)
Theorem C29_u_comparison gid r rs th b op t v w ds res :
  Forall roll_ok (r :: rs) -> bonus_ok b -> is_compare_op op -> has_value th v -> v >= 2 -> has_value t w ->
  (gives gid (command_tree (UComp r rs (Some th) b op t)) ds res <->
   exists ops ps m groups,
     settle_rolls (r :: rs) ops ps /\ bonus_value b m /\ chains_each v cap ps groups /\ ds = ops ++ concat (concat groups) /\
     res = Result gid [parenthesize (rolls_words "U" ps ++ ("[" ++ itoa v ++ "]") ++ bonus_word m ++ op ++ itoa w);
                       (join "," (map group_word (concat groups)) ++ modifier_word m)%string;
                       ("成功数" ++ itoa (matching op w (map (fun g => wrap64 (total_of g + m)) (concat groups))))%string] ds Unspecified false).
Proof.
  intros Hok Hb Hop Hv H2 Hw. rewrite (gives_ucomp gid r rs (Some th) b op t ds res Hok Hb Hop).
  assert (forall m groups, group_hits op w m groups = matching op w (map (fun g => wrap64 (total_of g + m)) groups)) as Eh.
  { intros. unfold group_hits. f_equal. apply map_ext. intros g. unfold group_sum. apply wrap64_add_l. }
  split.
  - intros (ops & ps & t' & m & w' & Hs & Ht & Hm & Hw' & H). destruct t' as [v'|]; [|contradiction]. cbn in Ht.
    assert (v' = v) as -> by (apply has_value_mach in Hv, Ht; congruence). assert (w' = w) as -> by (apply has_value_mach in Hw, Hw'; congruence).
    cbv zeta in H. cbn [hint] in H. replace (v <? 2) with false in H by lia.
    destruct H as (groups & Hg & -> & ->). exists ops, ps, m, groups. rewrite Eh. repeat split; assumption.
  - intros (ops & ps & m & groups & Hs & Hm & Hg & -> & ->). exists ops, ps, (Some v), m, w. split; [exact Hs|]. split; [exact Hv|]. split; [exact Hm|]. split; [exact Hw|].
    cbv zeta. cbn [hint]. replace (v <? 2) with false by lia. exists groups. rewrite Eh. repeat split; assumption.
Qed.
Print Assumptions C29_u_comparison.
Example C29_example :
  let c := UComp (Leaf (RInt 3), Leaf (RInt 6)) [] (Some (Leaf 6)) (Some (true, Leaf 2)) ">=" (Leaf 7) in
  parse_command "3U6[6]+2>=7" = Ok (command_tree c) /\
  run_command "DiceBot" (command_tree c) (FQueue [Die 5 6; Die 6 6; Die 1 6; Die 4 6]) =
    (Ok (Result "DiceBot" ["(3U6[6]+2>=7)"; "5,7[6,1],4+2"; "成功数2"]%string [Die 5 6; Die 6 6; Die 1 6; Die 4 6] Unspecified false), FQueue []).
Proof. vconj. Qed.

(** * C30 *)
(** C30: operand evaluation replaces the bonus by +m, -|m| or nothing, m its value; evaluating the new bonus yields m
    again and touches no dice; all dice taken meanwhile are for the operands of the rolls. *)
Theorem C30_bonus_settled mr r rs th b s n' s' : Forall roll_ok (r :: rs) -> bonus_ok b ->
  run (eval_var_args mr (command_tree (UExpr r rs th b))) s = (Ok n', s') ->
  exists ops ps m rolls' th' b',
    draws (es_feeder s) ops (es_feeder s') /\ settle_rolls (r :: rs) ops ps /\ bonus_value b m /\
    n' = NURollExpr rolls' th' b' /\
    (m = 0 -> b' = None) /\ (m > 0 -> b' = Some (Bonus OpAdd (NInt 0) (NInt m))) /\
    (min_int < m < 0 -> b' = Some (Bonus OpSub (NInt 0) (NInt (- m)))) /\
    match b' with
    | None => m = 0
    | Some (Bonus op l r) => forall s, run (eval mr (NInfix op l r)) s = (Ok (OInt m), s)
    end.
Proof.
  intros Hok Hb H. apply run_any_yields in H as (ds & Hy & _ & Hd).
  apply (yields_va_uexpr _ mr (r :: rs) th b _ _ Hok Hb) in Hy as (ps & t & m & Hs & Ht & Hm & ->).
  pose proof (bonus_value_range _ _ Hb Hm) as Rm.
  exists ds, ps, m, (map (lit_roll KU) ps), (opt_node t), (lit_bonus m).
  split; [exact Hd|]. split; [exact Hs|]. split; [exact Hm|]. split; [reflexivity|]. unfold lit_bonus.
  split; [intros ->; reflexivity|]. split; [intros; replace (m =? 0) with false by lia; replace (0 <? m) with true by lia; reflexivity|].
  split; [intros; replace (m =? 0) with false by lia; replace (0 <? m) with false by lia; rewrite wrap64_id; [reflexivity|unfold in_int64, min_int, max_int in *; lia]|].
  pose proof (eval_lit_bonus mr m Rm) as E. unfold lit_bonus in E. destruct (m =? 0) eqn:E0; [lia|].
  destruct (0 <? m) eqn:E1; intros s0; cbn in *; injection E as E; rewrite E; reflexivity.
Qed.
Print Assumptions C30_bonus_settled.
(** The corner left out above: for the bonus -2^63 the printed magnitude is itself negative. *)
Example C30_example :
  let c := UExpr (Leaf (RInt 1), Leaf (RInt 6)) [] (Some (Leaf 6)) (Some (false, Bin Minus (Leaf 1) (Leaf 4))) in
  parse_command "1U6[6]-(1-4)" = Ok (command_tree c) /\
  fst (run_command "DiceBot" (command_tree c) (FQueue [Die 5 6])) =
    Ok (Result "DiceBot" ["(1U6[6]+3)"; "5+3"; "8/8 (最大/合計)"]%string [Die 5 6] Unspecified false).
Proof. vconj. Qed.

(** * C31 *)
(** C31: CHOICE takes one die with as many sides as items; a legal die d selects the d-th item. *)
Theorem C31_choice_selects gid items f res f' : Z.of_nat (length items) <= max_int ->
  run_command gid (command_tree (Choose items)) f = (Ok res, f') ->
  exists d, draws f [d] f' /\ r_dice res = [d] /\ die_sides d = Z.of_nat (length items) /\
    (legal d -> exists item, nth_error items (Z.to_nat (die_value d - 1)) = Some item /\
      res = Result gid [parenthesize ("CHOICE[" ++ join "," items ++ "]"); item] [d] Unspecified false).
Proof.
  intros Hn H. destruct (run_command_gives _ _ _ _ _ H) as (ds & Hd & Hg).
  apply gives_choose in Hg as (d & item & -> & Hs & Hne & H0 & En & ->). exists d. split; [exact Hd|]. split; [reflexivity|]. split; [exact Hs|].
  intros (H1 & H2). rewrite wrap64_id in En by (unfold in_int64, min_int, two63; lia). exists item. split; [exact En|reflexivity].
Qed.
Print Assumptions C31_choice_selects.
(** C31, conversely: every legal die of that size gives an answer, and every item is the answer of some legal die. *)
Theorem C31_every_legal_die gid items d : Z.of_nat (length items) <= max_int -> legal d -> die_sides d = Z.of_nat (length items) ->
  exists item, nth_error items (Z.to_nat (die_value d - 1)) = Some item /\
    gives gid (command_tree (Choose items)) [d] (Result gid [parenthesize ("CHOICE[" ++ join "," items ++ "]"); item] [d] Unspecified false).
Proof.
  intros Hn (H1 & H2) Hs. destruct (nth_error items (Z.to_nat (die_value d - 1))) as [item|] eqn:En.
  - exists item. split; [reflexivity|]. apply gives_choose. exists d, item. rewrite wrap64_id by (unfold in_int64, min_int, two63; lia).
    repeat split; try assumption; [|lia]. intros ->. cbn in Hs. lia.
  - apply nth_error_None in En. lia.
Qed.
Print Assumptions C31_every_legal_die.
Theorem C31_every_item gid items item : Z.of_nat (length items) <= max_int -> In item items ->
  exists d, legal d /\
    gives gid (command_tree (Choose items)) [d] (Result gid [parenthesize ("CHOICE[" ++ join "," items ++ "]"); item] [d] Unspecified false).
Proof.
  intros Hn Hin. apply In_nth_error in Hin as (k & Hk).
  assert (k < length items)%nat as Hlt by (apply nth_error_Some; rewrite Hk; discriminate).
  set (d := Die (Z.of_nat k + 1) (Z.of_nat (length items))). assert (legal d) as Hl by (unfold legal, d; cbn; lia).
  exists d. split; [exact Hl|]. destruct (C31_every_legal_die gid items d Hn Hl eq_refl) as (item' & En & Hg).
  assert (Z.to_nat (die_value d - 1) = k) as Ek by (unfold d; cbn [die_value]; lia). rewrite Ek, Hk in En. injection En as <-. exact Hg.
Qed.
Print Assumptions C31_every_item.
Example C31_example :
  parse_command "choice[ab, c d ,e]" = Ok (command_tree (Choose ["ab"; "c d"; "e"]%string)) /\
  run_command "DiceBot" (command_tree (Choose ["ab"; "c d"; "e"]%string)) (FQueue [Die 2 3; Die 1 6]) =
    (Ok (Result "DiceBot" ["(CHOICE[ab,c d,e])"; "c d"]%string [Die 2 3] Unspecified false), FQueue [Die 1 6]).
Proof. vconj. Qed.

(** * C32 *)
(** C32: with legal dice the only possible panic is that of an allocation too large, and it takes a roll whose count can exceed 2^44. *)
Theorem C32_only_alloc_panics gid c f p f' : command_ok c -> countable c ->
  (exists q, f = FQueue q /\ Forall legal q) \/ (exists intn k, f = FRandom intn k /\ intn_contract intn) ->
  run_command gid (command_tree c) f = (Panic p, f') ->
  p = "makeslice: cap out of range"%string /\ exists r, In r (rolls_of c) /\ huge_count r.
Proof.
  intros Hok Hc Hf H. unfold run_command in H.
  destruct (run (execute default_max_rerolls gid (command_tree c)) (EState f [])) as [o s'] eqn:E. injection H as -> _.
  assert (feeds legal f) as Hfeed.
  { destruct Hf as [(q & -> & Hq)|(intn & k & -> & Hi)]; [constructor; exact Hq|apply feeds_legal_random; exact Hi]. }
  set (Q := fun p => p = alloc_panic /\ exists r, In r (rolls_of c) /\ huge_count r).
  assert (Forall (calm_roll legal Q) (rolls_of c)) as Hcalm.
  { apply Forall_forall. intros r Hr ops x Hl Hv. destruct (Z_le_gt_dec x max_alloc_16) as [Hx|Hx]; [left; exact Hx|right].
    split; [reflexivity|]. exists r. split; [exact Hr|]. exists ops, x. split; [exact Hl|]. split; [exact Hv|exact Hx]. }
  exact (wp_run legal Q _ _ (wp_execute legal Q (fun d H => H) gid c Hok Hc Hcalm) (EState f []) _ _ Hfeed E).
Qed.
Print Assumptions C32_only_alloc_panics.
(** C32: that panic comes from a count above the limit (here: RollDice itself), never otherwise. *)
Theorem C32_alloc_limit num sides f f' p : roll_dice num sides f = (Panic p, f') -> num > max_alloc_16.
Proof.
  intros H. destruct (Z_le_gt_dec num max_alloc_16) as [Hl|Hg]; [|exact Hg]. exfalso. eapply roll_dice_no_panic; eassumption.
Qed.
Print Assumptions C32_alloc_limit.
(** C32: commands do crash: CHOICE with an illegal queued die, and a huge count. *)
Theorem C32_crashes_refuted :
  (exists n q p, parse_command "choice[a,b]" = Ok n /\ fst (run_command "DiceBot" n (FQueue q)) = Panic p) /\
  (exists n p, parse_command "9000000000000000000D6" = Ok n /\ forall q, fst (run_command "DiceBot" n (FQueue q)) = Panic p).
Proof.
  split.
  - exists (command_tree (Choose ["a"; "b"]%string)), [Die 3 2]. eexists. vconj.
  - eexists (command_tree (DExpr (Leaf (DDice (Leaf (RInt 9000000000000000000)) (Leaf (RInt 6)))))), _.
    split; [vmc|]. intros q. vm_compute. reflexivity.
Qed.
Print Assumptions C32_crashes_refuted.

(** * C36 *)
(** C36: the notation of every well-formed command exists (parsed commands are well-formed: C38). *)
Theorem C36_command_notation c w : exists s, infix_notation (command_tree c) w = Ok s.
Proof. apply notates_command_tree. Qed.
Print Assumptions C36_command_notation.
(** C36: and so does that of the command after operand evaluation, *)
Theorem C36_after_operands mr c s n' s' : mr = default_max_rerolls ->
  run (eval_var_args mr (command_tree c)) s = (Ok n', s') -> forall w, exists t, infix_notation n' w = Ok t.
Proof.
  intros -> H.
  assert (wp (fun _ => True) (fun _ => True) (eval_var_args default_max_rerolls (command_tree c)) notates) as Hw.
  { assert (forall rs, Forall (fine_roll (fun _ => True)) rs) as Hf by (intros; apply Forall_forall; intros; left; exact I).
    assert (forall rs, Forall (calm_roll (fun _ => True) (fun _ => True)) rs) as Hc by (intros; apply Forall_forall; intros ? ? ? ? ? ?; right; exact I).
    destruct c as [e|e|e op t|r rs|r rs op t|r rs th|r rs th op t|r rs th b|r rs th b op t|items]; cbn [command_tree].
    - rewrite eval_var_args_command, va_child_itree. apply notates_command, notates_itree.
    - rewrite eval_var_args_command. eapply wp_bind_with; [apply wp_va_dtree|]. intros n (_ & mid & ->). apply notates_command, notates_mtree.
    - rewrite eval_var_args_command. eapply wp_bind_with with (R := notates); [|intros a Ha; apply notates_command, Ha].
      eapply wp_mono; [apply wp_va_cmp with (P := notates)|].
      + eapply wp_mono; [apply wp_va_top|]. intros n [(_ & mid & ->)|[(lo & hi & ->)|(a & b & -> & _)]]; [apply notates_mtree|apply notates_var; apply notates_itree|apply notates_var; apply notates_rtree].
      + intros n (m & w & Hm & ->). apply notates_cmp; [exact Hm|apply notates_int].
    - eapply wp_mono; [apply (wp_va_b _ _ (r :: rs) (Hf _) (Hc _))|]. intros n Hn w. eapply ok_b, Hn.
    - rewrite eval_var_args_command. eapply wp_bind_with with (R := notates); [|intros a Ha; apply notates_command, Ha].
      eapply wp_mono; [apply wp_va_cmp, (wp_va_b _ _ (r :: rs) (Hf _) (Hc _))|]. intros n (m & w & Hm & ->). apply notates_cmp; [intros w'; eapply ok_b, Hm|apply notates_int].
    - eapply wp_mono; [apply (wp_va_r _ _ (r :: rs) th (Hf _) (Hc _))|]. intros n Hn w. eapply ok_r, Hn.
    - rewrite eval_var_args_command. eapply wp_bind_with with (R := notates); [|intros a Ha; apply notates_command, Ha].
      eapply wp_mono; [apply wp_va_cmp, (wp_va_r _ _ (r :: rs) th (Hf _) (Hc _))|]. intros n (m & w & Hm & ->). apply notates_cmp; [intros w'; eapply ok_r, Hm|apply notates_int].
    - eapply wp_mono; [apply (wp_va_u _ _ r rs th b (Hf _) (Hc _))|]. intros n Hn w. eapply ok_u, Hn.
    - rewrite eval_var_args_command. eapply wp_bind_with with (R := notates); [|intros a Ha; apply notates_command, Ha].
      eapply wp_mono; [apply wp_va_cmp, (wp_va_u _ _ r rs th b (Hf _) (Hc _))|]. intros n (m & w & Hm & ->). apply notates_cmp; [intros w'; eapply ok_u, Hm|apply notates_int].
    - exact I. }
  pose proof (wp_run _ _ _ _ Hw s _ _ (feeds_all _) H) as Hn. exact Hn.
Qed.
Print Assumptions C36_after_operands.
(** C36: and, for D expressions, after value determination. *)
Theorem C36_after_values mr e s n1 s1 n2 s2 : dok e ->
  run (eval_var_args mr (command_tree (DExpr e))) s = (Ok n1, s1) -> run (determine_values n1) s1 = (Ok n2, s2) ->
  forall w, exists t, infix_notation n2 w = Ok t.
Proof.
  intros Hok H1 H2. apply run_any_yields in H1 as (d1 & Hy1 & _). apply run_any_yields in H2 as (d2 & Hy2 & _).
  cbn [command_tree] in Hy1. rewrite eval_var_args_command in Hy1. apply yields_bind_ret in Hy1 as (m & Hy1 & ->).
  apply (yields_va_dtree mr e Hok) in Hy1 as (mid & _ & ->).
  rewrite determine_command in Hy2. apply yields_bind_ret in Hy2 as (m & Hy2 & ->). apply yields_dv in Hy2 as (fin & _ & ->).
  apply notates_command, notates_stree.
Qed.
Print Assumptions C36_after_values.
