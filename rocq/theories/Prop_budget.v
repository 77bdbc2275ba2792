(** Property C73: how many dice a command takes. *)
From Verif Require Import Grammar ProofBase Dice SpecDice DiceProofs Comp CompProofs Ast Eval Notation Command
  SpecSyntax ArithProofs SpecRoll SpecLists SpecCounts YieldsProofs DRollProofs ListProofs RerollProofs ExplodeProofs WpProofs WpCommand SpecBudget Takes CommandProofs BCDice BCDiceProofs ParseFacts ExecProofs Prop_droll Prop_lists Prop_exec Prop_exec2.
Open Scope list_scope.
Open Scope Z_scope.

Definition sum_counts (ps : list (Z * Z)) : Z := fold_right Z.add 0 (map fst ps).
Lemma sum_counts_app a b : sum_counts (a ++ b) = sum_counts a + sum_counts b.
Proof. unfold sum_counts. induction a as [|p a IH]; cbn in *; lia. Qed.
Lemma settle_rolls_app rs1 : forall rs2 d1 d2 p1 p2, settle_rolls rs1 d1 p1 -> settle_rolls rs2 d2 p2 -> settle_rolls (rs1 ++ rs2) (d1 ++ d2) (p1 ++ p2).
Proof.
  intros rs2 d1 d2 p1 p2 H H2. induction H; [exact H2|]. cbn [app]. rewrite <- !app_assoc. constructor; assumption.
Qed.
Fixpoint mid_counts (e : ae mleaf) : list (Z * Z) :=
  match e with Leaf (MDice x y) => [(x, y)] | Leaf _ => [] | Neg e => mid_counts e | Bin _ a b => mid_counts a ++ mid_counts b end.
Lemma settle_mid e ops mid : visit settle_operands e ops mid -> settle_rolls (d_rolls e) ops (mid_counts mid).
Proof.
  induction 1 as [l ds m H|e ds e' _ IH|op a b d1 d2 a' b' _ IH1 _ IH2]; cbn [d_rolls mid_counts]; [|exact IH|apply settle_rolls_app; assumption].
  destruct l as [v|lo hi|n s], m as [w|x y]; cbn in H; try contradiction.
  - destruct H as (-> & _). constructor.
  - destruct H as (d1 & d2 & -> & H1 & H2). rewrite <- (app_nil_r d2). constructor; [exact H1|exact H2|constructor].
Qed.
Lemma mid_rolled mid ds fin : visit roll_leaf mid ds fin -> Z.of_nat (length ds) = sum_counts (mid_counts mid).
Proof.
  induction 1 as [m ds s H|e ds e' _ IH|op a b d1 d2 a' b' _ IH1 _ IH2]; cbn [mid_counts]; [|exact IH|rewrite app_length, sum_counts_app; lia].
  destruct m as [v|x y], s as [w|g]; cbn in H; try contradiction.
  - destruct H as (-> & _). reflexivity.
  - destruct H as (_ & _ & _ & H & _). unfold sum_counts. cbn. lia.
Qed.

(** * C73 *)
(** C73, additive and basic rolls: one die for each random number in an operand, and as many as the counts add up to. *)
Theorem C73_exact gid c f res f' : command_ok c ->
  match c with DExpr _ | DComp _ _ _ | BList _ _ | BComp _ _ _ _ => True | _ => False end ->
  run_command gid (command_tree c) f = (Ok res, f') ->
  exists ops ps ds, settle_rolls (rolls_of c) ops ps /\ draws f ds f' /\ Z.of_nat (length ds) = Z.of_nat (length ops) + sum_counts ps.
Proof.
  intros Hok Hc H. destruct (run_command_gives _ _ _ _ _ H) as (ds & Hd & Hg).
  destruct c as [e|e|e op t|r rs|r rs op t|r rs th|r rs th op t|r rs th b|r rs th b op t|items]; try contradiction; cbn [rolls_of].
  - apply (gives_d_expr gid e ds res Hok) in Hg as (ops & rolls & mid & fin & v & s1 & s2 & -> & (V1 & V2 & _) & _).
    exists ops, (mid_counts mid), (ops ++ rolls). split; [exact (settle_mid _ _ _ V1)|]. split; [exact Hd|]. rewrite app_length, <- (mid_rolled _ _ _ V2). lia.
  - destruct Hok as (Ho & Hop & Ht). apply (gives_d_comp gid e op t ds res Ho Ht Hop) in Hg as (_ & ops & rolls & mid & fin & v & w & s1 & s2 & -> & (V1 & V2 & _) & _).
    exists ops, (mid_counts mid), (ops ++ rolls). split; [exact (settle_mid _ _ _ V1)|]. split; [exact Hd|]. rewrite app_length, <- (mid_rolled _ _ _ V2). lia.
  - apply (gives_blist gid r rs ds res Hok) in Hg as (ops & ps & groups & Hs & Hr & -> & _). exists ops, ps, (ops ++ concat groups). split; [exact Hs|]. split; [exact Hd|].
    rewrite app_length, Nat2Z.inj_add, (rolled_each_number _ _ Hr). reflexivity.
  - destruct Hok as (Ho & Hop & Ht). apply (gives_bcomp gid r rs op t ds res Ho Hop) in Hg as (ops & ps & groups & w & Hs & Hr & -> & _). exists ops, ps, (ops ++ concat groups). split; [exact Hs|]. split; [exact Hd|].
    rewrite app_length, Nat2Z.inj_add, (rolled_each_number _ _ Hr). reflexivity.
Qed.
Print Assumptions C73_exact.

Lemma rerolls_bound t n ps groups : rerolls t n ps groups -> forall m, 0 <= m -> Forall (fun p => fst p <= m) ps -> Z.of_nat (length (concat groups)) <= Z.of_nat n * m.
Proof.
  induction 1 as [q|n|n x y q g gs Hr Ha H IH|n x y q g gs Hr Ha H IH]; intros m Hm Hq; try (cbn; nia).
  - inversion_clear Hq as [|? ? Hx Hq']. cbn [fst] in Hx. destruct Hr as (_ & _ & Hl & _). specialize (IH m Hm Hq'). cbn [concat]. rewrite app_length. lia.
  - inversion_clear Hq as [|? ? Hx Hq']. cbn [fst] in Hx. destruct Hr as (_ & _ & Hl & _).
    assert (at_least t g <= m) as Hk.
    { unfold at_least. pose proof (filter_length_le (fun v => t <=? v) (values g)) as Hf. unfold values in Hf at 2. rewrite map_length in Hf. lia. }
    specialize (IH m Hm). rewrite Forall_app in IH. assert (Z.of_nat (length (concat gs)) <= Z.of_nat n * m) as IH' by (apply IH; split; [exact Hq'|constructor; [exact Hk|constructor]]). clear IH. cbn [concat]. rewrite app_length. lia.
Qed.
Lemma chains_bound t n ps groups : chains_each t n ps groups ->
  sum_counts ps <= Z.of_nat (length (concat (concat groups))) <= Z.of_nat n * sum_counts ps.
Proof.
  induction 1 as [|p g ps gs (H1 & H2 & H3 & H4) _ IH]; [cbn; lia|]. unfold sum_counts in *. cbn [concat map fold_right]. rewrite concat_app, app_length.
  assert (Z.of_nat (length g) <= Z.of_nat (length (concat g)) <= Z.of_nat n * Z.of_nat (length g)) as Hg.
  { clear - H4. induction H4 as [|x l (_ & init & last & -> & _ & Hn & _) _ IH]; [cbn; lia|]. cbn [concat length]. rewrite app_length. set (k := length (init ++ [last])) in *. assert (1 <= k)%nat by (unfold k; rewrite app_length; cbn [length]; lia). nia. }
  nia.
Qed.
(** C73, R rolls: at most 10000 rolls, none larger than the largest of the command. *)
Theorem C73_reroll gid c f res f' : command_ok c ->
  match c with RList _ _ _ | RComp _ _ _ _ _ => True | _ => False end ->
  run_command gid (command_tree c) f = (Ok res, f') ->
  exists ops ps ds, settle_rolls (rolls_of c) ops ps /\ draws f ds f' /\
    forall m, 0 <= m -> Forall (fun p => fst p <= m) ps -> Z.of_nat (length ds) <= Z.of_nat (length ops) + 10000 * m.
Proof.
  intros Hok Hc H. destruct (run_command_gives _ _ _ _ _ H) as (ds & Hd & Hg).
  destruct c as [e|e|e op t|r rs|r rs op t|r rs th|r rs th op t|r rs th b|r rs th b op t|items]; try contradiction; cbn [rolls_of].
  - destruct Hok as (Ho & Ht). apply (gives_rlist gid r rs th ds res Ho) in Hg as (ops & ps & t & Hs & _ & Hg). exists ops, ps, ds. split; [exact Hs|]. split; [exact Hd|]. intros m Hm Hq.
    destruct (hint hint_r t); [destruct Hg as (-> & _); lia|]. destruct t as [v|]; [|contradiction]. destruct Hg as (groups & Hr & -> & _).
    pose proof (rerolls_bound _ _ _ _ Hr m Hm Hq) as Hb. rewrite app_length. change (Z.of_nat cap) with 10000 in Hb. lia.
  - destruct Hok as (Ho & _ & Hop & Ht). apply (gives_rcomp gid r rs th op t ds res Ho Hop) in Hg as (ops & ps & given & w & Hs & _ & _ & Hg). cbv zeta in Hg. exists ops, ps, ds. split; [exact Hs|]. split; [exact Hd|]. intros m Hm Hq.
    destruct (hint hint_r _); [destruct Hg as (-> & _); lia|]. destruct Hg as (groups & Hr & -> & _).
    pose proof (rerolls_bound _ _ _ _ Hr m Hm Hq) as Hb. rewrite app_length. change (Z.of_nat cap) with 10000 in Hb. lia.
Qed.
Print Assumptions C73_reroll.
(** C73, U rolls: each die of the command is rolled once, and at most 10000 times in all (or only a hint is shown and no die of a roll is taken). *)
Theorem C73_explode gid c f res f' : command_ok c ->
  match c with UExpr _ _ _ _ | UComp _ _ _ _ _ _ => True | _ => False end ->
  run_command gid (command_tree c) f = (Ok res, f') ->
  exists ops ps ds, settle_rolls (rolls_of c) ops ps /\ draws f ds f' /\
    (r_dice res = [] /\ length ds = length ops \/
     Z.of_nat (length ops) + sum_counts ps <= Z.of_nat (length ds) <= Z.of_nat (length ops) + 10000 * sum_counts ps).
Proof.
  intros Hok Hc H. destruct (run_command_gives _ _ _ _ _ H) as (ds & Hd & Hg).
  destruct c as [e|e|e op t|r rs|r rs op t|r rs th|r rs th op t|r rs th b|r rs th b op t|items]; try contradiction; cbn [rolls_of].
  - destruct Hok as (Ho & Ht & Hb). apply (gives_uexpr gid r rs th b ds res Ho Hb) in Hg as (ops & ps & t & m & Hs & _ & _ & Hg). cbv zeta in Hg. exists ops, ps, ds. split; [exact Hs|]. split; [exact Hd|].
    destruct (hint hint_u t); [destruct Hg as (-> & ->); left; split; reflexivity|]. destruct t as [v|]; [|contradiction]. destruct Hg as (groups & s3 & Hr & -> & _). right.
    pose proof (chains_bound _ _ _ _ Hr) as Hb'. rewrite app_length. change (Z.of_nat cap) with 10000 in Hb'. lia.
  - destruct Hok as (Ho & _ & Hb & Hop & Ht). apply (gives_ucomp gid r rs th b op t ds res Ho Hb Hop) in Hg as (ops & ps & t' & m & w & Hs & _ & _ & _ & Hg). cbv zeta in Hg. exists ops, ps, ds. split; [exact Hs|]. split; [exact Hd|].
    destruct (hint hint_u t'); [destruct Hg as (-> & ->); left; split; reflexivity|]. destruct t' as [v|]; [|contradiction]. destruct Hg as (groups & Hr & -> & _). right.
    pose proof (chains_bound _ _ _ _ Hr) as Hb'. rewrite app_length. change (Z.of_nat cap) with 10000 in Hb'. lia.
Qed.
Print Assumptions C73_explode.
Example C73_example :
  let c := UExpr (Leaf (RInt 2), Leaf (RInt 6)) [] (Some (Leaf 5)) None in
  parse_command "2U6[5]" = Ok (command_tree c) /\ command_ok c /\
  exists res, run_command "DiceBot" (command_tree c) (FQueue [Die 5 6; Die 6 6; Die 1 6; Die 2 6]) = (Ok res, FQueue []).
Proof. cbv zeta. split; [vmc|]. split; [split; [constructor; [|constructor]|split; [|exact I]]; cbn; unfold roll_ok, rok, iok, all_leaves; cbn; unfold in_int64, min_int, max_int, two63; lia|]. eexists. vmc. Qed.
Example C73_example_r :
  let c := RList (Leaf (RInt 2), Leaf (RInt 6)) [] (Some (Leaf 5)) in
  parse_command "2R6[5]" = Ok (command_tree c) /\
  exists res, run_command "DiceBot" (command_tree c) (FQueue [Die 5 6; Die 6 6; Die 5 6; Die 2 6; Die 1 6]) = (Ok res, FQueue []).
Proof. cbv zeta. split; [vmc|]. eexists. vmc. Qed.

(** ** Every outcome *)
Lemma legal_feeds f : legal_feeder f -> feeds legal f.
Proof. intros [(q & -> & H)|(intn & k & -> & H)]; [constructor; exact H|apply feeds_legal_random, H]. Qed.
Lemma run_command_takes gid c m f o f' : command_ok c -> legal_feeder f -> 0 <= m -> counts_at_most m c ->
  run_command gid (command_tree c) f = (o, f') -> exists ds, draws f ds f' /\ Z.of_nat (length ds) <= dice_limit c m.
Proof.
  intros Hok Hf Hm Hc H. unfold run_command in H. destruct (run _ _) as [o1 s1] eqn:E. injection H as <- <-.
  refine (tk_run legal _ _ _ (EState f []) _ _ (tk_execute legal m Hm gid c Hok _) (legal_feeds f Hf) E).
  apply Forall_forall. intros r Hr ops x Ho Hv. exact (Hc r ops x Hr Ho Hv).
Qed.
(** how many dice were taken is seen from the feeder *)
Definition left_over (f : feeder) : Z := match f with FQueue q => - Z.of_nat (length q) | FRandom _ k => Z.of_nat k end.
Lemma draws_number f ds f' : draws f ds f' -> Z.of_nat (length ds) = left_over f' - left_over f.
Proof.
  induction 1 as [f|f s d g ds h Hn H IH]; [cbn; lia|]. cbn [length]. assert (left_over g = left_over f + 1); [|lia].
  destruct f as [[|x q]|intn k]; cbn in Hn; try discriminate.
  - injection Hn as _ <-. cbn [left_over length]. lia.
  - destruct (s <=? 0); [discriminate|]. injection Hn as _ <-. cbn [left_over]. lia.
Qed.
(** C73, every outcome: result, error or crash, the command has taken no more dice than its limit. *)
Theorem C73_any_outcome gid c f o f' : command_ok c -> legal_feeder f ->
  run_command gid (command_tree c) f = (o, f') ->
  exists ds, draws f ds f' /\ forall m, 0 <= m -> counts_at_most m c -> Z.of_nat (length ds) <= dice_limit c m.
Proof.
  intros Hok Hf H. destruct (run_command_draws _ _ _ _ _ H) as (ds & Hd). exists ds. split; [exact Hd|]. intros m Hm Hc.
  destruct (run_command_takes gid c m f o f' Hok Hf Hm Hc H) as (ds' & Hd' & Hl). rewrite (draws_number _ _ _ Hd). rewrite (draws_number _ _ _ Hd') in Hl. exact Hl.
Qed.
Print Assumptions C73_any_outcome.
(** C73, ExecuteCommand: whatever comes out, the dice taken are none, or at most those of two executions of the command that was read. *)
Theorem C73_text bot input f o f' : moderate input -> legal_feeder f ->
  execute_command_with bot input f = (o, f') ->
  exists ds, draws f ds f' /\
    (ds = [] \/ exists c, (parse_command (fst (check_secret input)) = Ok (command_tree c) \/ parse_command (first_part (fst (check_secret input))) = Ok (command_tree c)) /\
       forall m, 0 <= m -> counts_at_most m c -> Z.of_nat (length ds) <= 2 * dice_limit c m).
Proof.
  intros Hl Hf H. unfold moderate in Hl. assert (forall c m, 0 <= m -> 0 <= dice_limit c m) as Hpos.
  { intros c m Hm. unfold dice_limit. pose proof (random_operands_nonneg (rolls_of c)). assert (0 <= roll_dice_limit c m) by (destruct c; cbn [roll_dice_limit]; nia). lia. }
  assert (forall n p1, parse_command p1 = Ok n -> exists c, n = command_tree c /\ forall f1 o1 f2, legal_feeder f1 -> run_command (db_game_id bot) n f1 = (o1, f2) ->
    exists ds, draws f1 ds f2 /\ forall m, 0 <= m -> counts_at_most m c -> Z.of_nat (length ds) <= dice_limit c m) as Once.
  { intros n p1 Hp. apply parse_spelled in Hp as (c & -> & Hok). exists c. split; [reflexivity|]. intros f1 o1 f2 Hf1 Hr. exact (C73_any_outcome _ _ _ _ _ Hok Hf1 Hr). }
  destruct (exec_has_shape bot input Hl) as [e Hs|n Hw Hn Hs|n e Hn Hs|n Hn Hs]; rewrite Hs in H.
  - injection H as <- <-. exists []. split; [constructor|left; reflexivity].
  - destruct (run_command (db_game_id bot) n f) as [o1 f1] eqn:E. destruct (Once _ _ Hn) as (c & En & Run). destruct (Run _ _ _ Hf E) as (ds & Hd & Hb).
    assert (f1 = f') as <- by (destruct o1; injection H as _ <-; reflexivity). exists ds. split; [exact Hd|]. right. exists c. split; [right; rewrite Hn, En; reflexivity|]. intros m Hm Hc. specialize (Hb m Hm Hc). specialize (Hpos c m Hm). lia.
  - destruct (run_command (db_game_id bot) n f) as [o1 f1] eqn:E. destruct (Once _ _ Hn) as (c & En & Run). destruct (Run _ _ _ Hf E) as (ds & Hd & Hb).
    assert (f1 = f') as <- by (destruct o1; injection H as _ <-; reflexivity). exists ds. split; [exact Hd|]. right. exists c. split; [left; rewrite Hn, En; reflexivity|]. intros m Hm Hc. specialize (Hb m Hm Hc). specialize (Hpos c m Hm). lia.
  - unfold run_retry in H. destruct (run_command (db_game_id bot) n f) as [o1 f1] eqn:E. destruct (Once _ _ Hn) as (c & En & Run). destruct (Run _ _ _ Hf E) as (ds & Hd & Hb).
    assert (o1 = o1 -> f1 = f' -> exists ds, draws f ds f' /\
    (ds = [] \/ exists c, (parse_command (fst (check_secret input)) = Ok (command_tree c) \/ parse_command (first_part (fst (check_secret input))) = Ok (command_tree c)) /\
       forall m, 0 <= m -> counts_at_most m c -> Z.of_nat (length ds) <= 2 * dice_limit c m)) as Stop.
    { intros _ <-. exists ds. split; [exact Hd|]. right. exists c. split; [left; rewrite Hn, En; reflexivity|]. intros m Hm Hc. specialize (Hb m Hm Hc). specialize (Hpos c m Hm). lia. }
    destruct o1 as [r|e|p]; [apply Stop; [reflexivity|]; injection H as _ <-; reflexivity| |apply Stop; [reflexivity|]; injection H as _ <-; reflexivity].
    destruct (run_command (db_game_id bot) n f1) as [o2 f2] eqn:E2. destruct (Run _ _ _ (legal_left _ _ _ Hd Hf) E2) as (ds2 & Hd2 & Hb2).
    assert (f2 = f') as <- by (destruct o2; injection H as _ <-; reflexivity). exists (ds ++ ds2). split; [exact (draws_app _ _ _ _ _ Hd Hd2)|]. right. exists c. split; [left; rewrite Hn, En; reflexivity|]. intros m Hm Hc. specialize (Hb m Hm Hc). specialize (Hb2 m Hm Hc). rewrite app_length. lia.
Qed.
Print Assumptions C73_text.
(** dice for the operand and for a part of the roll are gone although the command fails *)
Example C73_any_example :
  let c := RList (Leaf (RRand (Leaf 1) (Leaf 3)), Leaf (RInt 6)) [] (Some (Leaf 5)) in
  parse_command "[1...3]R6[5]" = Ok (command_tree c) /\ command_ok c /\ legal_feeder (FQueue [Die 2 3; Die 5 6]) /\ counts_at_most 3 c /\ dice_limit c 3 = 30001 /\
  execute_command_with basic_bot "[1...3]R6[5]" (FQueue [Die 2 3; Die 5 6]) = (Err "取り出せるダイスがありません"%string, FQueue []).
Proof.
  cbv zeta. split; [vmc|]. split; [split; [constructor; [|constructor]|]; cbn; unfold roll_ok, rok, iok, all_leaves; cbn; unfold in_int64, min_int, max_int, two63; lia|].
  split; [left; eexists; split; [reflexivity|]; repeat (apply Forall_cons; [unfold legal; cbn; lia|]); apply Forall_nil|].
  split; [|split; vmc]. intros r ops x [<-|[]] Hl Hv. apply operand_leaf_value in Hv. destruct Hv as (a & b & d & Ha & Hb & _ & _ & -> & Hs & ->). inversion_clear Hl as [|? ? Hd _]. unfold legal in Hd.
  apply has_value_mach in Ha, Hb. injection Ha as <-. injection Hb as <-. rewrite wrap64_id; [lia|]. unfold in_int64, min_int, max_int, two63. lia.
Qed.
(** the bound for ExecuteCommand is reached: both attempts take a die and fail *)
Example C73_twice_example :
  let c := DExpr (Bin (Over RoundDown) (Leaf (DInt 1)) (Bin Minus (Leaf (DDice (Leaf (RInt 1)) (Leaf (RInt 6)))) (Leaf (DInt 1)))) in
  parse_command "1/(1D6-1)" = Ok (command_tree c) /\ dice_limit c 1 = 1 /\
  execute_command_with basic_bot "1/(1D6-1)" (FQueue [Die 1 6; Die 1 6; Die 3 6]) = (Err "1 divided by zero"%string, FQueue [Die 3 6]).
Proof. cbv zeta. split; [vmc|]. split; vmc. Qed.
