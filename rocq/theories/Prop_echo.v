(** Property C62: a roll announces, in the first part of its message, a command that describes it: entering that command again with the same dice gives the same roll. *)
From Verif Require Import Grammar GoBase Utf8 Object ProofBase SpecText SpecSyntax SpecGrammar Dice SpecDice DiceProofs ArithProofs SpecRoll SpecLists SpecMessage Command SpecCommand CommandProofs
  PegProofs ParseSound ParseComplete ParseTop ParseFacts ParseText DecodeProofs NumberText NotationText DRollProofs BCDice BCDiceProofs YieldsProofs EchoNorm EchoProofs Notation Prop_parse Prop_notation Prop_message.
Open Scope list_scope.
Open Scope Z_scope.

(** Commands whose echo is faithful.  A multiplication by a quotient loses its parentheses in the echo (C34); -2^63 cannot be written as a number (C14); among more than 10000 rerolls some may not have
    been rolled, and so have no positive count and sides; an item of CHOICE that is only white space is shown as an empty item; C(...) is shown as such, and not in parentheses (C35). *)
Definition faithful (c : command) : Prop :=
  match c with
  | Calculation _ => False
  | DExpr e => safe (shape e)
  | DComp e _ t => safe (shape e) /\ ~ has_value t min_int
  | BList _ _ => True
  | BComp _ _ _ t => ~ has_value t min_int
  | RList r rs _ => (length (r :: rs) <= cap)%nat
  | RComp r rs _ _ t => (length (r :: rs) <= cap)%nat /\ ~ has_value t min_int
  | UExpr _ _ _ b => ~ bonus_value b min_int
  | UComp _ _ _ b _ t => ~ bonus_value b min_int /\ ~ has_value t min_int
  | Choose items => ~ In EmptyString items
  end.

Lemma roll_atext (u s : string) : atext (u ++ s) = atext u ++ atext s.
Proof. apply atext_app. Qed.
Lemma words_split u p ps : atext (rolls_words u (p :: ps)) = atext (roll_word u p) ++ atext match ps with [] => "" | _ => "+" ++ rolls_words u ps end%string.
Proof. rewrite rolls_words_cons. apply atext_app. Qed.
Lemma list_ok ps : Forall positive_pair ps -> Forall roll_ok (map lit_roll ps).
Proof.
  intros H. apply Forall_map. revert H. apply Forall_impl. intros p (H1 & H2). unfold lit_roll, roll_ok, rok. cbn. unfold in_int64, min_int, two63. unfold positive_pair in *. lia.
Qed.
Lemma lit_int_ok w : in_int64 w -> w <> min_int -> iok (lit_int w).
Proof. unfold lit_int, iok. intros H Hm. destruct (w <? 0) eqn:E; cbn; unfold in_int64, min_int, max_int, two63 in *; lia. Qed.
Lemma lit_bonus_ok w : in_int64 w -> w <> min_int -> bonus_ok (lit_bonus w).
Proof. unfold lit_bonus, bonus_ok. intros H Hm. destruct (w =? 0); [exact I|]. destruct (0 <? w) eqn:E; cbn; unfold in_int64, min_int, max_int, two63 in *; lia. Qed.

Lemma dints_fine e t : sp_dexpr e t -> all_leaves (fun l => match l with DInt v => 0 <= v <= max_int | _ => True end) e.
Proof.
  apply (leaves_ok sp_dleaf). intros [v|lo hi|n s] u Hu; [|exact I|exact I]. destruct Hu as (_ & Hd & ->). pose proof (decimal_nonneg _ Hd). unfold max_int, two63. lia.
Qed.
Lemma target_range op g u w : sp_target op g u -> has_value g w -> in_int64 w.
Proof. intros H Hv. apply target_leaves in H as (_ & H). eapply has_value_range; eassumption. Qed.

Lemma spelled_both c s : spells c (atext s) -> ascii_text s -> command_ok c /\ (fits s -> parse_command s = Ok (command_tree c)).
Proof. intros H Ha. split; [exact (spells_ok _ _ H)|exact (spelled_parses c s H Ha)]. Qed.

(** What the reply of a command says, and the same reply of the echoed command. *)
Lemma echo_reply c t ds parts reported verdict : spells c t -> Forall decoded t -> valid t -> faithful c -> reply c ds parts reported verdict -> reported <> [] ->
  exists echo more ops rest c', parts = in_parens echo :: more /\ reported = ops ++ rest /\ reply c' rest parts rest verdict /\ command_ok c' /\ (fits echo -> parse_command echo = Ok (command_tree c')).
Proof.
  intros Hs Hdec Hval Hf Hr Hh. pose proof (spells_ok _ _ Hs) as Hok.
  destruct Hr as [e v Hv
    |e ops rolls mid fin v Hd
    |e op g ops rolls mid fin v w Hc Hd Hg Hcmp
    |e op g ops rolls mid fin v w Hc Hd Hg Hcmp
    |r rs ops ps groups Hp Hg
    |r rs op g ops ps groups w Hp Hg Hw
    |r rs e ops ps v groups Hp Hv Hv2 Hg
    |r rs th op g ops ps v w groups Hp Hw Hv Hv2 Hg
    |r rs e b ops ps v m groups s3 Hp Hv Hv2 Hb Hg Hmt
    |r rs e b op g ops ps v m w groups Hp Hv Hv2 Hb Hw Hg
    |r rs th t0 h ops ps Hp Ht Hhint
    |r rs th op g v w h ops ps Hp Hw Hv Hhint
    |r rs th b t0 m h ops ps Hp Ht Hb Hhint
    |r rs th b op g t0 m w h ops ps Hp Ht Hb Hw Hhint
    |items d item H1 H2 H3].
  - destruct Hf.
  - inversion Hs as [| |? ? He Hrnd| | | | | | |]; subst. exists (show mword true mid), [show sword true fin; itoa v], ops, rolls, (DExpr (ae_map to_d (norm mid))).
    split; [reflexivity|]. split; [reflexivity|]. pose proof (mid_fine _ _ _ _ _ Hok (dints_fine _ _ He) (proj1 Hd) (proj1 (proj2 Hd))) as Hm. destruct (mid_spelled _ Hm) as (Hsp & Ha). split.
    + pose proof (norm_d_value _ _ _ _ _ _ Hd Hf) as Hn. apply (reply_d _ [] rolls) in Hn. rewrite (proj1 (show_norm mword mid)), (proj1 (show_norm sword fin)) in Hn. exact Hn.
    + apply spelled_both; [|exact Ha]. apply spells_d; [exact Hsp|]. eapply settled_has_random; [exact Hrnd|apply Hd].
  - inversion Hs as [| | |? ? ? ? ? He Hrnd Htg| | | | | |]; subst. destruct Hf as (Hf & Hmin), Hok as (Hok & Hop & Hig).
    exists (show mword true mid ++ op ++ itoa w)%string, [show sword true fin; itoa v; "成功"%string], ops, rolls, (DComp (ae_map to_d (norm mid)) op (lit_int w)).
    pose proof (target_range _ _ _ _ Htg Hg) as Hw. assert (w <> min_int) as Hwm by (intros ->; exact (Hmin Hg)).
    split; [reflexivity|]. split; [reflexivity|]. pose proof (mid_fine _ _ _ _ _ Hok (dints_fine _ _ He) (proj1 Hd) (proj1 (proj2 Hd))) as Hm. destruct (mid_spelled _ Hm) as (Hsp & Ha). split.
    + pose proof (norm_d_value _ _ _ _ _ _ Hd Hf) as Hn. pose proof (reply_d_success _ op (lit_int w) [] rolls _ _ v w (comparable_mid _ _ _ Hc (proj1 Hd)) Hn (lit_int_value _ Hw) Hcmp) as Hr.
      rewrite (proj1 (show_norm mword mid)), (proj1 (show_norm sword fin)) in Hr. exact Hr.
    + apply spelled_both; [|apply ascii_app; [exact Ha|apply ascii_app; [apply op_ascii, Hop|apply itoa_ascii]]]. rewrite atext_app. apply spells_dc; [exact Hsp| |apply lit_target_sp; assumption].
      eapply settled_has_random; [exact Hrnd|apply Hd].
  - inversion Hs as [| | |? ? ? ? ? He Hrnd Htg| | | | | |]; subst. destruct Hf as (Hf & Hmin), Hok as (Hok & Hop & Hig).
    exists (show mword true mid ++ op ++ itoa w)%string, [show sword true fin; itoa v; "失敗"%string], ops, rolls, (DComp (ae_map to_d (norm mid)) op (lit_int w)).
    pose proof (target_range _ _ _ _ Htg Hg) as Hw. assert (w <> min_int) as Hwm by (intros ->; exact (Hmin Hg)).
    split; [reflexivity|]. split; [reflexivity|]. pose proof (mid_fine _ _ _ _ _ Hok (dints_fine _ _ He) (proj1 Hd) (proj1 (proj2 Hd))) as Hm. destruct (mid_spelled _ Hm) as (Hsp & Ha). split.
    + pose proof (norm_d_value _ _ _ _ _ _ Hd Hf) as Hn. pose proof (reply_d_failure _ op (lit_int w) [] rolls _ _ v w (comparable_mid _ _ _ Hc (proj1 Hd)) Hn (lit_int_value _ Hw) Hcmp) as Hr.
      rewrite (proj1 (show_norm mword mid)), (proj1 (show_norm sword fin)) in Hr. exact Hr.
    + apply spelled_both; [|apply ascii_app; [exact Ha|apply ascii_app; [apply op_ascii, Hop|apply itoa_ascii]]]. rewrite atext_app. apply spells_dc; [exact Hsp| |apply lit_target_sp; assumption].
      eapply settled_has_random; [exact Hrnd|apply Hd].
  - assert (Forall positive_pair ps) as Hpos by (eapply rolled_each_positive; [exact Hg|eapply settle_range; [exact Hok|exact Hp]]).
    destruct ps as [|p ps]; [apply settle_length in Hp; discriminate|]. inversion Hpos as [|? ? Hp1 Hps]. subst.
    exists (rolls_words "B" (p :: ps)), [values_word (concat groups)], ops, (concat groups), (BList (lit_roll p) (map lit_roll ps)). split; [reflexivity|]. split; [reflexivity|]. split.
    + apply (reply_b _ _ [] (p :: ps) groups); [apply (lit_settle (p :: ps))|exact Hg].
    + apply spelled_both; [|apply rolls_words_ascii; repeat constructor]. rewrite words_split. apply spells_b; [apply lit_roll_sp; [reflexivity|exact Hp1]|apply lit_rolls_sp; [reflexivity|exact Hps]].
  - inversion Hs as [| | | | |? ? ? ? ? ? ? Hr1 Hr2 Htg| | | |]; subst. destruct Hok as (Hok & Hop & Hig).
    assert (Forall positive_pair ps) as Hpos by (eapply rolled_each_positive; [exact Hg|eapply settle_range; [exact Hok|exact Hp]]).
    destruct ps as [|p ps]; [apply settle_length in Hp; discriminate|]. inversion Hpos as [|? ? Hp1 Hps]. subst.
    pose proof (target_range _ _ _ _ Htg Hw) as Hwr. assert (w <> min_int) as Hwm by (intros ->; exact (Hf Hw)).
    eexists (rolls_words "B" (p :: ps) ++ op ++ itoa w)%string, _, ops, (concat groups), (BComp (lit_roll p) (map lit_roll ps) op (lit_int w)). split; [reflexivity|]. split; [reflexivity|]. split.
    + apply (reply_b_count _ _ op (lit_int w) [] (p :: ps) groups); [apply (lit_settle (p :: ps))|exact Hg|apply lit_int_value, Hwr].
    + apply spelled_both; [|apply ascii_app; [apply rolls_words_ascii; repeat constructor|apply ascii_app; [apply op_ascii, Hop|apply itoa_ascii]]]. rewrite atext_app, words_split, <- app_assoc.
      apply spells_bc; [apply lit_roll_sp; [reflexivity|exact Hp1]|apply lit_rolls_sp; [reflexivity|exact Hps]|apply lit_target_sp; assumption].
  - destruct Hok as (Hok & Hth). pose proof (settle_length _ _ _ Hp) as Hlen. pose proof (settle_range _ _ _ Hok Hp) as Hrange. cbn [faithful] in Hf.
    assert (Forall positive_pair ps) as Hpos by (eapply rerolls_positive_pairs; [exact Hg|rewrite Hlen; exact Hf|exact Hrange]).
    destruct ps as [|p ps]; [discriminate|]. inversion Hpos as [|? ? Hp1 Hps]. subst. pose proof (has_value_range _ _ Hth Hv) as Hvr.
    eexists (rolls_words "R" (p :: ps) ++ "[" ++ itoa v ++ "]")%string, _, ops, (concat groups), (RList (lit_roll p) (map lit_roll ps) (Some (Leaf v))). split; [reflexivity|]. split; [reflexivity|]. split.
    + apply (reply_r _ _ (Leaf v) [] (p :: ps) v groups); [apply (lit_settle (p :: ps))|reflexivity|exact Hv2|exact Hg].
    + apply spelled_both; [|apply ascii_app; [apply rolls_words_ascii; repeat constructor|apply (ascii_app "["); [repeat constructor|apply ascii_app; [apply itoa_ascii|repeat constructor]]]].
      rewrite atext_app, words_split, <- app_assoc. unfold in_int64 in Hvr.
      apply spells_r; [apply lit_roll_sp; [reflexivity|exact Hp1]|apply lit_rolls_sp; [reflexivity|exact Hps]|apply lit_threshold_sp; lia].
  - inversion Hs as [| | | | | | |? ? ? ? ? ? ? ? ? Hr1 Hr2 Hr3 Htg| |]; subst. destruct Hok as (Hok & Hth & Hop & Hig), Hf as (Hf & Hmin).
    pose proof (settle_length _ _ _ Hp) as Hlen. pose proof (settle_range _ _ _ Hok Hp) as Hrange. pose proof (target_range _ _ _ _ Htg Hw) as Hwr. assert (w <> min_int) as Hwm by (intros ->; exact (Hmin Hw)).
    assert (Forall positive_pair ps) as Hpos by (eapply rerolls_positive_pairs; [exact Hg|rewrite Hlen; exact Hf|exact Hrange]).
    destruct ps as [|p ps]; [discriminate|]. inversion Hpos as [|? ? Hp1 Hps]. subst.
    assert (in_int64 v) as Hvr. { destruct th as [e|]; [exact (has_value_range _ _ Hth Hv)|subst v; exact Hwr]. }
    eexists (rolls_words "R" (p :: ps) ++ "[" ++ itoa v ++ "]" ++ op ++ itoa w)%string, _, ops, (concat groups), (RComp (lit_roll p) (map lit_roll ps) (Some (Leaf v)) op (lit_int w)). split; [reflexivity|]. split; [reflexivity|]. split.
    + apply (reply_r_count _ _ (Some (Leaf v)) op (lit_int w) [] (p :: ps) v w groups); [apply (lit_settle (p :: ps))|apply lit_int_value, Hwr|reflexivity|exact Hv2|exact Hg].
    + replace (rolls_words "R" (p :: ps) ++ "[" ++ itoa v ++ "]" ++ op ++ itoa w)%string with (rolls_words "R" (p :: ps) ++ ("[" ++ itoa v ++ "]") ++ (op ++ itoa w))%string by (rewrite !append_assoc; reflexivity).
      apply spelled_both; [|apply ascii_app; [apply rolls_words_ascii; repeat constructor|apply ascii_app; [apply (ascii_app "["); [repeat constructor|apply ascii_app; [apply itoa_ascii|repeat constructor]]|apply ascii_app; [apply op_ascii, Hop|apply itoa_ascii]]]].
      rewrite atext_app, words_split, (atext_app ("[" ++ itoa v ++ "]")), <- app_assoc. unfold in_int64 in Hvr.
      apply spells_rc; [apply lit_roll_sp; [reflexivity|exact Hp1]|apply lit_rolls_sp; [reflexivity|exact Hps]|apply lit_threshold_sp; lia|apply lit_target_sp; assumption].
  - destruct Hok as (Hok & Hth & Hbok). cbn [faithful] in Hf. assert (Forall positive_pair ps) as Hpos by (eapply chains_positive; [exact Hg|eapply settle_range; [exact Hok|exact Hp]]).
    destruct ps as [|p ps]; [apply settle_length in Hp; discriminate|]. inversion Hpos as [|? ? Hp1 Hps]. subst. pose proof (has_value_range _ _ Hth Hv) as Hvr. pose proof (bonus_range _ _ Hbok Hb) as Hmr.
    assert (m <> min_int) as Hmm by (intros ->; exact (Hf Hb)).
    eexists (rolls_words "U" (p :: ps) ++ "[" ++ itoa v ++ "]" ++ bonus_word m)%string, _, ops, (concat (concat groups)), (UExpr (lit_roll p) (map lit_roll ps) (Some (Leaf v)) (lit_bonus m)).
    split; [reflexivity|]. split; [reflexivity|]. split.
    + apply (reply_u _ _ (Leaf v) (lit_bonus m) [] (p :: ps) v m groups); [apply (lit_settle (p :: ps))|reflexivity|exact Hv2|apply lit_bonus_value, Hmr|exact Hg|exact Hmt].
    + replace (rolls_words "U" (p :: ps) ++ "[" ++ itoa v ++ "]" ++ bonus_word m)%string with (rolls_words "U" (p :: ps) ++ ("[" ++ itoa v ++ "]") ++ bonus_word m)%string by (rewrite !append_assoc; reflexivity).
      apply spelled_both; [|apply ascii_app; [apply rolls_words_ascii; repeat constructor|apply ascii_app; [apply (ascii_app "["); [repeat constructor|apply ascii_app; [apply itoa_ascii|repeat constructor]]|apply bonus_word_ascii]]].
      rewrite atext_app, words_split, (atext_app ("[" ++ itoa v ++ "]")), <- app_assoc. unfold in_int64 in Hvr.
      apply spells_u; [apply lit_roll_sp; [reflexivity|exact Hp1]|apply lit_rolls_sp; [reflexivity|exact Hps]|apply lit_threshold_sp; lia|apply lit_bonus_sp; assumption].
  - inversion Hs as [| | | | | | | | |? ? ? ? ? ? ? ? ? ? ? Hr1 Hr2 Hr3 Hr4 Htg]; subst. destruct Hok as (Hok & Hth & Hbok & Hop & Hig), Hf as (Hf & Hmin).
    assert (Forall positive_pair ps) as Hpos by (eapply chains_positive; [exact Hg|eapply settle_range; [exact Hok|exact Hp]]).
    destruct ps as [|p ps]; [apply settle_length in Hp; discriminate|]. inversion Hpos as [|? ? Hp1 Hps]. subst. pose proof (has_value_range _ _ Hth Hv) as Hvr. pose proof (bonus_range _ _ Hbok Hb) as Hmr.
    assert (m <> min_int) as Hmm by (intros ->; exact (Hf Hb)). pose proof (target_range _ _ _ _ Htg Hw) as Hwr. assert (w <> min_int) as Hwm by (intros ->; exact (Hmin Hw)).
    eexists (rolls_words "U" (p :: ps) ++ "[" ++ itoa v ++ "]" ++ bonus_word m ++ op ++ itoa w)%string, _, ops, (concat (concat groups)), (UComp (lit_roll p) (map lit_roll ps) (Some (Leaf v)) (lit_bonus m) op (lit_int w)).
    split; [reflexivity|]. split; [reflexivity|]. split.
    + apply (reply_u_count _ _ (Leaf v) (lit_bonus m) op (lit_int w) [] (p :: ps) v m w groups); [apply (lit_settle (p :: ps))|reflexivity|exact Hv2|apply lit_bonus_value, Hmr|apply lit_int_value, Hwr|exact Hg].
    + replace (rolls_words "U" (p :: ps) ++ "[" ++ itoa v ++ "]" ++ bonus_word m ++ op ++ itoa w)%string with (rolls_words "U" (p :: ps) ++ ("[" ++ itoa v ++ "]") ++ bonus_word m ++ (op ++ itoa w))%string by (rewrite !append_assoc; reflexivity).
      apply spelled_both; [|apply ascii_app; [apply rolls_words_ascii; repeat constructor|apply ascii_app; [apply (ascii_app "["); [repeat constructor|apply ascii_app; [apply itoa_ascii|repeat constructor]]|apply ascii_app; [apply bonus_word_ascii|apply ascii_app; [apply op_ascii, Hop|apply itoa_ascii]]]]].
      rewrite atext_app, words_split, (atext_app ("[" ++ itoa v ++ "]")), (atext_app (bonus_word m)), <- app_assoc. unfold in_int64 in Hvr.
      apply spells_uc; [apply lit_roll_sp; [reflexivity|exact Hp1]|apply lit_rolls_sp; [reflexivity|exact Hps]|apply lit_threshold_sp; lia|apply lit_bonus_sp; assumption|apply lit_target_sp; assumption].
  - contradiction.
  - contradiction.
  - contradiction.
  - contradiction.
  - exists ("CHOICE[" ++ join "," items ++ "]")%string, [item], [], [d], (Choose items). split; [reflexivity|]. split; [reflexivity|]. split; [apply reply_choice; assumption|]. split; [exact Hok|].
    apply choice_parses; [exact Hok|]. inversion Hs as [|s ss k t1 u f c Hk Ht Hu Hfc Hc| | | | | | | |]. subst. cbn [faithful] in Hf.
    rewrite !Forall_app in Hdec. rewrite !valid_app in Hval. constructor.
    + eapply item_clean'; [exact Ht|tauto|tauto|]. intros ->. apply Hf. left. reflexivity.
    + eapply items_clean'; [exact Hu|tauto|tauto|]. intros Hin. apply Hf. right. exact Hin.
Qed.

Lemma basic_run bot echo c f : parse_command echo = Ok (command_tree c) -> execute_command_with bot echo f =
  match run_command (db_game_id bot) (command_tree c) f with
  | (Ok r, f1) => (Ok (set_secret r false), f1)
  | _ => execute_command_with bot echo f
  end.
Proof.
  intros H. pose proof (parse_not_secret echo "" _ H) as Hs. rewrite append_nil_r in Hs. destruct (run_command (db_game_id bot) (command_tree c) f) as [[r|e|p] f1] eqn:E; try reflexivity.
  rewrite execute_command_with_eq, Hs. rewrite !execute_basic_eq. rewrite H, with_fresh_env_run_command, E. reflexivity.
Qed.
(** C62: a successful roll shows, in parentheses, a command; entered again with the dice of the roll (those that determined operands are now numbers), it gives the same message, verdict
    and dice, and takes no further dice. *)
Theorem C62_echo bot input f r f' : execute_command_with bot input f = (Ok r, f') -> r_dice r <> [] ->
  exists command c, (command = fst (check_secret input) \/ command = first_part (fst (check_secret input))) /\ parse_command command = Ok (command_tree c) /\
    (faithful c -> exists echo more ops rolls, r_parts r = in_parens echo :: more /\ r_dice r = ops ++ rolls /\
      (fits echo -> forall q, execute_command_with bot echo (FQueue (rolls ++ q)) = (Ok (Result (r_game_id r) (r_parts r) rolls (r_success r) false), FQueue q))).
Proof.
  intros H Hdice.
  assert (exists command c ds, (command = fst (check_secret input) \/ command = first_part (fst (check_secret input))) /\ parse_command command = Ok (command_tree c) /\
    gives (db_game_id bot) (command_tree c) ds (Result (r_game_id r) (r_parts r) (r_dice r) (r_success r) false)) as (command & c0 & ds & Hc & Hp & Hg).
  { assert (forall cmd f1 r1 f2, execute_basic_command bot cmd f1 = (Ok r1, f2) -> exists c ds, parse_command cmd = Ok (command_tree c) /\ gives (db_game_id bot) (command_tree c) ds (Result (r_game_id r1) (r_parts r1) (r_dice r1) (r_success r1) false)) as Hb.
    { intros cmd f1 r1 f2 E. rewrite execute_basic_eq in E. destruct (parse_command cmd) as [n|e|p] eqn:Ep; try discriminate.
      destruct (parse_spelled _ _ Ep) as (c & -> & Hok). rewrite with_fresh_env_run_command in E. exists c. apply run_command_gives in E as (ds & _ & E). exists ds. split; [reflexivity|].
      pose proof E as E'. apply C44_replies in E' as (parts & reported & verdict & _ & ->); [|exact Hok]. exact E. }
    rewrite execute_command_with_eq in H. destruct (check_secret input) as [cmd sec]. cbn [fst snd].
    destruct (execute_basic_command bot cmd f) as [[r1|e|p] f1] eqn:E1; try discriminate.
    - injection H as <- _. cbn [set_secret r_game_id r_parts r_dice r_success]. destruct (Hb _ _ _ _ E1) as (c & ds & Hp & Hg). exists cmd, c, ds. auto.
    - destruct (execute_basic_command bot (first_part cmd) f1) as [[r2|e2|p2] f2] eqn:E2; try discriminate.
      injection H as <- _. cbn [set_secret r_game_id r_parts r_dice r_success]. destruct (Hb _ _ _ _ E2) as (c & ds & Hp & Hg). exists (first_part cmd), c, ds. auto. }
  pose proof Hp as Hp'. apply parse_sound in Hp as (c & t & rest & E & Hs & Hd & Hv & _). exists command, c. rewrite <- E. split; [exact Hc|]. split; [exact Hp'|]. intros Hf.
  pose proof (decode_split _ _ _ Hd) as (_ & _ & Hdec). rewrite E in Hg. apply C44_replies in Hg as (parts & reported & verdict & Hr & Er); [|exact (spells_ok _ _ Hs)].
  injection Er as Eg Ep Ed Es. rewrite Ep, Ed, Es, Eg in *.
  destruct (echo_reply _ _ _ _ _ _ Hs Hdec Hv Hf Hr Hdice) as (echo & more & ops & rolls & c' & P1 & P2 & P3 & P5 & P4). exists echo, more, ops, rolls. split; [exact P1|]. split; [exact P2|].
  intros Hfit q. specialize (P4 Hfit). rewrite (basic_run _ _ _ _ P4).
  assert (gives (db_game_id bot) (command_tree c') rolls (Result (db_game_id bot) parts rolls verdict false)) as Hg' by (apply C44_replies; eauto).
  rewrite (Hg' q). reflexivity.
Qed.
Print Assumptions C62_echo.
Example C62_example : exists c r, parse_command "([1...3]+1)D6-(1D4-2)*-2>=2+3" = Ok (command_tree c) /\ faithful c /\
  execute_command_with basic_bot "S([1...3]+1)D6-(1D4-2)*-2>=2+3 attack" (FQueue [Die 2 3; Die 5 6; Die 6 6; Die 1 6; Die 3 4]) = (Ok r, FQueue []) /\ r_dice r <> [] /\
  r_parts r = ["(3D6-(1D4-2)*(-2)>=5)"; "12[5,6,1]-(3[3]-2)*(-2)"; "14"; "成功"]%string /\
  execute_command_with basic_bot "3D6-(1D4-2)*(-2)>=5" (FQueue [Die 5 6; Die 6 6; Die 1 6; Die 3 4]) = (Ok (Result "DiceBot" (r_parts r) [Die 5 6; Die 6 6; Die 1 6; Die 3 4] Success false), FQueue []).
Proof.
  exists (DComp (Bin Minus (Leaf (DDice (Bin Plus (Leaf (RRand (Leaf 1) (Leaf 3))) (Leaf (RInt 1))) (Leaf (RInt 6))))
     (Bin Times (Bin Minus (Leaf (DDice (Leaf (RInt 1)) (Leaf (RInt 4)))) (Leaf (DInt 2))) (Neg (Leaf (DInt 2))))) ">=" (Bin Plus (Leaf 2) (Leaf 3))).
  eexists. split; [vm_compute; reflexivity|]. split.
  - split; [repeat split|]. intros H. apply has_value_mach in H. vm_compute in H. discriminate.
  - split; [vm_compute; reflexivity|]. repeat split; vm_compute; try reflexivity; discriminate.
Qed.
(** Where the echo is not faithful: a multiplication by a quotient, ... *)
Theorem C62_quotient_refuted : exists r, execute_command_with basic_bot "1D6*(5/2)" (FQueue [Die 3 6]) = (Ok r, FQueue []) /\ r_parts r = ["(1D6*5/2)"; "3[3]*5/2"; "6"]%string /\
  exists r', execute_command_with basic_bot "1D6*5/2" (FQueue [Die 3 6]) = (Ok r', FQueue []) /\ r_parts r' = ["(1D6*5/2)"; "3[3]*5/2"; "7"]%string.
Proof. eexists. split; [vm_compute; reflexivity|]. split; [reflexivity|]. eexists. split; vm_compute; reflexivity. Qed.
(** ... and the smallest int as a target. *)
Theorem C62_min_refuted : exists r, execute_command_with basic_bot "1B6>=0-9223372036854775807-1" (FQueue [Die 3 6]) = (Ok r, FQueue []) /\ r_parts r = ["(1B6>=-9223372036854775808)"; "3"; "成功数1"]%string /\
  exists r', execute_command_with basic_bot "1B6>=-9223372036854775808" (FQueue [Die 3 6]) = (Ok r', FQueue []) /\ r_parts r' = ["(1B6>=-9223372036854775807)"; "3"; "成功数1"]%string.
Proof. eexists. split; [vm_compute; reflexivity|]. split; [reflexivity|]. eexists. split; vm_compute; reflexivity. Qed.
