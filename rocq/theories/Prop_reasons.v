(** Property C80: why an accepted command can fail. *)
From Verif Require Import Grammar ProofBase SpecText SpecSyntax SpecGrammar SpecTyped Dice SpecDice DiceProofs Utf8 Comp CompProofs Ast Eval Command ParseSound ParseTop DecodeProofs ParseFacts ParseText NumberText
  PegText BCDice CommandProofs ExecProofs BCDiceProofs SpecArith SpecRoll SpecLists SpecCounts SpecReasons ArithProofs DRollProofs WpProofs WpCommand WhyProofs WhyCommand Prop_parse Prop_exec Prop_exec2 Prop_lists Prop_typed Prop_complete.
Open Scope list_scope.
Open Scope Z_scope.

(** Where dice come from: all those that can turn up are in D *)
Definition dice_in (D : die -> Prop) (f : feeder) : Prop :=
  match f with FQueue q => Forall D q | FRandom intn k => forall j sides d f', feeder_next (FRandom intn j) sides = (Ok d, f') -> D d end.
Lemma dice_in_feeds D f : dice_in D f -> feeds D f.
Proof. destruct f; cbn; intros H; constructor; exact H. Qed.

(** C80: the execution of an accepted command fails only for one of the reasons in SpecReasons.v, with exactly the message listed there -- or because the dice given in advance do not suffice. *)
Theorem C80_reasons D gid c f e f' : command_ok c -> dice_in D f -> run_command gid (command_tree c) f = (Err e, f') ->
  reason D c e \/ exists q, f = FQueue q /\ unfit_dice q e.
Proof.
  intros Hok Hf H. unfold run_command in H. destruct (run (execute default_max_rerolls gid (command_tree c)) (EState f [])) as [o s'] eqn:E. injection H as -> _.
  exact (ep_run D (reason D c) _ _ (ep_execute D gid c Hok) (EState f []) e s' (dice_in_feeds _ _ Hf) E).
Qed.
Print Assumptions C80_reasons.
(** C80: with a source of random numbers only the listed reasons remain, for dice that show a number between 1 and that of their sides. *)
Theorem C80_random gid c intn k e f' : command_ok c -> intn_contract intn -> run_command gid (command_tree c) (FRandom intn k) = (Err e, f') -> reason legal c e.
Proof.
  intros Hok Hi H. destruct (C80_reasons legal gid c (FRandom intn k) e f' Hok) as [K|(q & K & _)]; [|exact H|exact K|discriminate K].
  pose proof (feeds_legal_random intn k Hi) as F. inversion F; assumption.
Qed.
Print Assumptions C80_random.

(** ** Commands that never fail *)
Lemma value_leaf v : has_value (Leaf v) 0 -> v = 0.
Proof. unfold has_value. cbn. intros H. injection H as H. exact H. Qed.
Lemma operand_literal D v x : comes_out D (Leaf (RInt v)) x -> x = v.
Proof. intros (ds & _ & ie & H & Hv). inversion H as [l ds' m H1| |]. subst. destruct H1 as (_ & ->). unfold has_value in Hv. cbn in Hv. injection Hv as ->. reflexivity. Qed.
Lemma d_literal D v x : d_comes_out D (Leaf (DInt v)) x -> x = v.
Proof.
  intros (ops & rolls & mid & fin & _ & _ & H1 & H2 & H3). inversion H1 as [l ds m H| |]; subst. destruct m as [w|]; [|destruct H]. destruct H as (_ & ->).
  inversion H2 as [l ds m H| |]; subst. destruct m as [w|]; [|destruct H]. destruct H as (_ & ->). unfold has_value in H3. cbn in H3. injection H3 as ->. reflexivity.
Qed.
Lemma unproblematic_no_reason D c msg : unproblematic c -> ~ reason D c msg.
Proof.
  intros (H1 & H2 & H3) H. destruct H as [e msg He Hm|r msg Hr Hm|e msg He Hm|msg Hm].
  - rewrite Forall_forall in H2. destruct Hm as [m a b x Hp _ Hb]. destruct (H2 e He m a b Hp) as (v & -> & Hv). apply Hv, value_leaf, Hb.
  - rewrite Forall_forall in H1. destruct (H1 r Hr) as (n & s & -> & Hn & Hs).
    assert (forall v m', ~ operand_reason D (Leaf (RInt v)) m') as Hno.
    { intros v m' K. destruct K as [m' K|lo hi m' K _]; [destruct K as [m a b x K _ _]|]; inversion K. }
    destruct Hm as [m' K|m' K|x y Kx Ky K|x y Kx Ky _ K]; cbn [fst snd] in *; [exact (Hno _ _ K)|exact (Hno _ _ K)| |].
    + apply operand_literal in Ky. lia.
    + apply operand_literal in Kx. lia.
  - destruct (H3 e He) as (Hq & _). destruct Hm as [m a b x Hp _ Hb]. destruct (Hq m a b Hp) as (v & -> & Hv). apply Hv. symmetry. eapply d_literal, Hb.
  - destruct Hm as [c e lo hi He Hp|op t lo hi|op t a b lo hi Hp|op t a b Ha|op t a b Ha Hb|op t v].
    + destruct (H3 e He) as (_ & K & _). exact (K lo hi Hp).
    + destruct (H3 _ eq_refl) as (_ & K & _). exact (K lo hi (part_self _)).
    + inversion_clear H1 as [|? ? (n & s & E & _) _]. injection E as -> ->. destruct Hp as [Hp|Hp]; inversion Hp.
    + inversion_clear H1 as [|? ? (n & s & E & _) _]. injection E as -> ->. apply Ha. exists n. reflexivity.
    + inversion_clear H1 as [|? ? (n & s & E & _) _]. injection E as -> ->. apply Hb. exists s. reflexivity.
    + destruct (H3 _ eq_refl) as (_ & _ & K). apply K. reflexivity.
Qed.
(** C80: a command whose rolls have written, positive numbers, and which divides only by written numbers other than 0, always gets an answer, whatever the source of random numbers answers. *)
Theorem C80_never_fails gid c intn k : command_ok c -> countable c -> unproblematic c -> intn_contract intn ->
  exists r f', run_command gid (command_tree c) (FRandom intn k) = (Ok r, f').
Proof.
  intros Hok Hc Hu Hi. destruct (run_command gid (command_tree c) (FRandom intn k)) as [[r|e|p] f'] eqn:E; [eauto| |]; exfalso.
  - exact (unproblematic_no_reason legal c e Hu (C80_random gid c intn k e f' Hok Hi E)).
  - destruct (C32_only_alloc_panics gid c (FRandom intn k) p f' Hok Hc (or_intror (ex_intro _ intn (ex_intro _ k (conj eq_refl Hi)))) E) as (_ & r & Hr & ops & x & _ & Hx & Hg).
    destruct Hu as (H1 & _). rewrite Forall_forall in H1. destruct (H1 r Hr) as (n & s & -> & Hn & _). cbn [fst] in Hx.
    assert (x = n) as -> by (eapply (operand_literal (fun _ => True)); exists ops; split; [apply Forall_forall; intros; exact I|exact Hx]). lia.
Qed.
Print Assumptions C80_never_fails.

(** ** What the user sees *)
(** the text before the first white space *)
Definition first_word (w s : string) : Prop := no_white w /\ (s = w \/ exists a rest, s = (w ++ String a rest)%string /\ white a).
Lemma unfit_later taken q e : unfit_dice q e -> unfit_dice (taken ++ q) e.
Proof. intros (n & s & t & rest & l & -> & H). exists n, s, (taken ++ t), rest, l. rewrite app_assoc. split; [reflexivity|exact H]. Qed.
Lemma dice_in_draws D f ds f' : dice_in D f -> draws f ds f' -> dice_in D f'.
Proof. intros H K. destruct (feeds_draws D f ds f' (dice_in_feeds _ _ H) K) as (_ & F). destruct F; assumption. Qed.
(** C80: a text that types a command gets an error only if the command fails, and the error is the message of the failure or, where the command is not complete at its first white space, the
    syntax error of its first word. *)
Theorem C80_typed D bot input c secret f e f' : moderate input -> typed input c secret -> dice_in D f -> execute_command_with bot input f = (Err e, f') ->
  let failure msg := reason D c msg \/ exists q, f = FQueue q /\ unfit_dice q msg in
  failure e \/ (exists msg, failure msg) /\ exists m body w, input = (m ++ body)%string /\ mark secret m /\ first_word w body /\ parse_text "input" w = Err e.
Proof.
  intros Hl Ht HD H. cbv zeta. pose proof (typed_ok _ _ _ Ht) as Hok.
  assert (exists m t, input = (m ++ t)%string /\ mark secret m /\ check_secret input = (t, secret) /\
    (parse_command t = Ok (command_tree c) \/ is_err (parse_command t) /\ parse_command (first_part t) = Ok (command_tree c))) as (m & t & Hin & Hm & Hc & Hp).
  { pose proof (moderate_fits _ Hl) as Hfit. destruct (typed_parse input c secret Hfit Ht) as (t & Hc & Hp). destruct Ht as (m & text & tail & -> & Hm & Hs & Hfo & V1 & V2).
    exists m, (text ++ tail)%string. split; [reflexivity|]. split; [exact Hm|]. cut (t = (text ++ tail)%string); [intros Et; rewrite <- Et; rewrite <- Et in Hc; split; [exact Hc|exact Hp]|].
    assert (fits (text ++ tail)) as Hl' by (unfold fits in *; rewrite !length_append in *; lia).
    destruct (typed_body c text tail Hl' Hs Hfo V1 V2) as (Hc' & _). destruct secret; cbn [mark] in Hm.
    - assert (valid_utf8 (text ++ tail)) as V by (unfold valid_utf8 in *; rewrite decode_app by exact V1; apply Forall_app; auto).
      destruct Hm as [-> | ->]; cbn [append] in Hc; (rewrite check_secret_marked in Hc; [injection Hc as <-; reflexivity|auto|auto]).
    - subst m. cbn [append] in Hc. rewrite Hc' in Hc. injection Hc as <-. reflexivity. }
  assert (Z.of_nat (String.length t) < two63) as Hlt.
  { pose proof (check_secret_length input) as H1. rewrite Hc in H1. cbn [fst] in H1. unfold moderate in Hl. change (2 ^ 61) with 2305843009213693952 in Hl. unfold two63. lia. }
  rewrite (execute_command_with_eq bot input f), Hc in H. rewrite (execute_basic_eq bot t) in H. destruct Hp as [Hp|((e0 & He0) & Hp)].
  - rewrite Hp, with_fresh_env_run_command in H. destruct (run_command (db_game_id bot) (command_tree c) f) as [[r|e1|p] f1] eqn:E1; [discriminate H| |discriminate H].
    pose proof (C80_reasons D _ c f e1 f1 Hok HD E1) as F1. rewrite execute_basic_eq in H.
    destruct (parse_command (first_part t)) as [n|e2|p2] eqn:E2; [| |exfalso; eapply parse_no_panic; exact E2].
    + assert (n = command_tree c) as ->.
      { destruct (first_part_split t) as [(_ & K)|(q & a & x & Hs & Hq & Ha & Hf)]; [congruence|]. rewrite Hf in *. rewrite Hs in Hp. symmetry. eapply (comment_parse q a x); [exact Ha| |exact E2|exact Hp].
        rewrite Hs, length_append in Hlt. lia. }
      rewrite with_fresh_env_run_command in H. destruct (run_command (db_game_id bot) (command_tree c) f1) as [[r|e'|p] f2] eqn:E3; [discriminate H| |discriminate H]. injection H as -> ->.
      destruct (run_command_draws _ _ _ _ _ E1) as (ds & Hd). left. destruct (C80_reasons D _ c f1 e f' Hok (dice_in_draws _ _ _ _ HD Hd) E3) as [K|(q & -> & K)]; [left; exact K|].
      right. destruct f as [q0|intn k].
      * apply draws_queue in Hd as (q' & E & ->). injection E as ->. exists (ds ++ q'). split; [reflexivity|]. apply unfit_later, K.
      * exfalso. clear - Hd. remember (FRandom intn k) as f eqn:Ef. remember (FQueue q) as g eqn:Eg. revert k Ef Eg. induction Hd as [f|f s d f1 ds f2 Hn Hd IH]; intros k -> Eg; [discriminate Eg|].
        unfold feeder_next in Hn. destruct (s <=? 0); [discriminate Hn|]. injection Hn as _ <-. eapply IH; eauto.
    + injection H as <- <-. right. split; [exists e1; exact F1|]. exists m, t, (first_part t). split; [exact Hin|]. split; [exact Hm|]. split; [|rewrite parse_text_eq, E2; reflexivity].
      destruct (first_part_split t) as [(Hn & ->)|(q & a & x & -> & Hq & Ha & ->)]; [split; [exact Hn|left; reflexivity]|]. split; [exact Hq|right]. exists a, x. split; [reflexivity|exact Ha].
  - rewrite He0, execute_basic_eq, Hp, with_fresh_env_run_command in H. destruct (run_command (db_game_id bot) (command_tree c) f) as [[r|e1|p] f1] eqn:E1; [discriminate H| |discriminate H]. injection H as -> ->.
    left. exact (C80_reasons D _ c f e f' Hok HD E1).
Qed.
Print Assumptions C80_typed.

(** Each reason occurs. *)
Definition answer_of (c : command) (ds : list die) : outcome result := fst (run_command "DiceBot" (command_tree c) (FQueue ds)).
Definition die6 (v : Z) : die := Die v 6.
Definition lit (v : Z) : rexpr := Leaf (RInt v).
Definition xdy (x y : Z) : SpecSyntax.dexpr := Leaf (DDice (lit x) (lit y)).
(* C(7/(2-2)) *)
Example by_zero_number : let c := Calculation (Bin (Over RoundDown) (Leaf 7) (Bin Minus (Leaf 2) (Leaf 2))) in
  answer_of c [] = Err "7 divided by zero"%string /\ reason legal c "7 divided by zero".
Proof.
  split; [vm_compute; reflexivity|]. eapply reason_number; [left; reflexivity|]. apply (by_zero_ has_value _ RoundDown (Leaf 7) (Bin Minus (Leaf 2) (Leaf 2)) 7); [apply part_self|reflexivity|vm_compute; reflexivity].
Qed.
(* 1D6/(1D6-3): with 5 and 3 *)
Example by_zero_dice : let c := DExpr (Bin (Over RoundDown) (xdy 1 6) (Bin Minus (xdy 1 6) (Leaf (DInt 3)))) in
  answer_of c [die6 5; die6 3] = Err "5 divided by zero"%string /\ (exists r, answer_of c [die6 5; die6 4] = Ok r) /\ reason legal c "5 divided by zero".
Proof.
  split; [vm_compute; reflexivity|]. split; [eexists; vm_compute; reflexivity|]. eapply reason_total; [reflexivity|]. apply (by_zero_ (d_comes_out legal) _ RoundDown (xdy 1 6) (Bin Minus (xdy 1 6) (Leaf (DInt 3))) 5); [apply part_self| |].
  - exists [], [die6 5], (Leaf (MDice 1 6)), (Leaf (SRoll [die6 5])). split; [constructor|]. split; [repeat constructor; cbn; lia|]. split; [|split].
    + constructor. exists [], []. split; [reflexivity|]. split; apply operand_leaf_value; split; reflexivity.
    + constructor. split; [reflexivity|]. unfold rolled, max_alloc_16. cbn. repeat split; try lia. repeat constructor.
    + vm_compute. reflexivity.
  - exists [], [die6 3], (Bin Minus (Leaf (MDice 1 6)) (Leaf (MInt 3))), (Bin Minus (Leaf (SRoll [die6 3])) (Leaf (SInt 3))). split; [constructor|]. split; [repeat constructor; cbn; lia|]. split; [|split].
    + change (@nil die) with (@nil die ++ @nil die). constructor; constructor; [|split; reflexivity]. exists [], []. split; [reflexivity|]. split; apply operand_leaf_value; split; reflexivity.
    + change [die6 3] with ([die6 3] ++ []). constructor; constructor; [|split; reflexivity]. split; [reflexivity|]. unfold rolled, max_alloc_16. cbn. repeat split; try lia. repeat constructor.
    + vm_compute. reflexivity.
Qed.
(* [3...1]D6 and (0)B6, 2B0, 0U6[5] *)
Example empty_range : answer_of (DExpr (Leaf (DDice (Leaf (RRand (Leaf 3) (Leaf 1))) (lit 6)))) [] = Err "evalRandomNumber: min (3) must be less than max (1)"%string.
Proof. vm_compute. reflexivity. Qed.
Example wide_range : answer_of (DExpr (Leaf (DDice (Leaf (RRand (Neg (Leaf 9223372036854775807)) (Leaf 9223372036854775807))) (lit 6)))) [] = Err "RollDice(num: 1, sides: -1): ダイスの面数が少なすぎます"%string.
Proof. vm_compute. reflexivity. Qed.
Example few_dice : answer_of (BList (lit 0, lit 6) []) [] = Err "RollDice(num: 0, sides: 6): 振るダイス数が少なすぎます"%string /\ reason legal (BList (lit 0, lit 6) []) "RollDice(num: 0, sides: 6): 振るダイス数が少なすぎます".
Proof.
  split; [vm_compute; reflexivity|]. eapply reason_roll; [left; reflexivity|]. apply (reason_few_dice legal "RollDice" (lit 0, lit 6) 0 6); [| |lia|lia]; exists []; (split; [constructor|apply operand_leaf_value; split; reflexivity]).
Qed.
Example few_sides : answer_of (BList (lit 2, lit 0) []) [] = Err "RollDice(num: 2, sides: 0): ダイスの面数が少なすぎます"%string.
Proof. vm_compute. reflexivity. Qed.
Example few_dice_u : answer_of (UExpr (lit 0, lit 6) [] (Some (Leaf 5)) None) [] = Err "evalCompoundingRoll(num: 0, sides: 6): 振るダイス数が少なすぎます"%string.
Proof. vm_compute. reflexivity. Qed.
(* 2D6+[1...3], [1...3]>=2, (1+1)D6>=7, 2D(3+3)>=7, [1...3]D6>=7 *)
Example not_supported :
  answer_of (DExpr (Bin Plus (xdy 2 6) (Leaf (DRand (Leaf 1) (Leaf 3))))) [] = Err no_random_text /\
  answer_of (DComp (Leaf (DRand (Leaf 1) (Leaf 3))) ">=" (Leaf 2)) [] = Err "determineValueOfVariableExpr not implemented: RandomNumber"%string /\
  answer_of (DComp (Leaf (DDice (Bin Plus (lit 1) (lit 1)) (lit 6))) ">=" (Leaf 7)) [] = Err "num is not Int: Add"%string /\
  answer_of (DComp (Leaf (DDice (lit 2) (Bin Plus (lit 3) (lit 3)))) ">=" (Leaf 7)) [] = Err "sides is not Int: Add"%string /\
  answer_of (DComp (Leaf (DDice (Leaf (RRand (Leaf 1) (Leaf 3))) (lit 6))) ">=" (Leaf 7)) [] = Err no_random_text.
Proof. repeat split; vm_compute; reflexivity. Qed.
(* 2D6 with one die given, and with a wrong one *)
Example not_enough : answer_of (DExpr (xdy 2 6)) [die6 1] = Err "取り出せるダイスがありません"%string /\
  answer_of (DExpr (xdy 2 6)) [die6 1; Die 3 10] = Err "RollDice(num: 2, sides: 6) -> 3/10: ダイスの面数が指定と一致しません"%string.
Proof. split; vm_compute; reflexivity. Qed.
(* 2D6+1>=7 never fails. *)
Example safe_command : unproblematic (DComp (Bin Plus (xdy 2 6) (Leaf (DInt 1))) ">=" (Leaf 7)).
Proof.
  split; [|split].
  - apply Forall_cons; [|apply Forall_nil]. exists 2, 6. split; [reflexivity|lia].
  - apply Forall_cons; [|apply Forall_nil]. intros m a b H. inversion H.
  - intros e [= <-]. split; [|split]; [| |discriminate].
    + intros m a b H. inversion H as [|? H1|? ? ? H1|? ? ? H1]; subst; inversion H1.
    + intros lo hi H. inversion H as [|? H1|? ? ? H1|? ? ? H1]; subst; inversion H1.
Qed.
