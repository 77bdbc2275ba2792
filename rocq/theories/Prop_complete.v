(** Property C79: the complete answer to a text. *)
From Verif Require Import Grammar ProofBase SpecText SpecSyntax SpecGrammar SpecTyped Dice SpecDice DiceProofs Utf8 Comp Ast Eval Command ParseSound ParseTop DecodeProofs ParseFacts ParseText
  BCDice CommandProofs ExecProofs BCDiceProofs SpecArith SpecRoll SpecTotals SpecLists SpecFair SpecMessage NumberText YieldsProofs Prop_parse Prop_exec Prop_exec2 Prop_totals Prop_typed Prop_message.
From Verif Require Prop_fair.
Open Scope list_scope.
Open Scope Z_scope.

(** A command that gives a result with certain dice gives it on every feeder that gives these dice. *)
Lemma draws_asked f ds f' : draws f ds f' -> forall intn k, f = FRandom intn k -> f' = FRandom intn (k + length ds) /\ Prop_fair.answers_to intn k ds.
Proof.
  induction 1 as [f|f sides d f1 ds f2 H1 H2 IH]; intros intn k ->.
  - rewrite Nat.add_0_r. split; [reflexivity|]. intros [|i] d; discriminate.
  - unfold feeder_next in H1. destruct (sides <=? 0); [discriminate|]. injection H1 as <- <-. destruct (IH intn (S k) eq_refl) as (-> & Hi). cbn [length]. split; [f_equal; lia|].
    intros [|i] x; cbn [nth_error]; [intros [= <-]; cbn [die_sides die_value]; rewrite Nat.add_0_r; reflexivity|]. intros Hx. replace (k + S i)%nat with (S k + i)%nat by lia. apply Hi, Hx.
Qed.
Lemma gives_draws gid n ds r f f' : gives gid n ds r -> draws f ds f' -> run_command gid n f = (Ok r, f').
Proof.
  intros Hg Hd. destruct f as [q|intn k].
  - apply draws_queue in Hd as (q' & -> & ->). apply Hg.
  - destruct (draws_asked _ _ _ Hd intn k eq_refl) as (-> & Ha). apply Prop_fair.gives_source; assumption.
Qed.
Lemma typed_ok input c secret : typed input c secret -> command_ok c.
Proof. intros (m & text & tail & _ & _ & Hs & _). eapply spells_ok, Hs. Qed.

(** C79: if the input is typed for a command, and the feeder's next dice are those of one of its replies (SpecMessage.v), this reply is the result, and exactly these dice are taken. *)
Theorem C79_answer bot input c secret ds parts reported verdict f f' : moderate input -> typed input c secret -> reply c ds parts reported verdict -> draws f ds f' ->
  execute_command_with bot input f = (Ok (Result (db_game_id bot) parts reported verdict secret), f').
Proof.
  intros Hl Ht Hr Hd. assert (gives (db_game_id bot) (command_tree c) ds (Result (db_game_id bot) parts reported verdict false)) as Hg by (apply (C44_replies _ c ds _ (typed_ok _ _ _ Ht)); eauto 6).
  pose proof (C76_typed_command bot input c secret f Hl Ht) as K. cbv zeta in K. rewrite (gives_draws _ _ _ _ _ _ Hg Hd) in K. exact K.
Qed.
Print Assumptions C79_answer.
(** C79: every success comes about like this; dice are lost before it only if none of the command's replies fits the feeder's dice (then the command was tried a second time). *)
Lemma typed_or_error bot input : moderate input -> valid_utf8 input -> (exists c secret, typed input c secret) \/ exists e, forall f, execute_command_with bot input f = (Err e, f).
Proof.
  intros Hl Hv. destruct (check_secret_cases input Hv) as (m & t & secret & -> & Hm & Vt & Hc). destruct (parse_command t) as [n|e|p] eqn:E; [| |exfalso; eapply parse_no_panic; exact E].
  { left. destruct (parsed_typed t n Vt E) as (c & text & tail & -> & -> & H1 & H2 & V1 & V2). exists c, secret, m, text, tail. repeat split; try assumption. unfold follows. tauto. }
  destruct (parse_command (first_part t)) as [n|e2|p] eqn:E2; [| |exfalso; eapply parse_no_panic; exact E2].
  { left. destruct (first_part_split t) as [(_ & H)|(q & a & x & -> & Hq & Ha & Hf)]; [congruence|]. rewrite Hf in E2. destruct (valid_split a x q Vt (proj1 (white_facts a Ha))) as (Vq & Vx).
    destruct (parsed_typed q n Vq E2) as (c & text & tail & -> & -> & H1 & H2 & V1 & V2). exists c, secret, m, text, (tail ++ String a x)%string.
    rewrite append_assoc. repeat split; try assumption.
    - destruct H2 as [H2| ->]; [right; right; exact H2|right; left]. exists a, x. auto.
    - unfold valid_utf8 in *. rewrite decode_app by exact V2. apply Forall_app. auto. }
  right. exists (syntax_error "input" (first_part t)). intros f. rewrite execute_command_with_eq, Hc, execute_basic_eq, E, execute_basic_eq, E2. reflexivity.
Qed.
Definition fits_no_reply (c : command) (f : feeder) : Prop := forall ds parts reported verdict f', reply c ds parts reported verdict -> ~ draws f ds f'.
Theorem C79_nothing_else bot input f r f' : moderate input -> valid_utf8 input -> execute_command_with bot input f = (Ok r, f') ->
  exists c secret lost ds f1 parts reported verdict,
    typed input c secret /\ draws f lost f1 /\ reply c ds parts reported verdict /\ draws f1 ds f' /\
    r = Result (db_game_id bot) parts reported verdict secret /\ (lost = [] /\ f1 = f \/ fits_no_reply c f).
Proof.
  intros Hl Hv H. destruct (typed_or_error bot input Hl Hv) as [(c & secret & Ht)|(e & He)]; [|rewrite He in H; discriminate].
  assert (forall g r0 g', run_command (db_game_id bot) (command_tree c) g = (Ok r0, g') -> exists ds parts reported verdict, reply c ds parts reported verdict /\ draws g ds g' /\ r0 = Result (db_game_id bot) parts reported verdict false) as Hrun.
  { intros g r0 g' E. apply run_command_gives in E as (ds & Hd & Hg). apply (C44_replies _ c ds _ (typed_ok _ _ _ Ht)) in Hg as (parts & reported & verdict & Hr & ->). exists ds, parts, reported, verdict. auto. }
  pose proof (C76_typed_command bot input c secret f Hl Ht) as K. cbv zeta in K. destruct (run_command (db_game_id bot) (command_tree c) f) as [[r0|e|p] f1] eqn:E1.
  - rewrite H in K. injection K as -> ->. destruct (Hrun _ _ _ E1) as (ds & parts & reported & verdict & Hr & Hd & ->). exists c, secret, [], ds, f, parts, reported, verdict. repeat split; try assumption; [constructor|left; auto].
  - destruct K as [(e' & K)|K]; [congruence|]. destruct (run_command (db_game_id bot) (command_tree c) f1) as [[r0|e2|p] f2] eqn:E2; rewrite H in K; [|destruct K; discriminate|discriminate].
    injection K as -> ->. destruct (Hrun _ _ _ E2) as (ds & parts & reported & verdict & Hr & Hd & ->). destruct (run_command_draws _ _ _ _ _ E1) as (lost & Hlost).
    exists c, secret, lost, ds, f1, parts, reported, verdict. repeat split; try assumption. right. intros ds' parts' reported' verdict' g Hr' Hd'.
    assert (gives (db_game_id bot) (command_tree c) ds' (Result (db_game_id bot) parts' reported' verdict' false)) as Hg by (apply (C44_replies _ c ds' _ (typed_ok _ _ _ Ht)); eauto 6).
    rewrite (gives_draws _ _ _ _ _ _ Hg Hd') in E1. discriminate.
  - rewrite H in K. discriminate.
Qed.
Print Assumptions C79_nothing_else.
(** C79: one text, one feeder: one reply.  (Two replies that fit the same feeder are the same.) *)
Theorem C79_one_reply input c secret f : moderate input -> typed input c secret ->
  forall ds parts reported verdict f1 ds' parts' reported' verdict' f2, reply c ds parts reported verdict -> draws f ds f1 -> reply c ds' parts' reported' verdict' -> draws f ds' f2 ->
  parts = parts' /\ reported = reported' /\ verdict = verdict' /\ f1 = f2.
Proof.
  intros Hl Ht ds parts reported verdict f1 ds' parts' reported' verdict' f2 H1 D1 H2 D2. pose proof (C79_answer basic_bot input c secret _ _ _ _ _ _ Hl Ht H1 D1) as E. rewrite (C79_answer basic_bot input c secret _ _ _ _ _ _ Hl Ht H2 D2) in E.
  injection E as -> -> -> ->. auto.
Qed.
Print Assumptions C79_one_reply.
(** "S2d6 attack!" on a queue with 3, 4 and one more die *)
Example C79_example : moderate "S2d6 attack!" /\ typed "S2d6 attack!" (DExpr (Prop_fair.plain_roll 2 6)) true /\
  reply (DExpr (Prop_fair.plain_roll 2 6)) [Die 3 6; Die 4 6] ["(2D6)"; "7[3,4]"; "7"]%string [Die 3 6; Die 4 6] Unspecified /\ draws (FQueue [Die 3 6; Die 4 6; Die 1 6]) [Die 3 6; Die 4 6] (FQueue [Die 1 6]).
Proof.
  split; [apply C76_example|]. split; [apply C76_example|]. split.
  - assert (run_command "DiceBot" (command_tree (DExpr (Prop_fair.plain_roll 2 6))) (FQueue [Die 3 6; Die 4 6]) = (Ok (Result "DiceBot" ["(2D6)"; "7[3,4]"; "7"]%string [Die 3 6; Die 4 6] Unspecified false), FQueue [])) as H by vmc.
    apply run_command_queue in H as (ds & q' & E & [= <-] & H). rewrite app_nil_r in E. subst ds. apply C44_replies in H; [|exact (typed_ok _ _ _ (proj1 C76_example))]. destruct H as (parts & rep & ver & Hr & [= <- <- <-]). exact Hr.
  - apply (draws_cons _ 6 _ (FQueue [Die 4 6; Die 1 6])); [reflexivity|]. apply (draws_cons _ 6 _ (FQueue [Die 1 6])); [reflexivity|constructor].
Qed.
