(** Property C76: what is typed is what is executed. *)
From Verif Require Import Grammar ProofBase SpecText SpecSyntax SpecGrammar SpecTyped Dice SpecDice DiceProofs Utf8 Comp Ast Eval Command ParseSound ParseTop DecodeProofs ParseFacts ParseText
  BCDice CommandProofs ExecProofs BCDiceProofs SpecArith SpecRoll SpecTotals SpecLists SpecFair NumberText Prop_parse Prop_exec Prop_exec2 Prop_totals Prop_fair.
Open Scope list_scope.
Open Scope Z_scope.

Lemma valid_raw s t rest : decode s = t ++ rest -> valid_utf8 s -> valid_utf8 (raw_text t) /\ valid_utf8 (raw_text rest) /\ decode (raw_text t) = t.
Proof.
  intros H Hv. unfold valid_utf8 in *. rewrite H in Hv. apply Forall_app in Hv as (V1 & V2). destruct (decode_split _ _ _ H) as (_ & E2 & Hd). rewrite E2.
  rewrite (decode_raw_text t Hd V1). auto.
Qed.
Lemma valid_tail_head x : valid_utf8 x -> valid_head (decode x).
Proof. unfold valid_utf8. destruct (decode x); [constructor|]. intros H. inversion H. assumption. Qed.
(** A command that may not be followed by any text contains no white space. *)
Lemma spells_no_white c t : spells c (decode t) -> (forall items, c <> Choose items) -> no_white t.
Proof.
  intros H Hc. pose proof (cr_bytes _ (decode_decoded _) (spells_chars _ _ H Hc)) as Hb. rewrite raw_decode in Hb. unfold no_white. eapply Forall_impl; [|exact Hb].
  intros a Ha Hw. apply (proj2 (white_facts a Hw)). exact Ha.
Qed.
Lemma typed_body c text tail : fits (text ++ tail) -> spells c (decode text) -> follows c tail -> valid_utf8 text -> valid_utf8 tail ->
  check_secret (text ++ tail) = ((text ++ tail)%string, false) /\
  (parse_command (text ++ tail) = Ok (command_tree c) \/ is_err (parse_command (text ++ tail)) /\ parse_command (first_part (text ++ tail)) = Ok (command_tree c)).
Proof.
  intros Hl Hs Hf V1 V2. unfold fits in Hl. change (2 ^ 63) with two63 in Hl. rewrite length_append in Hl.
  assert (parse_command text = Ok (command_tree c)) as Hp.
  { apply (parse_complete text c (decode text) []); [exact Hs|symmetry; apply app_nil_r|exact V1|exact I|right; reflexivity|lia]. }
  split; [eapply parse_not_secret; exact Hp|].
  assert (may_be_followed c -> parse_command (text ++ tail) = Ok (command_tree c)) as Hm.
  { intros Hm. apply (parse_complete _ c (decode text) (decode tail)); [exact Hs|apply decode_app; exact V1|exact V1|apply valid_tail_head, V2|left; exact Hm|rewrite length_append; lia]. }
  destruct Hf as [-> |[(a & x & -> & Ha)|Hf]]; [left; rewrite append_nil_r; exact Hp| |left; apply Hm, Hf].
  destruct (parse_command (text ++ String a x)) as [n|e|p] eqn:E; [left|right|exfalso; eapply parse_no_panic; exact E].
  - f_equal. eapply (comment_parse text a x); [exact Ha|lia|exact Hp|exact E].
  - split; [exists e; reflexivity|]. rewrite first_part_white; [exact Hp| |exact Ha]. apply (spells_no_white c); [exact Hs|]. intros items ->. specialize (Hm I). congruence.
Qed.
Lemma typed_parse input c secret : fits input -> typed input c secret -> exists t, check_secret input = (t, secret) /\
  (parse_command t = Ok (command_tree c) \/ is_err (parse_command t) /\ parse_command (first_part t) = Ok (command_tree c)).
Proof.
  intros Hl (m & text & tail & -> & Hm & Hs & Hf & V1 & V2). exists (text ++ tail)%string.
  assert (fits (text ++ tail)) as Hl' by (unfold fits in *; rewrite !length_append in *; lia).
  destruct (typed_body c text tail Hl' Hs Hf V1 V2) as (Hc & Hp). split; [|exact Hp]. destruct secret; cbn [mark] in Hm.
  - assert (valid_utf8 (text ++ tail)) as V by (unfold valid_utf8 in *; rewrite decode_app by exact V1; apply Forall_app; auto).
    destruct Hm as [-> | ->]; apply check_secret_marked; auto.
  - subst m. exact Hc.
Qed.
Lemma moderate_fits s : moderate s -> fits s.
Proof. unfold moderate, fits. change (2 ^ 61) with 2305843009213693952. change (2 ^ 63) with 9223372036854775808. lia. Qed.

(** C76: a text that types a command, with a mark and a comment or without, executes this command: once, or -- when that fails -- possibly a second time.  The result is secret exactly
    if there is a mark. *)
Theorem C76_typed_command bot input c secret f : moderate input -> typed input c secret ->
  let final (x : outcome result * feeder) : Prop :=
    match x with
    | (Ok r, f1) => execute_command_with bot input f = (Ok (Result (r_game_id r) (r_parts r) (r_dice r) (r_success r) secret), f1)
    | (Err _, f1) => exists e, execute_command_with bot input f = (Err e, f1)
    | (Panic p, f1) => execute_command_with bot input f = (Panic p, f1)
    end in
  match run_command (db_game_id bot) (command_tree c) f with
  | (Err e, f1) => final (Err e, f1) \/ final (run_command (db_game_id bot) (command_tree c) f1)
  | other => final other
  end.
Proof.
  intros Hl Ht. destruct (typed_parse input c secret (moderate_fits _ Hl) Ht) as (t & Hc & Hp).
  assert (Z.of_nat (String.length t) < two63) as Hlt.
  { pose proof (check_secret_length input) as H1. rewrite Hc in H1. cbn [fst] in H1. unfold moderate in Hl. change (2 ^ 61) with 2305843009213693952 in Hl. unfold two63. lia. }
  rewrite (execute_command_with_eq bot input f), Hc. rewrite (execute_basic_eq bot t). destruct Hp as [Hp|((e0 & He0) & Hp)].
  - rewrite Hp, with_fresh_env_run_command. destruct (run_command (db_game_id bot) (command_tree c) f) as [[r|e|p] f1]; [reflexivity| |reflexivity].
    rewrite execute_basic_eq. destruct (parse_command (first_part t)) as [n|e2|p2] eqn:E2; [|left; eexists; reflexivity|exfalso; eapply parse_no_panic; exact E2].
    assert (n = command_tree c) as ->.
    { destruct (first_part_split t) as [(_ & H)|(q & a & x & Hs & Hq & Ha & Hf)]; [congruence|]. rewrite Hf in *. rewrite Hs in Hp. symmetry. eapply (comment_parse q a x); [exact Ha| |exact E2|exact Hp].
      rewrite Hs, length_append in Hlt. lia. }
    right. rewrite with_fresh_env_run_command. destruct (run_command (db_game_id bot) (command_tree c) f1) as [[r|e'|p] f2]; [reflexivity|eexists; reflexivity|reflexivity].
  - rewrite He0, execute_basic_eq, Hp, with_fresh_env_run_command. destruct (run_command (db_game_id bot) (command_tree c) f) as [[r|e|p] f1]; [reflexivity|left; eexists; reflexivity|reflexivity].
Qed.
Print Assumptions C76_typed_command.

(** C76: and every other (validly encoded) text is an error that takes no dice. *)
Lemma parsed_typed t n : valid_utf8 t -> parse_command t = Ok n -> exists c text tail, n = command_tree c /\ t = (text ++ tail)%string /\ spells c (decode text) /\
  (may_be_followed c \/ tail = EmptyString) /\ valid_utf8 text /\ valid_utf8 tail.
Proof.
  intros Hv H. apply parse_sound in H as (c & x & rest & -> & H1 & H2 & _ & _ & H5). destruct (valid_raw _ _ _ H2 Hv) as (V1 & V2 & V3). destruct (decode_split _ _ _ H2) as (E & _ & _).
  exists c, (raw_text x), (raw_text rest). rewrite V3. repeat split; try assumption. destruct H5 as [H5| ->]; [left; exact H5|right; reflexivity].
Qed.
Lemma valid_split a x s : valid_utf8 (s ++ String a x) -> byte_val a < 128 -> valid_utf8 s /\ valid_utf8 (String a x).
Proof.
  unfold valid_utf8. intros H Ha. rewrite decode_boundary in H by exact Ha. apply Forall_app in H as (H1 & H2). split; [exact H1|].
  pose proof (decode_boundary EmptyString a x Ha) as E. cbn [append] in E. rewrite E. exact H2.
Qed.
Lemma check_secret_cases input : valid_utf8 input -> exists m t secret, input = (m ++ t)%string /\ mark secret m /\ valid_utf8 t /\ check_secret input = (t, secret).
Proof.
  intros Hv. destruct input as [|a s].
  - exists EmptyString, EmptyString, false. repeat split. exact Hv.
  - assert ((a = "s" \/ a = "S") \/ ~ secret_marker (String a s))%char as [Ha|Ha].
    { destruct (ascii_dec a "s") as [->|N1]; [auto|]. destruct (ascii_dec a "S") as [->|N2]; [auto|]. right. intros (s' & [E|E]); injection E as -> _; auto. }
    + exists (String a EmptyString), s, true.
      assert (valid_utf8 s) as Hs. { unfold valid_utf8 in *. replace (decode (String a s)) with (ascii_char a :: decode s) in Hv by (destruct Ha as [-> | ->]; reflexivity). inversion Hv. assumption. }
      split; [reflexivity|]. split; [destruct Ha as [-> | ->]; cbn; auto|]. split; [exact Hs|apply check_secret_marked; assumption].
    + exists EmptyString, (String a s), false. split; [reflexivity|]. split; [reflexivity|]. split; [exact Hv|apply check_secret_not; exact Ha].
Qed.
Theorem C76_nothing_else bot input : moderate input -> valid_utf8 input -> (forall c secret, ~ typed input c secret) -> exists e, forall f, execute_command_with bot input f = (Err e, f).
Proof.
  intros Hl Hv Hn. destruct (check_secret_cases input Hv) as (m & t & secret & -> & Hm & Vt & Hc).
  assert (is_err (parse_command t)) as (e1 & E1).
  { destruct (parse_command t) as [n|e|p] eqn:E; [|exists e; reflexivity|exfalso; eapply parse_no_panic; exact E]. exfalso. destruct (parsed_typed t n Vt E) as (c & text & tail & -> & -> & H1 & H2 & V1 & V2).
    apply (Hn c secret). exists m, text, tail. repeat split; try assumption. unfold follows. tauto. }
  assert (is_err (parse_command (first_part t))) as (e2 & E2).
  { destruct (parse_command (first_part t)) as [n|e|p] eqn:E; [|exists e; reflexivity|exfalso; eapply parse_no_panic; exact E]. exfalso.
    destruct (first_part_split t) as [(_ & H)|(q & a & x & -> & Hq & Ha & Hf)]; [congruence|]. rewrite Hf in E. destruct (valid_split a x q Vt (proj1 (white_facts a Ha))) as (Vq & Vx).
    destruct (parsed_typed q n Vq E) as (c & text & tail & -> & -> & H1 & H2 & V1 & V2). apply (Hn c secret). exists m, text, (tail ++ String a x)%string.
    rewrite append_assoc. repeat split; try assumption.
    - destruct H2 as [H2| ->]; [right; right; exact H2|right; left]. exists a, x. auto.
    - unfold valid_utf8 in *. rewrite decode_app by exact V2. apply Forall_app. auto. }
  exists (syntax_error "input" (first_part t)). intros f. rewrite execute_command_with_eq, Hc, execute_basic_eq, E1, execute_basic_eq, E2. reflexivity.
Qed.
Print Assumptions C76_nothing_else.
(** C76: a text types at most one command. *)
Theorem C76_unambiguous input c c' secret secret' : fits input -> typed input c secret -> typed input c' secret' -> command_tree c = command_tree c' /\ secret = secret'.
Proof.
  intros Hl H H'. destruct (typed_parse _ _ _ Hl H) as (t & Hc & Hp). destruct (typed_parse _ _ _ Hl H') as (t' & Hc' & Hp'). rewrite Hc in Hc'. injection Hc' as <- <-. split; [|reflexivity].
  destruct Hp as [Hp|((e & He) & Hp)], Hp' as [Hp'|((e' & He') & Hp')]; congruence.
Qed.
Print Assumptions C76_unambiguous.

(** * Totals and chances, for typed texts *)
Definition answer (bot : dicebot) (input : string) (rs : list Z) : option result :=
  match execute_command_with bot input (FRandom (source rs) 0) with (Ok r, _) => Some r | _ => None end.
Lemma reply_answer bot input c secret rs r : moderate input -> typed input c secret -> reply (db_game_id bot) c rs = Some r ->
  answer bot input rs = Some (Result (r_game_id r) (r_parts r) (r_dice r) (r_success r) secret).
Proof.
  intros Hl Ht H. pose proof (C76_typed_command bot input c secret (FRandom (source rs) 0) Hl Ht) as K. cbv zeta in K. unfold reply in H. unfold answer.
  destruct (run_command (db_game_id bot) (command_tree c) (FRandom (source rs) 0)) as [[r0|e|p] f1]; try discriminate. injection H as ->. rewrite K. reflexivity.
Qed.
(** C74, C76: nDs typed in any way: of the s^n equally likely lists of answers, exactly [ways n s v] lead to the total v. *)
Theorem C74_typed_totals bot input secret n s v : moderate input -> typed input (DExpr (plain_roll n s)) secret ->
  (1 <= n)%nat -> Z.of_nat n <= max_alloc_16 -> 1 <= s -> Z.of_nat n * s <= max_int ->
  count (fun rs => part_is 2 (itoa v) (answer bot input rs)) (all_answers n s) = ways n s v.
Proof.
  intros Hl Ht H1 H2 H3 H4. rewrite <- (C74_totals_distribution (db_game_id bot) n s v H1 H2 H3 H4). apply count_ext. intros rs Hrs. apply in_all in Hrs.
  destruct (plain_reply (db_game_id bot) n s rs H1 H2 H3 H4 Hrs) as (s1 & s2 & E). rewrite (reply_answer _ _ _ _ _ _ Hl Ht E), E. reflexivity.
Qed.
Print Assumptions C74_typed_totals.
Theorem C74_typed_chance bot input secret n s op t w totals : moderate input -> typed input (DComp (plain_roll n s) op t) secret ->
  (1 <= n)%nat -> Z.of_nat n <= max_alloc_16 -> 1 <= s -> Z.of_nat n * s <= max_int -> is_compare_op op -> iok t -> has_value t w ->
  NoDup totals -> (forall v, In v totals <-> Z.of_nat n <= v <= Z.of_nat n * s /\ compares op v w) ->
  count (fun rs => succeeded (answer bot input rs)) (all_answers n s) = list_sum (map (ways n s) totals).
Proof.
  intros Hl Ht H1 H2 H3 H4 Hop Hi Hw Hn Hin. rewrite <- (C74_chance_of_success (db_game_id bot) n s op t w totals H1 H2 H3 H4 Hop Hi Hw Hn Hin). apply count_ext. intros rs Hrs. apply in_all in Hrs.
  destruct (compare_some (db_game_id bot) n s op t w rs) as (parts & E); try assumption. rewrite (reply_answer _ _ _ _ _ _ Hl Ht E), E. reflexivity.
Qed.
Print Assumptions C74_typed_chance.
Theorem C74_typed_successes bot input secret n s op t w hits k : moderate input -> typed input (BComp (plain_b n s) [] op t) secret ->
  (1 <= n)%nat -> Z.of_nat n <= max_alloc_16 -> 1 <= s <= max_int -> is_compare_op op -> has_value t w ->
  NoDup hits -> (forall v, In v hits <-> 1 <= v <= s /\ compares op v w) ->
  count (fun rs => part_is 2 ("成功数" ++ itoa (Z.of_nat k)) (answer bot input rs)) (all_answers n s) =
    (binomial n k * length hits ^ k * (Z.to_nat s - length hits) ^ (n - k))%nat.
Proof.
  intros Hl Ht H1 H2 H3 Hop Hw Hn Hin. rewrite <- (C74_successes_distribution (db_game_id bot) n s op t w hits k H1 H2 H3 Hop Hw Hn Hin). apply count_ext. intros rs Hrs. apply in_all in Hrs.
  destruct (b_reply (db_game_id bot) n s op t w rs H1 H2 H3 Hop Hw Hrs) as (s1 & s2 & E). rewrite (reply_answer _ _ _ _ _ _ Hl Ht E), E. reflexivity.
Qed.
Print Assumptions C74_typed_successes.
Theorem C74_typed_choice bot input secret items item : moderate input -> typed input (Choose items) secret -> Z.of_nat (length items) <= max_int ->
  count (fun rs => part_is 1 item (answer bot input rs)) (all_answers 1 (Z.of_nat (length items))) = count_occ string_dec items item.
Proof.
  intros Hl Ht Hn. rewrite <- (C74_choice_distribution (db_game_id bot) items item Hn). apply count_ext. intros rs Hrs. apply in_all in Hrs as (Hr & Hf).
  destruct rs as [|a [|b rs]]; try discriminate Hr. inversion_clear Hf. destruct (nth_error items (Z.to_nat a)) as [x|] eqn:Ex; [|apply nth_error_None in Ex; lia].
  destruct (choice_reply (db_game_id bot) items (Z.to_nat a) x Hn Ex) as (s1 & E). rewrite Z2Nat.id in E by lia. rewrite (reply_answer _ _ _ _ _ _ Hl Ht E), E. reflexivity.
Qed.
Print Assumptions C74_typed_choice.

(** C71, C76: a typed additive roll can show exactly the possible totals of the expression. *)
Lemma typed_result bot input c secret f r f' : moderate input -> typed input c secret -> legal_feeder f -> execute_command_with bot input f = (Ok r, f') ->
  exists f1 r1, legal_feeder f1 /\ run_command (db_game_id bot) (command_tree c) f1 = (Ok r1, f') /\ r = Result (r_game_id r1) (r_parts r1) (r_dice r1) (r_success r1) secret.
Proof.
  intros Hl Ht Hf H. pose proof (C76_typed_command bot input c secret f Hl Ht) as K. cbv zeta in K.
  destruct (run_command (db_game_id bot) (command_tree c) f) as [[r0|e|p] f1] eqn:E1.
  - rewrite H in K. injection K as -> ->. exists f, r0. auto.
  - destruct K as [(e' & K)|K]; [congruence|]. destruct (run_command (db_game_id bot) (command_tree c) f1) as [[r0|e2|p] f2] eqn:E2; rewrite H in K; [|destruct K; discriminate|discriminate].
    injection K as -> ->. exists f1, r0. split; [|auto]. destruct (run_command_draws _ _ _ _ _ E1) as (ds & Hd). eapply legal_left; eassumption.
  - rewrite H in K. discriminate.
Qed.
Theorem C71_typed_totals bot input secret e v : moderate input -> typed input (DExpr e) secret -> dok e ->
  ((exists f r f', legal_feeder f /\ execute_command_with bot input f = (Ok r, f') /\ nth_error (r_parts r) 2 = Some (itoa v)) <-> possible_total e v).
Proof.
  intros Hl Ht Hok. rewrite <- (C71_totals (db_game_id bot) e v Hok). split.
  - intros (f & r & f' & Hf & H & Hp). destruct (typed_result _ _ _ _ _ _ _ Hl Ht Hf H) as (f1 & r1 & Hf1 & H1 & ->). exists f1, r1, f'. auto.
  - intros (f & r & f' & Hf & H & Hp). pose proof (C76_typed_command bot input (DExpr e) secret f Hl Ht) as K. cbv zeta in K. rewrite H in K. eexists f, _, f'. split; [exact Hf|]. split; [exact K|exact Hp].
Qed.
Print Assumptions C71_typed_totals.

(** ** Plain rolls as typed: digits, d or D, digits *)
Lemma typed_plain secret m a d b tail n s : mark secret m -> digits a -> d = "d"%string \/ d = "D"%string -> digits b ->
  number_value a = Z.of_nat n -> Z.of_nat n <= max_int -> number_value b = s -> s <= max_int ->
  tail = EmptyString \/ (exists w comment, tail = String w comment /\ white w) -> valid_utf8 tail ->
  typed (m ++ (a ++ d ++ b) ++ tail) (DExpr (plain_roll n s)) secret.
Proof.
  intros Hm Ha Hd Hb Na Nn Nb Ns Ht Hv. exists m, (a ++ d ++ b)%string, tail.
  assert (ascii_text d) as Ad by (destruct Hd as [-> | ->]; repeat constructor).
  pose proof (valid_ascii a (digits_ascii _ (proj2 Ha))) as Va. pose proof (valid_ascii b (digits_ascii _ (proj2 Hb))) as Vb. pose proof (valid_ascii d Ad) as Vd.
  assert (decode (a ++ d ++ b) = decode a ++ decode d ++ decode b) as E by (rewrite decode_app by exact Va; rewrite decode_app by exact Vd; reflexivity).
  split; [reflexivity|]. split; [exact Hm|]. split; [|split; [unfold follows; tauto|split; [|exact Hv]]].
  - rewrite E. apply spells_d.
    + apply sp_add_mul, sp_mul_prim, sp_leaf. apply roll_.
      * apply SpecGrammar.operand_leaf. cbn [sp_rleaf]. pose proof (digits_number a Ha) as H. rewrite Na, Z.min_l in H by exact Nn. exact H.
      * destruct Hd as [-> | ->]; reflexivity.
      * apply SpecGrammar.operand_leaf. cbn [sp_rleaf]. pose proof (digits_number b Hb) as H. rewrite Nb, Z.min_l in H by exact Ns. exact H.
    + exists (DDice (Leaf (RInt (Z.of_nat n))) (Leaf (RInt s))). split; [constructor|exact I].
  - unfold valid_utf8. rewrite E. apply Forall_app. split; [exact Va|]. apply Forall_app. split; [exact Vd|exact Vb].
Qed.
(** C74: typed as digits, D and digits -- with a mark and a comment or without -- the totals are distributed like those of fair dice. *)
Theorem C74_plain_text bot secret m a d b tail n s v :
  moderate (m ++ (a ++ d ++ b) ++ tail) -> mark secret m -> digits a -> d = "d"%string \/ d = "D"%string -> digits b ->
  tail = EmptyString \/ (exists w comment, tail = String w comment /\ white w) -> valid_utf8 tail ->
  number_value a = Z.of_nat n -> number_value b = s -> (1 <= n)%nat -> Z.of_nat n <= max_alloc_16 -> 1 <= s -> Z.of_nat n * s <= max_int ->
  count (fun rs => part_is 2 (itoa v) (answer bot (m ++ (a ++ d ++ b) ++ tail) rs)) (all_answers n s) = ways n s v.
Proof.
  intros Hl Hm Ha Hd Hb Ht Hv Na Nb H1 H2 H3 H4. apply (C74_typed_totals bot _ secret); try assumption.
  apply typed_plain; try assumption; nia.
Qed.
Print Assumptions C74_plain_text.
Example C76_example : typed "S2d6 attack!" (DExpr (plain_roll 2 6)) true /\ moderate "S2d6 attack!" /\
  count (fun rs => part_is 2 "7" (answer basic_bot "S2d6 attack!" rs)) (all_answers 2 6) = 6%nat /\
  exists e, execute_command_with basic_bot "S 2d6" (FQueue [Die 1 6; Die 2 6]) = (Err e, FQueue [Die 1 6; Die 2 6]).
Proof.
  split; [|split; [vm_compute; reflexivity|split; [vmc|eexists; vmc]]].
  apply (typed_plain true "S" "2" "d" "6" " attack!" 2 6); [right; reflexivity| |left; reflexivity| |vmc|discriminate|vmc|discriminate| |repeat constructor].
  - split; [discriminate|]. constructor; [|constructor]. vm_compute. split; discriminate.
  - split; [discriminate|]. constructor; [|constructor]. vm_compute. split; discriminate.
  - right. eexists _, _. split; [reflexivity|]. vm_compute. auto.
Qed.
