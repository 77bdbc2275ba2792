(** Properties C60, C61: ExecuteCommand does not crash on legal dice, and does not depend on the case of letters. *)
From Verif Require Import Grammar ProofBase SpecText SpecSyntax SpecGrammar Dice SpecDice DiceProofs Comp CompProofs Command SpecCommand SpecCounts CommandProofs BCDice BCDiceProofs
  DecodeProofs ParseSound ParseFacts ParseText NumberText CaseProofs WpCommand Prop_lists Prop_parse ExecProofs Prop_exec.
From Verif Require PegText ErrErase CaseErrors.
Open Scope list_scope.
Open Scope Z_scope.

(** * C60 *)
(** Legal feeders: a queue of legal dice, or a random source with the contract of Intn *)
Definition legal_feeder (f : feeder) : Prop := (exists q, f = FQueue q /\ Forall legal q) \/ (exists intn k, f = FRandom intn k /\ intn_contract intn).
Lemma legal_left f ds f' : draws f ds f' -> legal_feeder f -> legal_feeder f'.
Proof.
  induction 1 as [f|f sides d f1 ds f2 H1 H2 IH]; intros Hf; [exact Hf|]. apply IH. destruct Hf as [(q & -> & Hq)|(intn & k & -> & Hi)]; cbn [feeder_next] in H1.
  - destruct q as [|x q]; [discriminate|]. injection H1 as <- <-. inversion Hq. left. eauto.
  - destruct (sides <=? 0); [discriminate|]. injection H1 as <- <-. right. eauto.
Qed.
Lemma items_length ss t : sp_items ss t -> (length ss <= length t)%nat.
Proof.
  induction 1 as [|s ss o t u Ho Ht _ IH]; [cbn; lia|]. rewrite !app_length. cbn [length].
  assert (1 <= length o)%nat; [|lia]. destruct o; [vm_compute in Ho; discriminate|cbn; lia].
Qed.
Lemma parsed_countable input c : Z.of_nat (String.length input) < two63 -> parse_command input = Ok (command_tree c) -> countable c.
Proof.
  intros Hl H. apply parse_sound in H as (c' & t & rest & E & Hs & Hd & _). destruct c; try exact I. cbn [command_tree] in E. symmetry in E. apply command_tree_choice in E. subst c'.
  cbn [countable]. inversion Hs as [|s ss k t1 u f c Hk Ht Hu Hf Hc| | | | | | | |]. subst. pose proof (items_length _ _ Hu) as Hi. pose proof (decode_length input) as Hdl. rewrite Hd in Hdl.
  rewrite !app_length in Hdl. cbn [length]. assert (1 <= length k)%nat. { destruct k; [vm_compute in Hk; discriminate|cbn; lia]. } unfold max_int. unfold two63 in *. lia.
Qed.
Lemma run_command_alloc gid input n f p f' : Z.of_nat (String.length input) < two63 -> parse_command input = Ok n -> legal_feeder f ->
  run_command gid n f = (Panic p, f') -> p = "makeslice: cap out of range"%string /\ exists c r, n = command_tree c /\ In r (rolls_of c) /\ huge_count r.
Proof.
  intros Hl Hp Hf H. pose proof Hp as Hp'. apply parse_spelled in Hp' as (c & -> & Hok). destruct (C32_only_alloc_panics gid c f p f' Hok (parsed_countable _ _ Hl Hp) Hf H) as (-> & r & Hr). split; [reflexivity|]. exists c, r. split; [reflexivity|exact Hr].
Qed.
(** C60: with legal dice ExecuteCommand returns a result or an error; the only panic is an attempt to allocate room for too many dice,
    and then the command read from the input has a roll whose count can exceed 2^44. *)
Theorem C60_no_crash bot input f p f' : moderate input -> legal_feeder f ->
  execute_command_with bot input f = (Panic p, f') ->
  p = "makeslice: cap out of range"%string /\
  exists c r, (parse_command (fst (check_secret input)) = Ok (command_tree c) \/ parse_command (first_part (fst (check_secret input))) = Ok (command_tree c)) /\
    In r (rolls_of c) /\ huge_count r.
Proof.
  intros Hl Hf H. unfold moderate in Hl.
  assert (Z.of_nat (String.length (fst (check_secret input))) < two63) as H1.
  { pose proof (check_secret_length input) as H1. change (2 ^ 61) with 2305843009213693952 in Hl. unfold two63. lia. }
  assert (Z.of_nat (String.length (first_part (fst (check_secret input)))) < two63) as H2.
  { destruct (first_part_split (fst (check_secret input))) as [(_ & ->)|(q & a & x & E & _ & _ & ->)]; [exact H1|]. rewrite E, length_append in H1. lia. }
  destruct (exec_has_shape bot input Hl) as [e Hs|n Hw Hn Hs|n e Hn Hs|n Hn Hs]; rewrite Hs in H.
  - discriminate.
  - destruct (run_command (db_game_id bot) n f) as [[r|e|p'] f1] eqn:E; try discriminate. injection H as -> _. destruct (run_command_alloc _ _ _ _ _ _ H2 Hn Hf E) as (-> & c & r & -> & Hr); split; [reflexivity|]; exists c, r; tauto.
  - destruct (run_command (db_game_id bot) n f) as [[r|e'|p'] f1] eqn:E; try discriminate. injection H as -> _. destruct (run_command_alloc _ _ _ _ _ _ H1 Hn Hf E) as (-> & c & r & -> & Hr); split; [reflexivity|]; exists c, r; tauto.
  - unfold run_retry in H. destruct (run_command (db_game_id bot) n f) as [[r|e|p'] f1] eqn:E; try discriminate.
    + destruct (run_command (db_game_id bot) n f1) as [[r|e'|p'] f2] eqn:E2; try discriminate. injection H as -> _. destruct (run_command_draws _ _ _ _ _ E) as (ds & Hd).
      destruct (run_command_alloc _ _ _ _ _ _ H1 Hn (legal_left _ _ _ Hd Hf) E2) as (-> & c & r & -> & Hr). split; [reflexivity|]. exists c, r. tauto.
    + injection H as -> _. destruct (run_command_alloc _ _ _ _ _ _ H1 Hn Hf E) as (-> & c & r & -> & Hr); split; [reflexivity|]; exists c, r; tauto.
Qed.
Print Assumptions C60_no_crash.
Example C60_example : moderate "S9000000000000000000D6 many" /\ legal_feeder (FQueue [Die 1 6]) /\
  fst (execute_command_with basic_bot "S9000000000000000000D6 many" (FQueue [Die 1 6])) = Panic "makeslice: cap out of range"%string.
Proof. split; [vm_compute; reflexivity|]. split; [|vm_compute; reflexivity]. left. eexists. split; [reflexivity|]. constructor; [|constructor]. unfold legal. cbn. lia. Qed.

(** * C61 *)
(** Outcomes that differ at most in the case of letters shown in a successful result *)
Definition alike (x y : outcome result * feeder) : Prop :=
  snd x = snd y /\
  match fst x, fst y with
  | Ok r, Ok r' => r_game_id r = r_game_id r' /\ r_dice r = r_dice r' /\ r_success r = r_success r' /\ r_secret r = r_secret r' /\ Forall2 same_but_case (r_parts r) (r_parts r')
  | Err e, Err e' => e = e'
  | Panic p, Panic p' => p = p'
  | _, _ => False
  end.
Lemma alike_refl x : alike x x.
Proof. destruct x as [[r|e|p] f]; unfold alike; cbn; repeat split; auto. induction (r_parts r); constructor; [reflexivity|assumption]. Qed.
Lemma lowercase_join sep ss ss' : map lowercase ss = map lowercase ss' -> lowercase (join sep ss) = lowercase (join sep ss').
Proof.
  revert ss'. induction ss as [|s ss IH]; intros [|s' ss'] H; try discriminate; [reflexivity|]. cbn [map] in H. injection H as H1 H2. specialize (IH _ H2).
  destruct ss as [|x ss], ss' as [|x' ss']; try discriminate; cbn [join]; [exact H1|]. rewrite !lowercase_app, H1. cbn [join] in IH. rewrite IH. reflexivity.
Qed.
Lemma nth_lowercase ss ss' k s : map lowercase ss = map lowercase ss' -> nth_error ss k = Some s -> exists s', nth_error ss' k = Some s' /\ same_but_case s s'.
Proof.
  intros H Hk. assert (nth_error (map lowercase ss') k = Some (lowercase s)) as Hm by (rewrite <- H; apply map_nth_error; exact Hk).
  rewrite nth_error_map in Hm. destruct (nth_error ss' k) as [s'|]; [|discriminate]. injection Hm as Hm. exists s'. split; [reflexivity|]. symmetry. exact Hm.
Qed.
Lemma choice_case gid items items' f : map lowercase items = map lowercase items' -> alike (run_command gid (NChoice items) f) (run_command gid (NChoice items') f).
Proof.
  intros H. assert (length items' = length items) as Hlen. { rewrite <- (map_length lowercase items), H, map_length. reflexivity. }
  unfold run_command. cbn [execute]. unfold execute_choice. cbn [infix_notation clift cbind eval]. unfold eval_choice. cbn [cbind run es_feeder es_log]. rewrite Hlen.
  destruct (roll_dice 1 (Z.of_nat (length items)) f) as [[ds|e|p] f1]; [|apply alike_refl|apply alike_refl]. destruct ds as [|d ds]; [apply alike_refl|]. cbn [cbind].
  destruct ((wrap64 (die_value d - 1) <? 0) || (Z.of_nat (length items) <=? wrap64 (die_value d - 1))) eqn:E; [apply alike_refl|].
  assert (exists s, nth_error items (Z.to_nat (wrap64 (die_value d - 1))) = Some s) as (s & Hs).
  { destruct (nth_error items (Z.to_nat (wrap64 (die_value d - 1)))) as [s|] eqn:En; [eauto|]. apply nth_error_None in En. lia. }
  destruct (nth_lowercase _ _ _ _ H Hs) as (s' & Hs' & Hc). rewrite Hs, Hs'. cbn [cbind run with_dice]. unfold alike. cbn [fst snd r_game_id r_dice r_success r_secret r_parts].
  repeat split. constructor; [|constructor; [exact Hc|constructor]]. unfold same_but_case, parenthesize, notation_choice. rewrite !lowercase_app. f_equal. f_equal. f_equal. f_equal. apply lowercase_join, H.
Qed.
Lemma syntax_error_case filename c c' e : same_but_case c c' -> parse_command c = Err e -> syntax_error filename c = syntax_error filename c'.
Proof.
  intros Hs E. pose proof (ErrErase.parse_text_command filename c) as H. rewrite E in H. unfold syntax_error. destruct (PegText.parse_text filename c) as [n|m|p] eqn:Et; try (destruct H; fail).
  rewrite (CaseErrors.parse_error_case _ _ _ _ Hs Et). reflexivity.
Qed.
Lemma basic_case bot c c' f : Z.of_nat (String.length c) < two63 -> same_but_case c c' -> alike (execute_basic_command bot c f) (execute_basic_command bot c' f).
Proof.
  intros Hl Hs. rewrite !execute_basic_eq. assert (Z.of_nat (String.length c') < two63) as Hl' by (rewrite <- (lowercase_length c'), <- Hs, lowercase_length; exact Hl).
  destruct (parse_command c) as [n|e|p] eqn:E.
  - destruct (parse_case c c' n Hl Hs E) as (n' & -> & [->|(i & i' & -> & -> & Hi)]); [apply alike_refl|]. rewrite !with_fresh_env_run_command. apply choice_case. symmetry. exact Hi.
  - destruct (parse_command c') as [n'|e'|p'] eqn:E'; [|split; [reflexivity|cbn [fst]; eapply syntax_error_case; eassumption]|exfalso; eapply parse_no_panic; exact E'].
    destruct (parse_case c' c n' Hl' (eq_sym Hs) E') as (n & H & _). congruence.
  - exfalso. eapply parse_no_panic; exact E.
Qed.
Lemma basic_case_same bot c c' f r f' : Z.of_nat (String.length c) < two63 -> same_but_case c c' -> (forall items, parse_command c <> Ok (NChoice items)) ->
  execute_basic_command bot c f = (Ok r, f') -> execute_basic_command bot c' f = (Ok r, f').
Proof.
  intros Hl Hs Hno. rewrite !execute_basic_eq. destruct (parse_command c) as [n|e|p] eqn:E; try discriminate.
  destruct (parse_case c c' n Hl Hs E) as (n' & -> & [->|(i & i' & -> & -> & Hi)]); [exact (fun H => H)|]. exfalso. exact (Hno i eq_refl).
Qed.
Lemma encode_case r r' : lower_rune r = lower_rune r' -> lowercase (encode_rune r) = lowercase (encode_rune r').
Proof.
  intros H. destruct (Z.eq_dec r r') as [->|Hne]; [reflexivity|].
  assert (65 <= r <= 122 /\ 65 <= r' <= 122) as (H1 & H2) by (unfold lower_rune, in_range in H; destruct ((65 <=? r) && (r <=? 90)) eqn:E, ((65 <=? r') && (r' <=? 90)) eqn:E'; lia).
  unfold encode_rune. replace (r <? 128) with true by lia. replace (r' <? 128) with true by lia. cbn [lowercase]. f_equal.
  assert (forall b, 0 <= b <= 255 -> byte_val (byte_of b) = b) as Hb. { intros b Hb. unfold byte_of, byte_val. rewrite N_ascii_embedding; lia. }
  rewrite <- (byte_of_val (lower_ascii_letter (byte_of r))), <- (byte_of_val (lower_ascii_letter (byte_of r'))), !lower_byte, !Hb by lia. rewrite H. reflexivity.
Qed.
Lemma encode_runes_case l : forall l', lc l = lc l' -> lowercase (encode_runes l) = lowercase (encode_runes l').
Proof.
  induction l as [|c l IH]; intros [|c' l'] H; try discriminate; [reflexivity|]. unfold lc in H. cbn [map] in H. injection H as H1 _ H2. cbn [encode_runes]. rewrite !lowercase_app.
  rewrite (encode_case _ _ H1), (IH _ H2). reflexivity.
Qed.
Lemma check_secret_case s s' : same_but_case s s' -> same_but_case (fst (check_secret s)) (fst (check_secret s')) /\ snd (check_secret s) = snd (check_secret s').
Proof.
  intros H. assert (lc (decode s) = lc (decode s')) as Hd by (unfold lc; rewrite <- !decode_lower, H; reflexivity).
  unfold check_secret. destruct (decode s) as [|c l] eqn:E, (decode s') as [|c' l'] eqn:E'; try discriminate; [split; reflexivity|].
  unfold lc in Hd. cbn [map] in Hd. injection Hd as H1 _ H2.
  assert ((gc_rune c =? 83) || (gc_rune c =? 115) = ((gc_rune c' =? 83) || (gc_rune c' =? 115))) as ->.
  { unfold lower_rune, in_range in H1. destruct ((65 <=? gc_rune c) && (gc_rune c <=? 90)) eqn:A, ((65 <=? gc_rune c') && (gc_rune c' <=? 90)) eqn:A'; lia. }
  destruct ((gc_rune c' =? 83) || (gc_rune c' =? 115)); cbn [fst snd]; [|split; [exact H|reflexivity]]. split; [|reflexivity]. apply encode_runes_case. exact H2.
Qed.
Lemma first_part_lower s : lowercase (first_part s) = first_part (lowercase s).
Proof.
  rewrite !RegexUses.first_part_eq. induction s as [|a s IH]; [reflexivity|]. cbn [RegexUses.hand_first_part lowercase].
  assert (RegexUses.is_re_space (lower_ascii_letter a) = RegexUses.is_re_space a) as ->.
  { unfold RegexUses.is_re_space. rewrite lower_byte. cbv zeta. unfold lower_rune, in_range. destruct ((65 <=? byte_val a) && (byte_val a <=? 90)) eqn:E; [|reflexivity]. lia. }
  destruct (RegexUses.is_re_space a); [reflexivity|]. cbn [lowercase]. rewrite IH. reflexivity.
Qed.
(** C61: changing the case of letters in the input (secret marker, command and comment) does not change the dice taken, the dice shown, the verdict, the secret flag, or whether
    the outcome is a result, an error or a crash; an error has the identical text (with the positions and the list of what was expected), and the texts of a result can differ in the
    case of letters at most. *)
Theorem C61_case_insensitive bot s s' f : moderate s -> same_but_case s s' -> alike (execute_command_with bot s f) (execute_command_with bot s' f).
Proof.
  intros Hl Hs. unfold moderate in Hl. rewrite !execute_command_with_eq. pose proof (check_secret_case _ _ Hs) as Hc. pose proof (check_secret_length s) as H1.
  destruct (check_secret s) as [c sec], (check_secret s') as [c' sec']. cbn [fst snd] in *. destruct Hc as (Hc & ->).
  assert (Z.of_nat (String.length c) < two63) as H2. { change (2 ^ 61) with 2305843009213693952 in Hl. unfold two63. lia. }
  assert (Z.of_nat (String.length (first_part c)) < two63) as H3.
  { destruct (first_part_split c) as [(_ & ->)|(q & a & x & E & _ & _ & ->)]; [exact H2|]. rewrite E, length_append in H2. lia. }
  assert (forall r r' f1 f1', alike (Ok r, f1) (Ok r', f1') -> alike (Ok (set_secret r sec'), f1) (Ok (set_secret r' sec'), f1')) as Hset.
  { intros r r' f1 f1' (A & B1 & B2 & B3 & B4 & B5). unfold alike. cbn in *. auto 10. }
  pose proof (basic_case bot c c' f H2 Hc) as Ha.
  destruct (execute_basic_command bot c f) as [[r|e|p] f1], (execute_basic_command bot c' f) as [[r'|e'|p'] f1']; try (exfalso; destruct Ha as (_ & K); exact K).
  - apply Hset. exact Ha.
  - destruct Ha as (Hf & _). cbn [snd] in Hf. subst f1'.
    pose proof (basic_case bot (first_part c) (first_part c') f1 H3) as Hb. unfold same_but_case in Hb. rewrite !first_part_lower in Hb. specialize (Hb ltac:(f_equal; exact Hc)).
    destruct (execute_basic_command bot (first_part c) f1) as [[r|e2|p] f2], (execute_basic_command bot (first_part c') f1) as [[r'|e2'|p'] f2']; try (exfalso; destruct Hb as (_ & K); exact K); [apply Hset; exact Hb|exact Hb|exact Hb].
  - exact Ha.
Qed.
Print Assumptions C61_case_insensitive.
(** C61: and unless the input is a CHOICE command, whose items are shown as written, a result is the identical result. *)
Theorem C61_identical bot s s' f r f' : moderate s -> same_but_case s s' ->
  (forall items, parse_command (fst (check_secret s)) <> Ok (NChoice items)) -> (forall items, parse_command (first_part (fst (check_secret s))) <> Ok (NChoice items)) ->
  execute_command_with bot s f = (Ok r, f') -> execute_command_with bot s' f = (Ok r, f').
Proof.
  intros Hl Hs Hn1 Hn2. unfold moderate in Hl. rewrite !execute_command_with_eq. pose proof (check_secret_case _ _ Hs) as Hc. pose proof (check_secret_length s) as H1.
  destruct (check_secret s) as [c sec], (check_secret s') as [c' sec']. cbn [fst snd] in *. destruct Hc as (Hc & ->).
  assert (Z.of_nat (String.length c) < two63) as H2. { change (2 ^ 61) with 2305843009213693952 in Hl. unfold two63. lia. }
  assert (Z.of_nat (String.length (first_part c)) < two63) as H3.
  { destruct (first_part_split c) as [(_ & ->)|(q & a & x & E & _ & _ & ->)]; [exact H2|]. rewrite E, length_append in H2. lia. }
  pose proof (basic_case bot c c' f H2 Hc) as Ha.
  destruct (execute_basic_command bot c f) as [[r1|e|p] f1] eqn:E1; [| |discriminate].
  - rewrite (basic_case_same _ _ _ _ _ _ H2 Hc Hn1 E1). exact (fun H => H).
  - destruct (execute_basic_command bot c' f) as [[r'|e'|p'] f1']; try (exfalso; destruct Ha as (_ & K); exact K). destruct Ha as (Hf & _). cbn [snd] in Hf. subst f1'.
    destruct (execute_basic_command bot (first_part c) f1) as [[r1|e2|p] f2] eqn:E2; try discriminate.
    assert (same_but_case (first_part c) (first_part c')) as Hfc by (unfold same_but_case; rewrite !first_part_lower; f_equal; exact Hc).
    rewrite (basic_case_same _ _ _ _ _ _ H3 Hfc Hn2 E2). exact (fun H => H).
Qed.
Print Assumptions C61_identical.
(** C61: Parse itself, for every name of the input: changing the case of letters changes no error. *)
Theorem C61_parse_errors filename s s' e : same_but_case s s' -> (PegText.parse_text filename s = Err e <-> PegText.parse_text filename s' = Err e).
Proof. intros H. split; apply CaseErrors.parse_error_case; [exact H|symmetry; exact H]. Qed.
Print Assumptions C61_parse_errors.
Example C61_error_example : same_but_case "2D6>=Seven" "2d6>=sEVEN" /\
  execute_command_with basic_bot "2D6>=Seven" (FQueue []) = execute_command_with basic_bot "2d6>=sEVEN" (FQueue []) /\
  PegText.parse_text "input" "2d6>=sEVEN" = Err "input:1:6 (5): no match found, expected: ""("", ""+"", ""-"" or [0-9]".
Proof. vconj. Qed.
Example C61_example : moderate "S2D6>=7 Attack" /\ same_but_case "S2D6>=7 Attack" "s2d6>=7 ATTACK" /\
  exists r, execute_command_with basic_bot "s2d6>=7 ATTACK" (FQueue [Die 3 6; Die 4 6]) = (Ok r, FQueue []) /\
            execute_command_with basic_bot "S2D6>=7 Attack" (FQueue [Die 3 6; Die 4 6]) = (Ok r, FQueue []) /\ r_success r = Success.
Proof. split; [vm_compute; reflexivity|]. split; [vm_compute; reflexivity|]. eexists. vconj. Qed.
Example C61_choice_example : exists r r', execute_command_with basic_bot "Choice[Foo,b]" (FQueue [Die 1 2]) = (Ok r, FQueue []) /\
  execute_command_with basic_bot "cHOICE[fOO,b]" (FQueue [Die 1 2]) = (Ok r', FQueue []) /\ r_parts r = ["(CHOICE[Foo,b])"; "Foo"]%string /\ r_parts r' = ["(CHOICE[fOO,b])"; "fOO"]%string.
Proof. eexists. eexists. vconj. Qed.
