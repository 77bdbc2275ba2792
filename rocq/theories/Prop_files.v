(** Properties C50, C51: dice notation and test-case files. *)
From Verif Require Quote.
From Verif Require Import ProofBase SpecText NumberText Dice TestCase SpecFiles FileProofs.
Open Scope list_scope.
Open Scope Z_scope.

(** * C50 *)
(** What FormatDice and FormatDiceWithoutSpaces write is read back. *)
Theorem C50_round_trip ds : Forall writable ds ->
  parse_dice (format_dice ds) = Ok ds /\ parse_dice (format_dice_without_spaces ds) = Ok ds.
Proof. intros H. split; [apply parse_format, H|apply parse_format_without_spaces, H]. Qed.
Print Assumptions C50_round_trip.
Example C50_round_trip_example : let ds := [Die 3 6; Die 0 10; Die max_int 100] in
  Forall writable ds /\ format_dice ds = "3/6, 0/10, 9223372036854775807/100"%string.
Proof. split; [|vm_compute; reflexivity]. repeat constructor; vm_compute; discriminate. Qed.
(** ParseDice accepts exactly the dice notation and returns the dice it denotes; every other text is an error. *)
Theorem C50_language s ds : parse_dice s = Ok ds <-> dice_notation s ds.
Proof. apply parse_dice_iff. Qed.
Print Assumptions C50_language.
Theorem C50_malformed s : (forall ds, ~ dice_notation s ds) -> exists e, parse_dice s = Err e.
Proof.
  intros H. destruct (parse_dice s) as [ds|e|p] eqn:E; [exfalso; apply (H ds), parse_dice_iff, E|eauto|destruct (parse_dice_not_panic _ _ E)].
Qed.
Print Assumptions C50_malformed.
(** In particular a text with an entry that is no die is rejected, wherever the entry stands. *)
Theorem C50_malformed_entry before bad after : lacks ","%char bad -> (forall d, ~ die_entry bad d) -> Forall (lacks ","%char) before -> Forall (lacks ","%char) after ->
  before ++ bad :: after <> [EmptyString] -> exists e, parse_dice (join "," (before ++ bad :: after)) = Err e.
Proof.
  intros H1 H2 H3 H4 H5. apply C50_malformed. intros ds [(E & _)|(_ & entries & E & H)].
  - assert (split_byte "," (join "," (before ++ bad :: after)) = before ++ bad :: after) as K. { apply (split_join ","); [destruct before; discriminate|]. apply Forall_app. split; [exact H3|constructor; assumption]. }
    rewrite E in K. cbn in K. congruence.
  - assert (entries <> []) as Hn. { intros ->. assert (split_byte "," (join "," (before ++ bad :: after)) = before ++ bad :: after) as K. { apply (split_join ","); [destruct before; discriminate|]. apply Forall_app. split; [exact H3|constructor; assumption]. } rewrite E in K. cbn in K. congruence. }
    assert (before ++ bad :: after = entries) as K.
    { rewrite <- (split_join "," (before ++ bad :: after)), <- (split_join "," entries), E.
      - reflexivity.
      - exact Hn.
      - clear - H. induction H; constructor; [eapply die_entry_lacks; eassumption|assumption].
      - destruct before; discriminate.
      - apply Forall_app. split; [exact H3|constructor; assumption]. }
    subst entries. apply Forall2_app_inv_l in H as (d1 & d2 & _ & H & _). inversion H; subst. eapply H2. eassumption.
Qed.
Print Assumptions C50_malformed_entry.
(** The error names the first entry that is no die, by its position (from 1) and quoted (strconv.Quote). *)
Theorem C50_error_text before ds bad after : Forall2 die_entry before ds -> lacks ","%char bad -> (forall d, ~ die_entry bad d) -> Forall (lacks ","%char) after ->
  before ++ bad :: after <> [EmptyString] ->
  parse_dice (join "," (before ++ bad :: after)) = Err ("ParseDice: #" ++ itoa (Z.of_nat (length before) + 1) ++ ": " ++ Quote.quote Quote.is_print bad ++ ": ダイス構文エラー")%string.
Proof.
  intros Hb H1 H2 H4 H5. assert (split_byte "," (join "," (before ++ bad :: after)) = before ++ bad :: after) as K.
  { apply (split_join ","); [destruct before; discriminate|]. apply Forall_app. split; [clear - Hb; induction Hb; constructor; [eapply die_entry_lacks; eassumption|assumption]|constructor; assumption]. }
  unfold parse_dice. destruct (is_empty (join "," (before ++ bad :: after))) eqn:E. { exfalso. destruct (join "," (before ++ bad :: after)); [|discriminate E]. cbn in K. congruence. }
  rewrite K. clear - Hb H2. replace (Z.of_nat (length before) + 1) with (0 + Z.of_nat (length before) + 1) by lia. generalize 0 as i, (@nil die) as acc. induction Hb as [|x d l l' Hx Hb IH]; intros i acc; cbn [app parse_dice_loop length].
  - pose proof (match_die_iff bad) as K. destruct (match_die bad) as [(v, n)|]; [destruct (H2 _ K)|]. rewrite Z.add_0_r. reflexivity.
  - pose proof (match_die_iff x) as K. destruct (match_die x) as [(v, n)|]; [|destruct (K _ Hx)]. rewrite IH. do 4 f_equal. lia.
Qed.
Print Assumptions C50_error_text.
Example C50_examples : parse_dice "" = Ok [] /\ parse_dice " 5/6 ,12/20,99999999999999999999/6" = Ok [Die 5 6; Die 12 20; Die max_int 6] /\
  parse_dice "1/6,,2/6" = Err ("ParseDice: #2: """": ダイス構文エラー")%string /\ parse_dice "1/6,-2/6" = Err ("ParseDice: #2: ""-2/6"": ダイス構文エラー")%string.
Proof. vconj. Qed.
Example C50_malformed_entry_example : (forall d, ~ die_entry "-2/6" d) /\ lacks ","%char "-2/6".
Proof.
  split; [|unfold lacks; cbn; intuition discriminate]. intros d H. pose proof (match_die_iff "-2/6") as K. vm_compute in K. exact (K d H).
Qed.

(** * C51 *)
(** A written test case is read back: its input lines, its output and its dice. *)
Theorem C51_case_round_trip c game_id index : well_formed_case c ->
  parse_test_case (written_text c) game_id index = Ok (TestCase game_id index (w_lines c) (w_output c) (w_dice c)).
Proof. apply parse_written. Qed.
Print Assumptions C51_case_round_trip.
(** A written file is read back, the cases numbered 1, 2, ... in the order of the file. *)
Theorem C51_file_round_trip cs n game_id : cs <> [] -> Forall well_formed_case cs ->
  exists l, parse_file (file_text cs n) game_id = Ok l /\ length l = length cs /\
    forall k c, nth_error cs k = Some c -> nth_error l k = Some (TestCase game_id (Z.of_nat k + 1) (w_lines c) (w_output c) (w_dice c)).
Proof.
  intros Hn H. exists (number_from game_id 0 cs). split; [apply parse_file_written; assumption|]. clear.
  assert (forall i, length (number_from game_id i cs) = length cs /\ forall k c, nth_error cs k = Some c -> nth_error (number_from game_id i cs) k = Some (TestCase game_id (i + Z.of_nat k + 1) (w_lines c) (w_output c) (w_dice c))) as K.
  { induction cs as [|c cs IH]; intros i; [split; [reflexivity|intros [|k] c H; discriminate]|]. destruct (IH (i + 1)) as (K1 & K2). split; [cbn; lia|]. intros [|k] c' H; cbn [nth_error number_from] in *.
    - injection H as <-. unfold numbered. do 2 f_equal. lia.
    - rewrite (K2 _ _ H). do 2 f_equal. lia. }
  exact (K 0).
Qed.
Print Assumptions C51_file_round_trip.
(** Whatever the content of the file, the cases are numbered consecutively from 1; likewise over several files, in the order of the files. *)
Theorem C51_numbering content game_id cs : parse_file content game_id = Ok cs ->
  forall k c, nth_error cs k = Some c -> tc_index c = Z.of_nat k + 1 /\ tc_game_id c = game_id.
Proof. intros H. apply (proj2 (parse_file_ok _ _ _ H)). Qed.
Print Assumptions C51_numbering.
Theorem C51_files files game_id cs : parse_files files game_id = Ok cs ->
  (forall k c, nth_error cs k = Some c -> tc_index c = Z.of_nat k + 1 /\ tc_game_id c = game_id) /\
  exists css, cs = concat css /\
    Forall2 (fun f l => exists content l0, snd f = Ok content /\ parse_file content game_id = Ok l0 /\
       map (fun c => (tc_input c, tc_output c, tc_dice c)) l = map (fun c => (tc_input c, tc_output c, tc_dice c)) l0) files css.
Proof.
  unfold parse_files. intros H. apply parse_files_loop_ok in H as (H1 & css & H2 & H3); [|intros [|k] c K; discriminate K]. split; [exact H1|]. exists css. split; [exact H3|exact H2].
Qed.
Print Assumptions C51_files.
(** How an arbitrary source is cut: at the last line beginning with "output:" that a line beginning with "rand:" follows, then at the last such line. *)
Theorem C51_cutting s game_id index :
  (forall c, parse_test_case s game_id index = Ok c ->
     exists i o r, source_parts s i o r /\ (forall i' o' r', source_parts s i' o' r' -> (String.length i' < String.length i)%nat \/ (i' = i /\ (String.length o' <= String.length o)%nat)) /\
       dice_notation r (tc_dice c) /\ join newline (tc_input c) = i /\ Forall (lacks "010"%char) (tc_input c) /\ tc_index c = index /\ tc_game_id c = game_id /\
       (exists k, o = (newlines k ++ tc_output c)%string) /\ (forall t, tc_output c <> String "010" t)) /\
  ((forall i o r, ~ source_parts s i o r) -> exists e, parse_test_case s game_id index = Err e).
Proof.
  unfold parse_test_case. split.
  - destruct (match_source s) as [(i, (o, r))|] eqn:E; [|discriminate]. apply match_source_iff in E as (E1 & E2). intros c. destruct (parse_dice r) as [ds|e|p] eqn:Ed; try discriminate. intros [= <-].
    exists i, o, r. cbn [tc_dice tc_input tc_index tc_game_id tc_output]. split; [exact E1|]. split; [exact E2|]. split; [apply parse_dice_iff, Ed|]. split; [apply (join_split "010")|]. split; [apply split_lacks|].
    split; [reflexivity|]. split; [reflexivity|]. clear. split.
    + induction o as [|a o (k & IH)]; [exists O; reflexivity|]. cbn [trim_left_nl]. destruct (Ascii.eqb a "010") eqn:Ea; [apply Ascii.eqb_eq in Ea as ->; exists (S k); cbn; congruence|exists O; reflexivity].
    + induction o as [|a o IH]; intros t H; [discriminate|]. cbn [trim_left_nl] in H. destruct (Ascii.eqb a "010") eqn:Ea; [exact (IH _ H)|]. injection H as -> _. discriminate.
  - intros H. apply match_source_none in H. rewrite H. eauto.
Qed.
Print Assumptions C51_cutting.
Lemma no_newline_end s : (forall t, s <> (t ++ newline)%string) -> trim_right_nl s = s.
Proof.
  induction s as [|a s IH]; intros H; [reflexivity|]. cbn [trim_right_nl]. rewrite IH.
  - destruct s; [|reflexivity]. destruct (Ascii.eqb a "010") eqn:E; [|reflexivity]. apply Ascii.eqb_eq in E as ->. destruct (H EmptyString). reflexivity.
  - intros t ->. apply (H (String a t)). reflexivity.
Qed.
(** The error of a source without the three parts names the system and the number of the case; otherwise the error is that of
    its dice.  A file fails with the error of its first bad case, several files with that of the first bad file after its name. *)
Theorem C51_error_texts :
  (forall s game_id index, (forall i o r, ~ source_parts s i o r) -> parse_test_case s game_id index = Err ("Parse: " ++ game_id ++ "#" ++ itoa index ++ ": テストケース構文エラー")%string) /\
  (forall s game_id index i o r, source_parts s i o r -> exists i' o' r', source_parts s i' o' r' /\ (forall e, parse_test_case s game_id index = Err e <-> parse_dice r' = Err e)) /\
  (forall before bad after game_id e, Forall (fun s => ~ occurs case_separator (s ++ newline)) (before ++ bad :: after) -> (forall t, join case_separator (before ++ bad :: after) <> (t ++ newline)%string) ->
     (forall k s, nth_error before k = Some s -> exists c, parse_test_case s game_id (Z.of_nat k + 1) = Ok c) -> parse_test_case bad game_id (Z.of_nat (length before) + 1) = Err e ->
     parse_file (join case_separator (before ++ bad :: after)) game_id = Err e) /\
  (forall before name content after game_id e, Forall (fun f => exists c l, snd f = Ok c /\ parse_file c game_id = Ok l) before ->
     content = Err e \/ (exists c, content = Ok c /\ parse_file c game_id = Err e) -> parse_files (before ++ (name, content) :: after) game_id = Err (name ++ ": " ++ e)%string).
Proof.
  split; [|split; [|split]].
  - intros s game_id index H. unfold parse_test_case. apply match_source_none in H. rewrite H. reflexivity.
  - intros s game_id index i o r H. unfold parse_test_case. destruct (match_source s) as [(i', (o', r'))|] eqn:E; [|destruct (proj1 (match_source_none s) E _ _ _ H)]. exists i', o', r'. apply match_source_iff in E as (E & _). split; [exact E|]. intros e. destruct (parse_dice r'); split; congruence.
  - intros before bad after game_id e Hs Ht Hb He. unfold parse_file. rewrite (no_newline_end _ Ht). change case_separator with separator. rewrite split_str_join; [|exact Hs|destruct before; discriminate]. clear Hs Ht.
    replace (Z.of_nat (length before) + 1) with (0 + Z.of_nat (length before) + 1) in He by lia. assert (forall k s, nth_error before k = Some s -> exists c, parse_test_case s game_id (0 + Z.of_nat k + 1) = Ok c) as Hb' by exact Hb. clear Hb. revert He Hb'. generalize 0 as i, (@nil test_case) as acc. induction before as [|s l IH]; intros i acc He Hb; cbn [app parse_cases].
    + cbn [length Z.of_nat] in He. rewrite Z.add_0_r in He. rewrite He. reflexivity.
    + destruct (Hb O s eq_refl) as (c & Hc). cbn [Z.of_nat] in Hc. rewrite Z.add_0_r in Hc. rewrite Hc. apply IH.
      * rewrite <- He. f_equal. cbn [length]. lia.
      * intros k s' Hk. destruct (Hb (S k) s' Hk) as (c' & Hc'). exists c'. rewrite <- Hc'. f_equal. lia.
  - intros before name content after game_id e Hb He. unfold parse_files. generalize (@nil test_case) as acc. induction Hb as [|(n, x) l (c & cs & Hc & Hp) Hb IH]; intros acc; cbn [app parse_files_loop].
    + destruct He as [-> |(c & -> & Hc)]; [reflexivity|rewrite Hc; reflexivity].
    + cbn [snd] in Hc. subst x. rewrite Hp. apply IH.
Qed.
Print Assumptions C51_error_texts.
Example C51_error_texts_example : parse_file (join case_separator ["input:"++ newline ++ "2D6" ++ newline ++ "output:x" ++ newline ++ "rand:1/6,2/6"; "input: 2D6"; "whatever"])%string "DiceBot" = Err "Parse: DiceBot#2: テストケース構文エラー"%string /\
  parse_files [("a.txt", Ok ("input:" ++ newline ++ "2D6" ++ newline ++ "output:x" ++ newline ++ "rand:1/6,2d6" ++ newline))]%string "DiceBot" = Err "a.txt: ParseDice: #2: ""2d6"": ダイス構文エラー"%string.
Proof. vconj. Qed.
Definition sample_case : written_case := Written ["2D6"; "output:"]%string "DiceBot : (2D6) ＞ 7[3,4] ＞ 7"%string [Die 3 6; Die 4 6].
Example C51_example : match find_first case_separator (written_text sample_case ++ newline), find_first (newline ++ "output:") (newline ++ w_output sample_case) with None, None => true | _, _ => false end = true /\
  parse_file (file_text [sample_case; sample_case] 2) "DiceBot" = Ok [numbered "DiceBot" 1 sample_case; numbered "DiceBot" 2 sample_case].
Proof. vconj. Qed.
Example C51_well_formed : well_formed_case sample_case.
Proof.
  destruct C51_example as (H & _). pose proof (find_first_spec case_separator (written_text sample_case ++ newline)) as K1. pose proof (find_first_spec (newline ++ "output:") (newline ++ w_output sample_case)) as K2.
  destruct (find_first case_separator _); [discriminate|]. destruct (find_first (newline ++ "output:") _); [discriminate|].
  repeat split; try discriminate; try assumption.
  - cbn. repeat constructor; unfold lacks; cbn; intuition discriminate.
  - repeat constructor; vm_compute; discriminate.
Qed.
