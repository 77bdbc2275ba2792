(** Properties C13, C33, C37-C42: literals, CHOICE items, the parser. *)
From Verif Require Import Grammar ProofBase SpecText SpecSyntax SpecGrammar TextFacts PegProofs GrammarSound PegTotal PegForward ParseSound ParseComplete ParseLang ParseCmd ParseTop DecodeProofs
  ParseFacts CaseProofs ParseText NumberText Dice Command BCDice BCDiceProofs.
Open Scope list_scope.
Open Scope Z_scope.

(** Texts that fit into memory: shorter than 2^63 bytes *)
Definition fits (s : string) : Prop := Z.of_nat (String.length s) < 2 ^ 63.

(** * C13 *)
Lemma digits_number s : digits s -> sp_number (Z.min (number_value s) max_int) (decode s).
Proof.
  intros (Hn & Hd). rewrite decode_ascii by (apply digits_ascii, Hd). split; [destruct s; [contradiction|discriminate]|]. split.
  - rewrite Forall_map. exact Hd.
  - f_equal. unfold number_value, decimal. generalize 0. generalize (list_ascii_of_string s). intros l. induction l as [|a l IH]; intros z; [reflexivity|]. cbn [map fold_left]. rewrite IH. reflexivity.
Qed.
Lemma decode3 a b c : ascii_text a -> valid (decode b) -> decode (a ++ b ++ c) = decode a ++ decode b ++ decode c.
Proof. intros Ha Hb. rewrite decode_app by (apply valid_ascii, Ha). rewrite decode_app by exact Hb. reflexivity. Qed.
Lemma calc_text e s : fits ("C(" ++ s ++ ")") -> valid (decode s) -> sp_int e (decode s) -> parse_command ("C(" ++ s ++ ")") = Ok (command_tree (Calculation e)).
Proof.
  intros Hlen Hv H. apply (parse_complete _ _ (decode "C(" ++ decode s ++ decode ")") []).
  - change (decode "C(") with ([ascii_char "C"] ++ [ascii_char "("]). rewrite <- app_assoc. apply spells_calc; [reflexivity|reflexivity|exact H|reflexivity].
  - rewrite app_nil_r. apply decode3; [repeat constructor|exact Hv].
  - apply valid_app. split; [repeat constructor|]. apply valid_app. split; [exact Hv|repeat constructor].
  - exact I.
  - right. reflexivity.
  - exact Hlen.
Qed.
(** C13: the literal in C(<digits>) is the number written, or 2^63-1 if that is too large. *)
Theorem C13_literal s : fits ("C(" ++ s ++ ")") -> digits s ->
  parse_command ("C(" ++ s ++ ")") = Ok (NCommand CCalc (NInt (if number_value s <? 2 ^ 63 then number_value s else 2 ^ 63 - 1))).
Proof.
  intros Hlen Hs. rewrite (calc_text (Leaf (Z.min (number_value s) max_int))).
  - cbn [command_tree itree tree]. do 3 f_equal. unfold max_int, two63. change (2 ^ 63) with 9223372036854775808. destruct (number_value s <? 9223372036854775808) eqn:E; lia.
  - exact Hlen.
  - apply valid_ascii, digits_ascii, Hs.
  - apply sp_add_mul, sp_mul_prim, sp_leaf, digits_number, Hs.
Qed.
Print Assumptions C13_literal.
Example C13_example : digits "00123" /\ number_value "00123" = 123 /\ digits "9223372036854775808" /\
  parse_command "C(9223372036854775808)" = Ok (NCommand CCalc (NInt 9223372036854775807)).
Proof. repeat split; try discriminate; try vmc; repeat constructor; discriminate. Qed.

(** * C33 *)
(** C33: there is at least one item; items are parts of the input without comma, ] or surrounding white space. *)
Theorem C33_items_clean input items : parse_command input = Ok (NChoice items) ->
  items <> [] /\
  Forall (fun s =>
    (exists a b, input = a ++ s ++ b)%string /\
    ~ In (byte_val ",") (bytes s) /\ ~ In (byte_val "]") (bytes s) /\
    (forall c l, decode s = c :: l -> ~ white_char c) /\
    (forall l c, decode s = l ++ [c] -> ~ white_char c)) items.
Proof.
  intros H. destruct (choice_items _ _ H) as (H1 & H2). split; [exact H1|]. eapply Forall_impl; [|exact H2]. intros s ((C1 & C2 & C3 & C4) & C5).
  split; [exact C5|]. split; [exact C1|]. split; [exact C2|]. split; [intros c l Hc; apply is_space_not, (C3 c l Hc)|intros l c Hc; apply is_space_not, (C4 l c Hc)].
Qed.
Print Assumptions C33_items_clean.
Example C33_example : parse_command "choice[ ab , c d ,e,]!" = Ok (NChoice ["ab"; "c d"; "e"]%string).
Proof. vmc. Qed.

(** * C37 *)
(** C37: for every byte string the parser returns a command or an error; no recursion deeper than 100 (length + 1). *)
Theorem C37_parser_total input :
  exists r, (forall depth, (100 * (String.length input + 1) <= depth)%nat -> parse rules depth Command input = Some r) /\
    ((exists n, r = Ok (VNode n) /\ parse_command input = Ok n) \/ (exists e, r = Err e /\ parse_command input = Err e)).
Proof.
  pose proof (parse_enough input) as H1. pose proof (parse_no_panic input) as H2. unfold parse_command in *.
  destruct (parse_val input) as [r|] eqn:E; [|contradiction]. exists r. split.
  - intros depth Hd. assert (parse_fuel input <= depth)%nat as Hf by (unfold parse_fuel; lia). unfold parse_val, parse in *.
    destruct (pexpr rules (parse_fuel input) (rules Command) (arrive (PState (decode input) None [] []))) as [x|] eqn:Ex; [|discriminate].
    rewrite (pexpr_mono _ _ _ _ _ _ Hf Ex). exact E.
  - destruct r as [[|b|l|n]|e|p]; try (exfalso; eapply H2; reflexivity).
    + left. exists n. split; reflexivity.
    + right. exists e. split; reflexivity.
Qed.
Print Assumptions C37_parser_total.
Example C37_example : (exists n, parse_command "((((2D6))))" = Ok n) /\ exists e, parse_command "((((2D6)))" = Err e.
Proof. split; eexists; vmc. Qed.

(** * C38 *)
(** C38: what the parser returns is the syntax tree of a well-formed command. *)
Theorem C38_shape input n : parse_command input = Ok n -> exists c, n = command_tree c /\ command_ok c.
Proof. apply parse_spelled. Qed.
Print Assumptions C38_shape.
(** C38: and this is the command the text spells (the grammar of SpecGrammar.v), with nothing unread unless it is C(...) or CHOICE[...]; conversely,
    every such text is accepted. *)
Theorem C38_exactly_the_grammar input n : fits input ->
  (parse_command input = Ok n <->
   exists c t rest, n = command_tree c /\ spells c t /\ decode input = t ++ rest /\ valid t /\ valid_head rest /\ (may_be_followed c \/ rest = [])).
Proof. intros H. apply parse_iff. exact H. Qed.
Print Assumptions C38_exactly_the_grammar.
(** C38: a text spells at most one command. *)
Theorem C38_unambiguous s c c' : fits s -> valid_utf8 s -> spells c (decode s) -> spells c' (decode s) -> command_tree c = command_tree c'.
Proof.
  intros Hl Hv H1 H2. assert (forall x, spells x (decode s) -> parse_command s = Ok (command_tree x)) as H.
  { intros x Hx. apply (parse_complete s x (decode s) []); try assumption; [symmetry; apply app_nil_r|exact I|tauto]. }
  pose proof (H _ H1). pose proof (H _ H2). congruence.
Qed.
Print Assumptions C38_unambiguous.
Example C38_example : parse_command "2U6[5]+3>=10" =
  Ok (command_tree (UComp (Leaf (RInt 2), Leaf (RInt 6)) [] (Some (Leaf 5)) (Some (true, Leaf 3)) ">=" (Leaf 10))).
Proof. vmc. Qed.

(** * C39 *)
(** C39: changing the case of letters does not change the command, except inside the items of CHOICE. *)
Theorem C39_case_insensitive s s' n : fits s -> same_but_case s s' -> parse_command s = Ok n ->
  exists n', parse_command s' = Ok n' /\
    (n' = n \/ exists items items', n = NChoice items /\ n' = NChoice items' /\ Forall2 same_but_case items' items).
Proof.
  intros Hl Hs H. destruct (parse_case s s' n Hl Hs H) as (n' & H1 & H2). exists n'. split; [exact H1|].
  destruct H2 as [H2|(i & i' & -> & -> & E)]; [left; exact H2|right]. exists i, i'. repeat split.
  clear -E. revert i E. induction i' as [|x i' IH]; intros [|y i] E; try discriminate E; constructor; injection E as E1 E2; [exact E1|apply IH, E2].
Qed.
Print Assumptions C39_case_insensitive.
Example C39_example : same_but_case "2d6+1U" "2D6+1u" /\ same_but_case "Choice[A,b]" "cHOICE[a,B]" /\
  parse_command "Choice[A,b]" = Ok (NChoice ["A"; "b"]%string) /\ parse_command "cHOICE[a,B]" = Ok (NChoice ["a"; "B"]%string).
Proof. vconj. Qed.

(** * C40 *)
(** a roll xDy or a random number [x...y] occurs in the tree *)
Inductive random_inside : node -> Prop :=
| random_here k l r : random_inside (NInfix (OpVar k) l r)
| random_neg n : random_inside n -> random_inside (NNeg n)
| random_left op l r : random_inside l -> random_inside (NInfix op l r)
| random_right op l r : random_inside r -> random_inside (NInfix op l r).
Lemma has_random_inside e : has_random e -> random_inside (dtree e).
Proof.
  intros (l & Hp & Hl). revert Hp. induction e as [l0|e IH|op a IHa b IHb]; intros Hp; inversion Hp; subst; cbn [dtree tree].
  - destruct l0; [contradiction|apply random_here|apply random_here].
  - apply random_neg, IH. assumption.
  - apply random_left, IHa. assumption.
  - apply random_right, IHb. assumption.
Qed.
(** C40: an accepted D command contains a random element. *)
Theorem C40_random_element input k e : parse_command input = Ok (NCommand k e) -> k = CDRollExpr \/ k = CDRollComp -> random_inside e.
Proof.
  intros H Hk. apply parse_sound in H as (c & t & rest & E & H & _). destruct H; cbn [command_tree] in E; try discriminate E; injection E as -> ->; try (destruct Hk; discriminate).
  - apply has_random_inside. assumption.
  - apply random_left, has_random_inside. assumption.
Qed.
Print Assumptions C40_random_element.
(** C40: pure arithmetic, or a comparison of such, is not a command. *)
Theorem C40_arithmetic_rejected e input : sp_int e (decode input) -> exists err, parse_command input = Err err.
Proof.
  intros H. pose proof (parse_no_panic input) as Hp. destruct (parse_command input) as [n|err|p] eqn:E; [|eauto|exfalso; eapply Hp; reflexivity]. exfalso.
  apply parse_sound in E as (c & t & rest & -> & H1 & H2 & _). rewrite <- (app_nil_r t) in H1. eapply (arithmetic_not_command _ _ _ H1 rest); rewrite app_nil_r, <- H2.
  - eapply Forall_impl; [|exact (int_chars _ _ H)]. tauto.
  - apply (pf_int 98) in H; [exact H|lia].
  - apply (pf_int 114) in H; [exact H|lia].
  - apply (pf_int 117) in H; [exact H|lia].
Qed.
Print Assumptions C40_arithmetic_rejected.
Theorem C40_comparison_rejected a op b t u input : sp_int a t -> sp_target op b u -> decode input = t ++ u -> exists err, parse_command input = Err err.
Proof.
  intros H1 H2 Hi. pose proof (parse_no_panic input) as Hp. destruct (parse_command input) as [n|err|p] eqn:E; [|eauto|exfalso; eapply Hp; reflexivity]. exfalso.
  apply parse_sound in E as (c & v & rest & -> & K1 & K2 & _). rewrite <- (app_nil_r v) in K1.
  assert (forall x, 97 <= x <= 122 -> pf x (t ++ u)) as Hpf.
  { intros x Hx. apply (pf_app x); [apply (pf_int x Hx _ _ H1)|apply (pf_target x Hx _ _ _ H2)|right]. rewrite <- (app_nil_r u). eapply target_closed; exact H2. }
  eapply (arithmetic_not_command _ _ _ K1 rest); rewrite app_nil_r, <- K2, Hi; try (apply Hpf; lia).
  apply Forall_app. split; [eapply Forall_impl; [|exact (int_chars _ _ H1)]; tauto|].
  destruct H2 as [op b o u Hop Ho Hb]. apply Forall_app. split; [|eapply Forall_impl; [|exact (int_chars _ _ Hb)]; tauto].
  unfold word in Ho. assert (Forall (fun z => 60 <= z <= 62) (codes op)) as Hc.
  { cbn in Hop. decompose [or] Hop; subst; try contradiction; vm_compute; repeat constructor; discriminate. }
  rewrite <- Ho, Forall_map in Hc. eapply Forall_impl; [|exact Hc]. intros d Hd. right. exact Hd.
Qed.
Print Assumptions C40_comparison_rejected.
Example C40_example : (exists n, parse_command "1+[1...3]*2" = Ok (NCommand CDRollExpr n)) /\ exists e, parse_command "1+3*2" = Err e.
Proof. split; eexists; vmc. Qed.

(** * C42 *)
(** C(...) and CHOICE[...] *)
Definition calculation_or_choice (n : node) : Prop := (exists e, n = NCommand CCalc e) \/ exists items, n = NChoice items.
(** C42: text following C(...) or CHOICE[...] is not read. *)
Theorem C42_calculation_and_choice s x n : fits (s ++ x) -> valid_utf8 x -> parse_command s = Ok n -> calculation_or_choice n -> parse_command (s ++ x) = Ok n.
Proof.
  intros Hl Hx. apply parse_followed; [exact Hl|]. unfold valid_utf8 in Hx. destruct (decode x); [exact I|]. inversion Hx. assumption.
Qed.
Print Assumptions C42_calculation_and_choice.
(** characters of commands other than CHOICE: ( ) * + , - . / 0 ... 9 < = > [ ] and B C D R U in either case *)
Definition roll_character (a : ascii) : Prop := 40 <= byte_val a <= 57 \/ 60 <= byte_val a <= 62 \/ byte_val a = 91 \/ byte_val a = 93 \/ In a (list_ascii_of_string "BCDRUbcdru").
Lemma cr_raw c : decoded c -> cr c -> Forall roll_character (list_ascii_of_string (gc_raw c)).
Proof.
  intros Hd Hc. assert (gc_rune c < 128) as Hs.
  { unfold cr, command_rune in Hc. destruct Hc as [H|[H|[H|[H|(l & Hl & H)]]]]; try lia. cbn in Hl. lia. }
  destruct (decoded_bytes _ Hd) as [(Hb & _)|(Hb & _)]; [|lia]. unfold bytes in Hb. destruct (list_ascii_of_string (gc_raw c)) as [|a [|a' l]]; try discriminate Hb.
  cbn [map] in Hb. injection Hb as Hb. constructor; [|constructor]. unfold roll_character. unfold cr, command_rune in Hc. rewrite <- Hb in Hc.
  destruct Hc as [H|[H|[H|[H|(l & Hl & H)]]]]; [tauto..|]. right. right. right. right.
  assert (In (byte_val a) (map byte_val (list_ascii_of_string "BCDRUbcdru"))) as H'. { replace (map byte_val (list_ascii_of_string "BCDRUbcdru")) with [66; 67; 68; 82; 85; 98; 99; 100; 114; 117] by (vm_compute; reflexivity). cbn in Hl |- *. lia. }
  apply in_map_iff in H' as (a' & E & Hin). rewrite <- (byte_of_val a), <- E, byte_of_val. exact Hin.
Qed.
Lemma cr_bytes t : Forall decoded t -> Forall cr t -> Forall roll_character (list_ascii_of_string (raw_text t)).
Proof.
  induction t as [|c t IH]; intros H1 H2; [constructor|]. cbn [raw_text]. rewrite las_app. inversion H1; subst. inversion H2; subst. apply Forall_app. split; [apply cr_raw; assumption|apply IH; assumption].
Qed.
(** C42: every other command is spelled by the whole text, of which all characters are roll characters: no comment, not even a space. *)
Theorem C42_other_commands s n : parse_command s = Ok n -> ~ calculation_or_choice n ->
  Forall roll_character (list_ascii_of_string s) /\ exists c, n = command_tree c /\ spells c (decode s).
Proof.
  intros H Hn. destruct (parse_not_followed s n H Hn) as (c & H1 & H2 & H3). split; [|exists c; split; assumption].
  rewrite <- (raw_decode s). apply cr_bytes; [apply decode_decoded|exact H3].
Qed.
Print Assumptions C42_other_commands.
(** C42: in particular no text can be added to a roll after a blank, nor any character that is not a roll character. *)
Theorem C42_nothing_follows s a x n : parse_command (s ++ String a x) = Ok n -> ~ roll_character a -> calculation_or_choice n.
Proof.
  intros H Ha. apply parse_sound in H as (c & t & rest & -> & H1 & H2 & H3 & H4 & H5). apply followed_tree. destruct H5 as [H5| ->]; [exact H5|].
  destruct c as [e|e|e op tg|r rs|r rs op tg|r rs th|r rs th op tg|r rs th b|r rs th b op tg|items]; try exact I; exfalso; apply Ha;
  rewrite app_nil_r in H2; pose proof (spells_chars _ _ H1 ltac:(discriminate)) as Hc; rewrite <- H2 in Hc; pose proof (cr_bytes _ (decode_decoded _) Hc) as Hb;
  rewrite raw_decode, las_app in Hb; apply Forall_app in Hb as (_ & Hb); inversion Hb; assumption.
Qed.
Print Assumptions C42_nothing_follows.
Example C42_example : parse_command "C(1+2)x y" = parse_command "C(1+2)" /\ calculation_or_choice (NCommand CCalc (NInfix OpAdd (NInt 1) (NInt 2))) /\
  ~ roll_character "x" /\ (exists n, parse_command "2D6" = Ok n) /\ exists e, parse_command "2D6 x" = Err e.
Proof.
  split; [vmc|]. split; [left; eexists; reflexivity|]. split; [|split; eexists; vmc].
  unfold roll_character. change (byte_val "x") with 120. intros [H|[H|[H|[H|H]]]]; try lia. cbn in H. decompose [or] H; try congruence; contradiction.
Qed.

(** * C41 *)
(** the text begins with the marker of a secret roll *)
Definition secret_marker (s : string) : Prop := exists s', s = String "s" s' \/ s = String "S" s'.
Lemma check_secret_not s : ~ secret_marker s -> check_secret s = (s, false).
Proof.
  intros H. unfold check_secret. destruct (decode s) as [|c l] eqn:E.
  - destruct s; [reflexivity|]. pose proof (raw_decode (String a s)) as K. rewrite E in K. discriminate K.
  - destruct ((gc_rune c =? 83) || (gc_rune c =? 115)) eqn:Ec; [|reflexivity]. exfalso. apply H.
    pose proof (decode_decoded s) as Hd. rewrite E in Hd. inversion Hd as [|? ? Hc _]. subst. destruct (decoded_bytes _ Hc) as [(Hb & _)|(Hb & _)]; [|lia].
    pose proof (raw_decode s) as K. rewrite E in K. cbn [raw_text] in K. destruct (gc_raw c) as [|a [|a' r]]; try discriminate Hb. unfold bytes in Hb. cbn [list_ascii_of_string map] in Hb. injection Hb as Hb.
    cbn [append] in K. exists (raw_text l). rewrite <- K, <- (byte_of_val a). rewrite Hb. apply orb_true_iff in Ec as [Ec|Ec]; apply Z.eqb_eq in Ec; rewrite Ec; [right|left]; reflexivity.
Qed.
Lemma not_marker_app s x : s <> EmptyString -> ~ secret_marker s -> ~ secret_marker (s ++ x).
Proof. intros Hs H (s' & E). destruct s as [|a s]; [contradiction|]. cbn [append] in E. apply H. exists s. destruct E as [E|E]; injection E as -> _; tauto. Qed.
Lemma parse_not_marker s n : parse_command s = Ok n -> ~ secret_marker s.
Proof.
  intros H (s' & E). pose proof (parse_not_secret s "" n H) as K. rewrite append_nil_r in K. destruct E; subst s; cbn in K; discriminate K.
Qed.
Definition is_err {A} (o : outcome A) : Prop := exists e, o = Err e.
Lemma white_facts a : white a -> byte_val a < 128 /\ ~ roll_character a.
Proof.
  unfold white, roll_character. intros H. split; [cbn in H; lia|]. intros [K|[K|[K|[K|K]]]]; try (cbn in H; lia).
  apply (in_map byte_val) in K. replace (map byte_val (list_ascii_of_string "BCDRUbcdru")) with [66; 67; 68; 82; 85; 98; 99; 100; 114; 117] in K by (vm_compute; reflexivity). cbn in H, K. lia.
Qed.
(** C41: white space and a comment after a command: if the command is C(...) or CHOICE[...], or its (first) execution does not fail,
    the result and the dice left are the same as without the comment. *)
Theorem C41_comment_ignored bot c a x f n : fits (c ++ String a x) -> no_white c -> white a -> parse_command c = Ok n ->
  calculation_or_choice n \/ ~ is_err (fst (execute_basic_command bot c f)) ->
  execute_command_with bot (c ++ String a x) f = execute_command_with bot c f.
Proof.
  intros Hl Hc Ha Hn Hor. rewrite !execute_command_with_eq. rewrite (check_secret_not c) by (eapply parse_not_marker; exact Hn).
  rewrite (parse_not_secret c _ _ Hn). rewrite first_part_white by assumption. rewrite first_part_none by assumption.
  assert (Hlc : Z.of_nat (String.length c) < two63). { unfold fits in Hl. change (2 ^ 63) with two63 in Hl. rewrite length_append in Hl. lia. }
  destruct (parse_command (c ++ String a x)) as [n'|e'|p'] eqn:Ew; [| |exfalso; eapply parse_no_panic; exact Ew].
  - pose proof (comment_parse c a x n n' Ha Hlc Hn Ew) as ->. rewrite !execute_basic_eq. rewrite Ew, Hn. reflexivity.
  - destruct Hor as [Hf|He].
    + rewrite (parse_followed c (String a x) n Hl) in Ew; [discriminate| |exact Hn|exact Hf]. pose proof (decode_boundary "" a x (proj1 (white_facts a Ha))) as Hd. cbn [append] in Hd. rewrite Hd. cbn [decode app valid_head]. clear Hd.
      unfold gc_bad, ascii_char. cbn [gc_rune]. apply white_facts in Ha as (Ha & _). unfold rune_error. lia.
    + rewrite (execute_basic_eq bot (c ++ String a x)). rewrite Ew. destruct (execute_basic_command bot c f) as [[r|e|p] f1]; [reflexivity| |reflexivity]. exfalso. apply He. exists e. reflexivity.
Qed.
Print Assumptions C41_comment_ignored.
(** C41: a roll that fails is executed once if a comment follows it, but twice if not. *)
Theorem C41_failing_roll bot c a x f n e f1 : fits (c ++ String a x) -> no_white c -> white a -> parse_command c = Ok n -> ~ calculation_or_choice n ->
  execute_basic_command bot c f = (Err e, f1) ->
  execute_command_with bot (c ++ String a x) f = (Err e, f1) /\
  execute_command_with bot c f = execute_command_with bot (c ++ String a x) f1.
Proof.
  intros Hl Hc Ha Hn Hf He. rewrite !execute_command_with_eq. rewrite (check_secret_not c) by (eapply parse_not_marker; exact Hn).
  rewrite (parse_not_secret c _ _ Hn). rewrite first_part_white by assumption. rewrite first_part_none by assumption. rewrite He.
  destruct (parse_command (c ++ String a x)) as [n'|e'|p'] eqn:Ew; [| |exfalso; eapply parse_no_panic; exact Ew].
  - exfalso. apply Hf. assert (n' = n) as <-. { eapply (comment_parse c a x); [exact Ha| |exact Hn|exact Ew]. unfold fits in Hl. change (2 ^ 63) with two63 in Hl. rewrite length_append in Hl. lia. }
    eapply C42_nothing_follows; [exact Ew|]. apply white_facts, Ha.
  - assert (forall f2, execute_basic_command bot (c ++ String a x) f2 = (Err (syntax_error "input" (c ++ String a x)), f2)) as Hw by (intros; rewrite !execute_basic_eq; rewrite Ew; reflexivity).
    rewrite !Hw, He. split; [reflexivity|]. destruct (execute_basic_command bot c f1) as [[r|e2|p] f2]; reflexivity.
Qed.
Print Assumptions C41_failing_roll.
(** C41: if neither the text before the white space nor the whole text is a command, the comment makes no difference either (same error, no dice taken). *)
Theorem C41_not_a_command bot c a x f e e' : no_white c -> white a -> ~ secret_marker c -> parse_text "input" c = Err e -> parse_text "input" (c ++ String a x) = Err e' ->
  execute_command_with bot (c ++ String a x) f = (Err e, f) /\ execute_command_with bot c f = (Err e, f).
Proof.
  intros Hc Ha Hs He Hw. rewrite !execute_command_with_eq. rewrite (check_secret_not c) by exact Hs. rewrite (check_secret_not (c ++ String a x)).
  - rewrite first_part_white by assumption. rewrite first_part_none by assumption. unfold execute_basic_command. rewrite Hw, He. split; reflexivity.
  - intros (s' & E). destruct c as [|b c].
    + cbn [append] in E. unfold white in Ha. destruct E as [E|E]; injection E as -> _; clear - Ha; vm_compute in Ha; decompose [or] Ha; try discriminate; contradiction.
    + apply (not_marker_app (String b c) (String a x)); [discriminate|exact Hs|]. exists s'. exact E.
Qed.
Print Assumptions C41_not_a_command.
Example C41_example : (no_white "2D6>=7" /\ white " " /\ exists n, parse_command "2D6>=7" = Ok n) /\
  execute_command_with basic_bot "2D6>=7 attack!" (FQueue [Die 3 6; Die 5 6]) = execute_command_with basic_bot "2D6>=7" (FQueue [Die 3 6; Die 5 6]).
Proof.
  split; [|vmc]. split; [|split; [vm_compute; tauto|eexists; vmc]]. unfold no_white.
  repeat constructor; intros H; vm_compute in H; decompose [or] H; try discriminate; contradiction.
Qed.

(** * C43 *)
Lemma check_secret_marked a t : a = "s"%char \/ a = "S"%char -> valid_utf8 t -> check_secret (String a t) = (t, true).
Proof.
  intros Ha Hv. unfold check_secret. replace (decode (String a t)) with (ascii_char a :: decode t) by (destruct Ha as [-> | ->]; reflexivity).
  replace ((gc_rune (ascii_char a) =? 83) || (gc_rune (ascii_char a) =? 115)) with true by (destruct Ha as [-> | ->]; reflexivity).
  rewrite encode_valid; [rewrite raw_decode; reflexivity|apply decode_decoded|exact Hv].
Qed.
(** C43: a leading s or S makes the roll secret; otherwise the rest of the text is executed as usual. *)
Theorem C43_secret bot a t f : a = "s"%char \/ a = "S"%char -> valid_utf8 t -> ~ secret_marker t ->
  execute_command_with bot (String a t) f =
  match execute_command_with bot t f with
  | (Ok r, f') => (Ok (Result (r_game_id r) (r_parts r) (r_dice r) (r_success r) true), f')
  | other => other
  end.
Proof.
  intros Ha Hv Hm. rewrite !execute_command_with_eq. rewrite (check_secret_not t Hm).
  rewrite (check_secret_marked a t Ha Hv).
  destruct (execute_basic_command bot t f) as [[r|e|p] f1]; try reflexivity. destruct (execute_basic_command bot (first_part t) f1) as [[r|e2|p] f2]; reflexivity.
Qed.
Print Assumptions C43_secret.
(** C43: a second marker is not a command. *)
Theorem C43_twice bot a t f : a = "s"%char \/ a = "S"%char -> valid_utf8 t -> secret_marker t -> exists e, execute_command_with bot (String a t) f = (Err e, f).
Proof.
  intros Ha Hv Hm. rewrite execute_command_with_eq.
  rewrite (check_secret_marked a t Ha Hv).
  assert (forall s, secret_marker s -> exists e, forall f0, execute_basic_command bot s f0 = (Err e, f0)) as H.
  { intros s Hs. exists (syntax_error "input" s). intros f0. rewrite execute_basic_eq. destruct (parse_command s) as [n|e|p] eqn:E; [exfalso; eapply parse_not_marker; eassumption|reflexivity|exfalso; eapply parse_no_panic; exact E]. }
  destruct (H _ Hm) as (e & He). rewrite He. assert (secret_marker (first_part t)) as Hf.
  { rewrite RegexUses.first_part_eq. destruct Hm as (s' & [-> | ->]); exists (RegexUses.hand_first_part s'); [left|right]; reflexivity. }
  destruct (H _ Hf) as (e2 & He2). rewrite He2. eauto.
Qed.
Print Assumptions C43_twice.
(** C43: without the marker the result is not secret. *)
Theorem C43_not_secret bot t f r f' : ~ secret_marker t -> execute_command_with bot t f = (Ok r, f') -> r_secret r = false.
Proof.
  intros Hm. rewrite execute_command_with_eq, (check_secret_not t Hm). destruct (execute_basic_command bot t f) as [[r1|e|p] f1]; try discriminate.
  - intros [= <- _]. reflexivity.
  - destruct (execute_basic_command bot (first_part t) f1) as [[r2|e2|p] f2]; try discriminate. intros [= <- _]. reflexivity.
Qed.
Print Assumptions C43_not_secret.
Example C43_example : valid_utf8 "2D6" /\ ~ secret_marker "2D6" /\ secret_marker "s2D6" /\
  execute_command_with basic_bot "S2D6" (FQueue [Die 3 6; Die 5 6]) = (Ok (Result "DiceBot" ["(2D6)"; "8[3,5]"; "8"]%string [Die 3 6; Die 5 6] Unspecified true), FQueue []).
Proof. split; [repeat constructor|]. split; [intros (s' & [H|H]); discriminate|]. split; [eexists; left; reflexivity|]. vmc. Qed.
