(** Property C86: the test runner. *)
From Verif Require Import Grammar ProofBase SpecText NumberText Dice SpecDice DiceProofs BCDice BCDiceProofs Quote SexpProofs TestCase SpecFiles FileProofs ExecProofs
  Prop_files Prop_exec Prop_nodice Prop_lines SpecRunner Runner.
Open Scope list_scope.
Open Scope Z_scope.

Lemma executes_queue (c : test_case) line : exists o rest, ends c line o rest /\ execute_command (new_bcdice (FQueue (new_queue (tc_dice c)))) line = (o, new_bcdice (FQueue rest)).
Proof.
  unfold ends. unfold new_queue. rewrite queue_append_app. cbn [app]. unfold execute_command, new_bcdice. cbn [bd_bot bd_feeder].
  destruct (execute_command_with basic_bot line (FQueue (tc_dice c))) as [o f] eqn:E. destruct (execute_command_queue_left _ _ _ _ _ E) as (t & q & -> & _). exists o, q. split; reflexivity.
Qed.
Lemma answer_shown r : (if r_secret r then (message r ++ "###secret dice###")%string else message r) = answer_text r.
Proof. unfold answer_text. destruct (r_secret r); [reflexivity|]. symmetry. apply DecodeProofs.append_nil_r. Qed.
Lemma answer_nonempty r : answer_text r <> EmptyString.
Proof. unfold answer_text, message. destruct (r_game_id r); discriminate. Qed.
Lemma ends_det c line o o' rest rest' : ends c line o rest -> ends c line o' rest' -> o = o' /\ rest = rest'.
Proof. unfold ends. intros H H'. rewrite H in H'. injection H' as -> ->. split; reflexivity. Qed.
Lemma subtest_judged c line l : subtest c line = Ok l <-> judged c line l.
Proof.
  unfold subtest. destruct (executes_queue c line) as (o & rest & He & ->). cbn [bd_feeder new_bcdice]. split.
  - destruct o as [r|e|p]; [| |discriminate].
    + rewrite answer_shown. destruct (String.eqb (tc_output c) "") eqn:E0; intros [= <-].
      * apply String.eqb_eq in E0. eapply judged_no_error; eassumption.
      * apply String.eqb_neq in E0. unfold queue_dice. assert (queue_is_empty rest = match rest with [] => true | _ => false end) as -> by (destruct rest; reflexivity).
        destruct (String.eqb (answer_text r) (tc_output c)) eqn:E1; [apply String.eqb_eq in E1|apply String.eqb_neq in E1]; destruct rest as [|d rest]; cbn [app].
        -- eapply judged_right; [exact He|congruence].
        -- eapply judged_over; [exact He|discriminate|congruence].
        -- eapply judged_wrong; [exact He|exact E0|congruence].
        -- eapply judged_both; [exact He|discriminate|exact E0|congruence].
    + destruct (String.eqb (tc_output c) "") eqn:E0; intros [= <-]; [apply String.eqb_eq in E0; eapply judged_error; eassumption|apply String.eqb_neq in E0; eapply judged_unexpected; eassumption].
  - pose proof (answer_nonempty) as Hn. destruct 1 as [e rest' H E|e rest' H E|r rest' H E|r H E|r H E E'|r rest' H E E'|r rest' H E E' E2]; destruct (ends_det _ _ _ _ _ _ He H) as (-> & ->).
    + rewrite E. reflexivity.
    + apply String.eqb_neq in E. rewrite E. reflexivity.
    + rewrite E. reflexivity.
    + rewrite answer_shown, E. specialize (Hn r). apply String.eqb_neq in Hn. rewrite Hn, String.eqb_refl. reflexivity.
    + rewrite answer_shown. apply String.eqb_neq in E. rewrite E. apply not_eq_sym, String.eqb_neq in E'. rewrite E'. reflexivity.
    + rewrite answer_shown, E'. specialize (Hn r). apply String.eqb_neq in Hn. rewrite Hn, String.eqb_refl. destruct rest'; [contradiction|]. reflexivity.
    + rewrite answer_shown. apply String.eqb_neq in E'. rewrite E'. apply not_eq_sym, String.eqb_neq in E2. rewrite E2. destruct rest'; [contradiction|]. reflexivity.
Qed.
Lemma subtest_cases c line : (exists l, subtest c line = Ok l /\ judged c line l) \/ exists p rest, subtest c line = Panic p /\ ends c line (Panic p) rest.
Proof.
  destruct (subtest c line) as [l|e|p] eqn:E; [left; exists l; split; [reflexivity|apply subtest_judged, E]| |].
  - exfalso. unfold subtest in E. destruct (execute_command _ line) as [[r|e'|p] b]; [destruct (String.eqb (tc_output c) ""); discriminate|destruct (String.eqb (tc_output c) ""); discriminate|discriminate].
  - right. unfold subtest in E. destruct (executes_queue c line) as (o & rest & He & K). rewrite K in E. destruct o as [r|e'|p']; [destruct (String.eqb (tc_output c) ""); discriminate|destruct (String.eqb (tc_output c) ""); discriminate|].
    injection E as ->. exists p, rest. split; [reflexivity|exact He].
Qed.
Lemma input_nonempty files g cs : parse_files files g = Ok cs -> Forall (fun c => tc_input c <> []) cs.
Proof.
  intros H. apply C51_files in H as (_ & css & -> & H). apply Forall_forall. intros c Hc. apply in_concat in Hc as (l & Hl & Hc).
  assert (exists f, In f files /\ exists content l0, snd f = Ok content /\ parse_file content g = Ok l0 /\ map (fun c => (tc_input c, tc_output c, tc_dice c)) l = map (fun c => (tc_input c, tc_output c, tc_dice c)) l0) as (f & _ & content & l0 & _ & Hp & Hm).
  { clear - H Hl. induction H as [|f k files css Hf H IH]; [destruct Hl|]. destruct Hl as [-> |Hl]; [exists f; split; [left; reflexivity|exact Hf]|destruct (IH Hl) as (f' & H1 & H2); exists f'; split; [right; exact H1|exact H2]]. }
  assert (exists c0, In c0 l0 /\ tc_input c0 = tc_input c) as (c0 & Hc0 & <-).
  { apply (in_map (fun c => (tc_input c, tc_output c, tc_dice c))) in Hc. rewrite Hm in Hc. apply in_map_iff in Hc as (c0 & E & Hc0). exists c0. split; [exact Hc0|congruence]. }
  clear - Hp Hc0. unfold parse_file in Hp. remember (split_str separator (trim_right_nl content)) as src. clear Heqsrc. assert (forall i acc, Forall (fun c => tc_input c <> []) acc -> parse_cases i g src acc = Ok l0 -> Forall (fun c => tc_input c <> []) l0) as K.
  { clear. induction src as [|s src IH]; intros i acc Ha; cbn [parse_cases]; [intros [= <-]; exact Ha|]. destruct (parse_test_case s g (i + 1)) as [c|e|p] eqn:E; try discriminate. apply IH. apply Forall_app. split; [exact Ha|]. constructor; [|constructor].
    unfold parse_test_case in E. destruct (match_source s) as [(x, (y, z))|]; [|discriminate]. destruct (parse_dice z); try discriminate. injection E as <-. cbn [tc_input]. apply split_nonempty. }
  specialize (K 0 [] (Forall_nil _) Hp). rewrite Forall_forall in K. exact (K _ Hc0).
Qed.
Definition first_line (c : test_case) : string := match tc_input c with l :: _ => l | [] => EmptyString end.
Lemma run_cases_cases cs : Forall (fun c => tc_input c <> []) cs -> forall acc,
  (exists l, run_cases cs acc = Ran (acc ++ l) /\ Forall2 subtest_of cs l) \/
  (exists before c after l p rest, cs = before ++ c :: after /\ Forall2 subtest_of before l /\ ends c (first_line c) (Panic p) rest /\ run_cases cs acc = Crash (acc ++ l) (subtest_name c (first_line c)) p).
Proof.
  induction 1 as [|c cs Hc H IH]; intros acc; cbn [run_cases].
  - left. exists []. split; [rewrite app_nil_r; reflexivity|constructor].
  - destruct (tc_input c) as [|line more] eqn:Ei; [congruence|]. assert (first_line c = line) as El by (unfold first_line; rewrite Ei; reflexivity).
    destruct (subtest_cases c line) as [(l & E & Hj)|(p & rest & E & He)]; rewrite E.
    + assert (subtest_of c (subtest_name c line, l)) as Hs by (exists line, more; split; [exact Ei|]; split; [exact Hj|reflexivity]).
      destruct (IH (acc ++ [(subtest_name c line, l)])) as [(l' & -> & Hl)|(before & c' & after & l' & p & rest & -> & Hb & He & ->)].
      * left. exists ((subtest_name c line, l) :: l'). split; [rewrite <- app_assoc; reflexivity|constructor; assumption].
      * right. exists (c :: before), c', after, ((subtest_name c line, l) :: l'), p, rest. split; [reflexivity|]. split; [constructor; assumption|]. split; [exact He|]. rewrite <- app_assoc. reflexivity.
    + right. exists [], c, cs, [], p, rest. split; [reflexivity|]. split; [constructor|]. rewrite El. split; [exact He|]. rewrite app_nil_r. reflexivity.
Qed.
Lemma judged_det c line l l' : judged c line l -> judged c line l' -> l = l'.
Proof. intros H H'. apply subtest_judged in H, H'. congruence. Qed.
Lemma subtest_of_det c s s' : subtest_of c s -> subtest_of c s' -> s = s'.
Proof. intros (l & m & E & J & N) (l' & m' & E' & J' & N'). rewrite E in E'. injection E' as <- <-. destruct s, s'. cbn in *. f_equal; [congruence|eapply judged_det; eassumption]. Qed.
Lemma subtests_det cs : forall l l', Forall2 subtest_of cs l -> Forall2 subtest_of cs l' -> l = l'.
Proof. induction cs as [|c cs IH]; intros l l' H H'; inversion H; inversion H'; subst; [reflexivity|]. f_equal; [eapply subtest_of_det; eassumption|apply IH; assumption]. Qed.

Definition readable (files : list (string * outcome string)) : Prop := forall name content p, In (name, content) files -> content <> Panic p.
Lemma readable_no_panic g files : readable files -> forall acc p, parse_files_loop g files acc <> Panic p.
Proof.
  assert (forall c p, parse_file c g <> Panic p) as K. { intros c p. unfold parse_file. generalize (@nil test_case), 0. induction (split_str separator (trim_right_nl c)) as [|s l IHl]; intros acc' i; cbn [parse_cases]; [discriminate|]. unfold parse_test_case at 1.
    destruct (match_source s) as [(a, (b, r))|]; [|discriminate]. destruct (parse_dice r) as [ds|e|p'] eqn:Ed; [apply IHl|discriminate|]. exfalso. exact (parse_dice_not_panic _ _ Ed). }
  induction files as [|(n, x) files IH]; intros Hf acc p; cbn [parse_files_loop]; [discriminate|].
  destruct x as [c|e|p']; [destruct (parse_file c g) as [cs|e|p'] eqn:Ec; [apply IH; intros n' c' q Hin; apply (Hf n' c' q); right; exact Hin|discriminate|exfalso; exact (K _ _ Ec)]|discriminate|].
  exfalso. apply (Hf n (Panic p') p'); [left; reflexivity|reflexivity].
Qed.

(** * C86 *)
(** A run that ends is exactly this: the test data could be loaded, and there is one subtest for each case, in order, named after the system, the number of
    the case, its first line and its dice, with the reports listed in SpecRunner.v. *)
Theorem C86_report g files l : run_tests g files = Ran l <-> exists cs, parse_files files g = Ok cs /\ Forall2 subtest_of cs l.
Proof.
  unfold run_tests. split.
  - destruct (parse_files files g) as [cs|e|p] eqn:E; try discriminate. intros H. exists cs. split; [reflexivity|].
    destruct (run_cases_cases cs (input_nonempty _ _ _ E) []) as [(l' & K & Hl)|(b & c & a & l' & p & rest & _ & _ & _ & K)]; rewrite K in H; [|discriminate]. injection H as <-. exact Hl.
  - intros (cs & -> & H). assert (Forall (fun c => tc_input c <> []) cs) as Hn. { clear - H. induction H as [|c s cs l (line & more & E & _) H IH]; constructor; [congruence|exact IH]. }
    destruct (run_cases_cases cs Hn []) as [(l' & -> & Hl)|(b & c & a & l' & p & rest & -> & Hb & He & _)]; [cbn [app]; f_equal; eapply subtests_det; eassumption|].
    exfalso. apply Forall2_app_inv_l in H as (l1 & l2 & _ & H & _). inversion H as [|? s ? ? (line & more & E & J & _)]; subst. unfold first_line in He. rewrite E in He. destruct J; match goal with K : ends _ _ _ _ |- _ => destruct (ends_det _ _ _ _ _ _ He K) as (K1 & _); discriminate K1 end.
Qed.
Print Assumptions C86_report.
(** Otherwise the test data could not be loaded, and the reason is reported; or the execution of the first line of a case crashed, and the subtests before it are
    those of the cases before. *)
Theorem C86_otherwise g files : readable files ->
  (forall m, run_tests g files = Unloaded m <-> exists e, parse_files files g = Err e /\ m = ("テストデータファイルの読み込み失敗: " ++ e)%string) /\
  (forall l name p, run_tests g files = Crash l name p -> exists before c after line more rest,
     parse_files files g = Ok (before ++ c :: after) /\ Forall2 subtest_of before l /\ tc_input c = line :: more /\ ends c line (Panic p) rest).
Proof.
  intros Hfiles. unfold run_tests. split.
  - intros m. destruct (parse_files files g) as [cs|e|p] eqn:E.
    + split; [|intros (e & K & _); discriminate K]. intros H. destruct (run_cases_cases cs (input_nonempty _ _ _ E) []) as [(l' & K & _)|(b & c & a & l' & p & rest & _ & _ & _ & K)]; rewrite K in H; discriminate.
    + split; [intros [= <-]; eauto|intros (e' & [= <-] & ->); reflexivity].
    + split; [discriminate|intros (e & K & _); discriminate K].
  - intros l name p. destruct (parse_files files g) as [cs|e|q] eqn:E; [|discriminate|].
    + intros H. pose proof (input_nonempty _ _ _ E) as Hn. destruct (run_cases_cases cs Hn []) as [(l' & K & _)|(b & c & a & l' & p' & rest & -> & Hb & He & K)]; rewrite K in H; [discriminate|].
      injection H as <- _ <-. apply Forall_app in Hn as (_ & Hn). inversion Hn as [|? ? Hc _]; subst. destruct (tc_input c) as [|line more] eqn:Ei; [congruence|].
      exists b, c, a, line, more, rest. split; [reflexivity|]. split; [exact Hb|]. split; [exact Ei|]. unfold first_line in He. rewrite Ei in He. exact He.
    + exfalso. exact (readable_no_panic g files Hfiles [] q E).
Qed.
Print Assumptions C86_otherwise.

(** A run is green -- it ends and no subtest reports anything -- exactly if every case passes in the sense of C58. *)
Theorem C86_green g files : (exists l, run_tests g files = Ran l /\ Forall (fun s => snd s = []) l) <-> exists cs, parse_files files g = Ok cs /\ Forall (fun c => run_test_case c = Passed) cs.
Proof.
  assert (forall c, run_test_case c = Passed <-> exists s, subtest_of c s /\ snd s = []) as K.
  { intros c. rewrite C58_verdict. split.
    - intros (line & more & E & [(Ho & e & b' & H)|(Ho & r & H & Hr)]).
      + destruct (executes_queue c line) as (o & rest & He & _). pose proof He as He'. unfold ends in He'. rewrite H in He'. injection He' as <- _.
        eexists (_, []). split; [|reflexivity]. exists line, more. split; [exact E|]. split; [eapply judged_error; eassumption|reflexivity].
      + eexists (_, []). split; [|reflexivity]. exists line, more. split; [exact E|]. split; [eapply judged_right; [exact H|exact Hr]|reflexivity].
    - intros ((n, l) & (line & more & E & J & _) & El). cbn [snd] in *. subst l. exists line, more. split; [exact E|]. inversion J; subst.
      + left. split; [assumption|]. eexists. eexists. eassumption.
      + right. split; [|eexists; split; eassumption]. match goal with H : tc_output c = _ |- _ => rewrite H end. apply answer_nonempty. }
  split.
  - intros (l & H & Hl). apply C86_report in H as (cs & Hp & H). exists cs. split; [exact Hp|]. clear - K H Hl. induction H as [|c s cs l Hs H IH]; [constructor|]. inversion Hl; subst. constructor; [apply K; eauto|apply IH; assumption].
  - intros (cs & Hp & H). assert (exists l, Forall2 subtest_of cs l /\ Forall (fun s => snd s = []) l) as (l & H1 & H2).
    { clear - K H. induction H as [|c cs Hc H (l & H1 & H2)]; [exists []; split; constructor|]. apply K in Hc as (s & Hs & E). exists (s :: l). split; constructor; assumption. }
    exists l. split; [apply C86_report; eauto|exact H2].
Qed.
Print Assumptions C86_green.
(** The name of a subtest tells the number of the case, its first line and its dice; so no two subtests of a run have the same name. *)
Lemma name_code g i i' line line' ds ds' :
  (g ++ "-" ++ itoa i ++ ":" ++ quoted_text line ++ "[" ++ format_dice_without_spaces ds ++ "]" = g ++ "-" ++ itoa i' ++ ":" ++ quoted_text line' ++ "[" ++ format_dice_without_spaces ds' ++ "]")%string ->
  i = i' /\ line = line' /\ format_dice_without_spaces ds = format_dice_without_spaces ds'.
Proof.
  intros E. apply app_inv_s in E. apply app_inv_s in E.
  assert (forall v, lacks ":" (itoa v)) as L by (intros v; apply itoa_lacks; vm_compute; tauto).
  assert (forall a b x y, lacks ":" a -> lacks ":" b -> (a ++ String ":" x = b ++ String ":" y)%string -> a = b /\ x = y) as C.
  { clear. induction a as [|c a IH]; intros [|d b] x y Ha Hb E; cbn in E.
    - injection E as E. split; [reflexivity|exact E].
    - injection E as E1 E2. apply lacks_cons in Hb as (Hb & _). congruence.
    - injection E as E1 E2. apply lacks_cons in Ha as (Ha & _). congruence.
    - injection E as E1 E2. apply lacks_cons in Ha as (_ & Ha). apply lacks_cons in Hb as (_ & Hb). destruct (IH _ _ _ Ha Hb E2) as (-> & ->). subst. split; reflexivity. }
  apply C in E as (E1 & E2); [|apply L..]. apply itoa_inj in E1. split; [exact E1|]. apply quote_code in E2 as (-> & E2). split; [reflexivity|]. cbn in E2. injection E2 as E2. apply app_inv_r_s in E2. exact E2.
Qed.
Theorem C86_names g files l : run_tests g files = Ran l ->
  NoDup (map fst l) /\
  forall c c' s s', subtest_of c s -> subtest_of c' s' -> tc_game_id c = tc_game_id c' -> fst s = fst s' ->
    tc_index c = tc_index c' /\ first_line c = first_line c' /\ format_dice_without_spaces (tc_dice c) = format_dice_without_spaces (tc_dice c').
Proof.
  assert (forall c c' s s', subtest_of c s -> subtest_of c' s' -> tc_game_id c = tc_game_id c' -> fst s = fst s' ->
    tc_index c = tc_index c' /\ first_line c = first_line c' /\ format_dice_without_spaces (tc_dice c) = format_dice_without_spaces (tc_dice c')) as K.
  { intros c c' s s' (line & more & E & _ & N) (line' & more' & E' & _ & N') Eg En. rewrite N, N', Eg in En. unfold first_line. rewrite E, E'. apply name_code in En. exact En. }
  intros H. split; [|exact K]. apply C86_report in H as (cs & Hp & H). apply C51_files in Hp as (Hn & _).
  apply NoDup_nth_error. intros i j Hi E. rewrite map_length in Hi. rewrite !nth_error_map in E.
  assert (forall k s, nth_error l k = Some s -> exists c, nth_error cs k = Some c /\ subtest_of c s) as F.
  { clear - H. induction H as [|c s cs l Hs H IH]; intros [|k] s' Hk; try discriminate Hk; cbn in *; [injection Hk as <-; eauto|exact (IH _ _ Hk)]. }
  destruct (nth_error l i) as [s|] eqn:Es; [|apply nth_error_None in Es; lia]. destruct (nth_error l j) as [s'|] eqn:Es'; [|discriminate E]. cbn [option_map] in E. injection E as E.
  destruct (F _ _ Es) as (c & Hc & Sc). destruct (F _ _ Es') as (c' & Hc' & Sc'). destruct (Hn _ _ Hc) as (I1 & G1). destruct (Hn _ _ Hc') as (I2 & G2).
  destruct (K _ _ _ _ Sc Sc' ltac:(congruence) E) as (EI & _). lia.
Qed.
Print Assumptions C86_names.
(** The texts of a report can be read back: "got ... want ..." tells the two texts, and the dice left over are the last dice of the case, in the dice notation. *)
Theorem C86_readable :
  (forall a b a' b', not_right a b = not_right a' b' -> a = a' /\ b = b') /\
  (forall c line o rest, ends c line o rest -> exists taken, tc_dice c = taken ++ rest) /\
  (forall rest, Forall writable rest -> exists text, dice_over rest = ("ダイス残り: " ++ text)%string /\ parse_dice text = Ok rest).
Proof.
  split; [|split].
  - intros a b a' b' E. unfold not_right in E. apply app_inv_s in E. apply quote_code in E as (-> & E). split; [reflexivity|]. apply app_inv_s in E.
    rewrite <- (DecodeProofs.append_nil_r (quoted_text b)), <- (DecodeProofs.append_nil_r (quoted_text b')) in E. apply quote_code in E as (-> & _). reflexivity.
  - intros c line o rest H. unfold ends, execute_command, new_bcdice in H. cbn [bd_bot bd_feeder] in H. destruct (execute_command_with basic_bot line (FQueue (tc_dice c))) as [o1 f1] eqn:E. injection H as _ ->.
    destruct (execute_command_queue_left _ _ _ _ _ E) as (t & q & [= <-] & E'). exists t. exact E'.
  - intros rest H. exists (format_dice rest). split; [reflexivity|apply parse_format, H].
Qed.
Print Assumptions C86_readable.
(** A failing case can be accepted: with the text after "got" as output and without the dice left over it passes. *)
Theorem C86_accept c line more r rest : tc_input c = line :: more -> moderate line -> ends c line (Ok r) rest ->
  exists taken, tc_dice c = taken ++ rest /\ run_test_case (TestCase (tc_game_id c) (tc_index c) (tc_input c) (answer_text r) taken) = Passed.
Proof.
  intros Ei Hm H. destruct (proj1 (proj2 C86_readable) _ _ _ _ H) as (taken & E). exists taken. split; [exact E|]. apply C58_verdict. cbn [tc_input tc_output tc_dice]. exists line, more. split; [exact Ei|]. right. split; [apply answer_nonempty|].
  exists r. split; [|reflexivity]. unfold ends, execute_command, new_bcdice in *. cbn [bd_bot bd_feeder] in *. rewrite E in H. destruct (execute_command_with basic_bot line (FQueue (taken ++ rest))) as [o1 f1] eqn:E1. injection H as -> ->.
  rewrite <- (app_nil_r taken). rewrite (execute_command_local _ _ _ _ _ Hm E1 (or_intror (ex_intro _ r eq_refl)) []). reflexivity.
Qed.
Print Assumptions C86_accept.
(** More files only add subtests: those of the first files stay as they are. *)
Theorem C86_more_files g files files' l : readable files' -> run_tests g files = Ran l ->
  match run_tests g (files ++ files') with
  | Ran l' => exists more, l' = l ++ more
  | Crash l' _ _ => files' <> [] /\ exists more, l' = l ++ more
  | Unloaded _ => files' <> []
  end.
Proof.
  intros Hf H. apply C86_report in H as (cs & Hp & H).
  assert (forall acc, parse_files_loop g (files ++ files') acc = match parse_files_loop g files acc with Ok cs => parse_files_loop g files' cs | Err e => Err e | Panic p => Panic p end) as A.
  { clear. induction files as [|(n, x) files IH]; intros acc; cbn [app parse_files_loop]; [reflexivity|]. destruct x as [c|e|p]; [|reflexivity..]. destruct (parse_file c g) as [cs|e|p]; [apply IH|reflexivity..]. }
  assert (forall fs acc cs, parse_files_loop g fs acc = Ok cs -> exists more, cs = acc ++ more) as B.
  { clear. induction fs as [|(n, x) files IH]; intros acc cs; cbn [parse_files_loop]; [intros [= <-]; exists []; rewrite app_nil_r; reflexivity|]. destruct x as [c|e|p]; try discriminate. destruct (parse_file c g) as [cs'|e|p]; try discriminate.
    intros H. destruct (IH _ _ H) as (more & ->). eexists. rewrite <- app_assoc. reflexivity. }
  assert (files' = [] -> run_tests g (files ++ files') = Ran l) as N. { intros ->. rewrite app_nil_r. apply C86_report. eauto. }
  unfold run_tests in *. unfold parse_files in *. rewrite A, Hp in *. destruct (parse_files_loop g files' cs) as [cs'|e|p] eqn:E.
  - destruct (B _ _ _ E) as (more & ->). assert (Forall (fun c => tc_input c <> []) (cs ++ more)) as Hn. { apply (input_nonempty (files ++ files') g). unfold parse_files. rewrite A, Hp. exact E. }
    destruct (run_cases_cases _ Hn []) as [(l' & K & Hl)|(b & c & a & l' & p & rest & Ec & Hb & He & K)]; rewrite K in *; cbn [app] in *.
    + apply Forall2_app_inv_l in Hl as (l1 & l2 & H1 & _ & ->). exists l2. f_equal. eapply subtests_det; eassumption.
    + split; [intros F; discriminate (N F)|]. assert (exists b2, b = cs ++ b2) as (b2 & ->).
      { clear - Ec H He. revert b Ec. induction H as [|c0 s cs l Hs H IH]; intros b Ec; [eexists; reflexivity|]. destruct b as [|c1 b]; cbn [app] in Ec; injection Ec as -> Ec.
        - exfalso. destruct Hs as (line & more' & E & J & _). unfold first_line in He. rewrite E in He. destruct J; match goal with K : ends _ _ _ _ |- _ => destruct (ends_det _ _ _ _ _ _ He K) as (K1 & _); discriminate K1 end.
        - destruct (IH b Ec) as (b2 & ->). exists b2. reflexivity. }
      apply Forall2_app_inv_l in Hb as (l1 & l2 & H1 & _ & ->). exists l2. f_equal. eapply subtests_det; eassumption.
  - intros F. discriminate (N F).
  - exfalso. exact (readable_no_panic g files' Hf cs p E).
Qed.
Print Assumptions C86_more_files.

(** ** Recordings *)
Lemma answer_start r line f f' : execute_command (new_bcdice f) line = (Ok r, new_bcdice f') -> exists t, answer_text r = ("DiceBot : " ++ t)%string.
Proof.
  intros H. unfold execute_command, new_bcdice in H. cbn [bd_bot bd_feeder] in H. destruct (execute_command_with basic_bot line f) as [o f1] eqn:E. injection H as -> ->.
  destruct (Prop_message.C44_message _ _ _ _ _ E) as (? & ? & ? & ? & ? & ? & parts & _ & _ & _ & _ & _ & _ & Em). unfold answer_text. rewrite Em. eexists. cbn. reflexivity.
Qed.
Lemma answer_line r line f f' : lacks "010" line -> execute_command (new_bcdice f) line = (Ok r, new_bcdice f') -> lacks "010" (answer_text r).
Proof.
  intros L H. unfold execute_command, new_bcdice in H. cbn [bd_bot bd_feeder] in H. destruct (execute_command_with basic_bot line f) as [o f1] eqn:E. injection H as -> ->.
  unfold answer_text. apply lacks_app. split; [|destruct (r_secret r); intros K; vm_compute in K; intuition discriminate].
  apply (C87_control_characters basic_bot line f r f' "010"%char); [left; vm_compute; reflexivity|intros K; vm_compute in K; intuition discriminate|exact L|exact E].
Qed.
Lemma split_middle p x y : lacks "010" p -> In p (tl (split_byte "010" (x ++ String "010" (p ++ String "010" y)))).
Proof.
  intros L. induction x as [|c x IH]; cbn [append].
  - cbn [split_byte]. rewrite Ascii.eqb_refl. cbn [tl]. rewrite split_here by exact L. left. reflexivity.
  - cbn [split_byte]. destruct (Ascii.eqb c "010"); cbn [tl].
    + destruct (split_byte "010" (x ++ String "010" (p ++ String "010" y))); [destruct IH|right; exact IH].
    + destruct (split_byte "010" (x ++ String "010" (p ++ String "010" y))); [destruct IH|exact IH].
Qed.
Lemma separator_not lines : lines <> [] -> Forall (lacks "010") lines -> ~ In rule_line lines -> ~ occurs case_separator (join newline lines ++ newline).
Proof.
  intros Hn Hl Hr (a & b & E). assert (join newline lines ++ newline = join newline (lines ++ [EmptyString]))%string as J.
  { clear - Hn. induction lines as [|x [|y l] IH]; [congruence|reflexivity|]. change ((x :: y :: l) ++ [EmptyString]) with (x :: ((y :: l) ++ [EmptyString])). rewrite (join_cons newline x (y :: l)) by discriminate. rewrite (join_cons newline x ((y :: l) ++ [EmptyString])) by discriminate. rewrite <- IH by discriminate. rewrite !app_assoc_s. reflexivity. }
  rewrite J in E. assert (split_byte "010" (join newline (lines ++ [EmptyString])) = lines ++ [EmptyString]) as S.
  { apply split_join; [destruct lines; discriminate|]. apply Forall_app. split; [exact Hl|]. constructor; [intros []|constructor]. }
  rewrite E in S. assert (lacks "010" rule_line) as Lr by (intros K; vm_compute in K; intuition discriminate). pose proof (split_middle rule_line a b Lr) as K.
  change (a ++ case_separator ++ b)%string with (a ++ String "010" ((rule_line ++ newline) ++ b))%string in S. rewrite <- app_assoc_s in S. cbn [newline append] in S. rewrite S in K.
  apply Hr. destruct lines as [|x l]; [congruence|]. cbn [app tl] in K. right. apply in_app_or in K as [K|[K|[]]]; [exact K|discriminate K].
Qed.
Lemma recorded_well_formed x ds : took_place x -> Forall writable ds -> well_formed_case (Written [x_line x] (recorded_output (x_outcome x)) ds).
Proof.
  intros (H1 & H2 & H3 & H4 & H5 & H6) Hw.
  assert (lacks "010" (recorded_output (x_outcome x))) as Lo by (destruct (x_outcome x) eqn:Eo; cbn [recorded_output]; [eapply answer_line; eassumption|intros []..]).
  assert (recorded_output (x_outcome x) = EmptyString \/ exists t, recorded_output (x_outcome x) = ("DiceBot : " ++ t)%string) as Ho by (destruct (x_outcome x) eqn:Eo; cbn [recorded_output]; [right; eapply answer_start; eassumption|left; reflexivity..]).
  unfold well_formed_case. cbn [w_lines w_output w_dice]. split; [discriminate|]. split; [congruence|]. split; [constructor; [exact H3|constructor]|]. split; [|split; [|split; [exact Hw|]]].
  - intros t E. rewrite E in Lo. apply lacks_cons in Lo as (Lo & _). congruence.
  - intros (a & b & E). destruct a as [|c a].
    + cbn in E. injection E as E. destruct Ho as [Ho|(t & Ho)]; rewrite Ho in E; discriminate E.
    + cbn in E. injection E as _ E. rewrite E in Lo. apply lacks_app in Lo as (_ & Lo). apply lacks_cons in Lo as (Lo & _). congruence.
  - assert (written_text (Written [x_line x] (recorded_output (x_outcome x)) ds) = join newline ["input:"%string; x_line x; "output:"%string; recorded_output (x_outcome x); ("rand:" ++ format_dice_without_spaces ds)%string]) as -> by reflexivity.
    apply separator_not; [discriminate| |].
    + repeat apply Forall_cons; try apply Forall_nil; try assumption; try (intros K; vm_compute in K; intuition discriminate). apply lacks_app. split; [apply rand_lacks|apply format_lacks, Hw].
    + intros K. cbn [In] in K. destruct K as [K|[K|[K|[K|[K|[]]]]]]; [discriminate K|congruence|discriminate K| |discriminate K]. destruct Ho as [Ho|(t & Ho)]; rewrite Ho in K; discriminate K.
Qed.
Lemma replay_any line f o f' : moderate line -> execute_command_with basic_bot line f = (o, f') -> exists ds, draws f ds f' /\ execute_command_with basic_bot line (FQueue ds) = (o, FQueue []).
Proof.
  intros Hl H. destruct f as [q|intn k].
  - destruct (execute_command_queue_left _ _ _ _ _ H) as (t & q' & -> & ->). exists t. split; [apply draws_queue; eauto|]. rewrite <- (app_nil_r t). destruct q' as [|d q']; [exact H|].
    apply (execute_command_local _ _ _ _ _ Hl H). left. discriminate.
  - destruct (execute_command_random_replay _ _ _ _ _ ltac:(eexists; eexists; reflexivity) H) as (ds & Hd & Hr). exists ds. split; [exact Hd|]. rewrite <- (app_nil_r ds) at 1. apply Hr.
Qed.
(** Whatever was executed, by queued or random dice, successfully or not: written to a file as test cases -- the line, the answer (nothing for an error) and the
    dice taken -- it makes a green run, with one subtest per execution, for every name of a game system and of the file. *)
Theorem C86_recorded xs : xs <> [] -> Forall took_place xs ->
  exists cs, Forall2 (fun x c => w_lines c = [x_line x] /\ w_output c = recorded_output (x_outcome x) /\ draws (x_feeder x) (w_dice c) (x_after x)) xs cs /\
    (Forall (fun c => Forall writable (w_dice c)) cs -> forall g name n, exists l, run_tests g [(name, Ok (file_text cs n))] = Ran l /\ Forall (fun s => snd s = []) l /\ length l = length xs).
Proof.
  intros Hn H.
  assert (exists cs, Forall2 (fun x c => exists ds, c = Written [x_line x] (recorded_output (x_outcome x)) ds /\ draws (x_feeder x) ds (x_after x) /\ execute_command_with basic_bot (x_line x) (FQueue ds) = (x_outcome x, FQueue [])) xs cs) as (cs & Hcs).
  { clear Hn. induction H as [|x xs Hx H (cs & IH)]; [exists []; constructor|]. destruct Hx as (_ & _ & _ & H4 & H5 & _). unfold execute_command, new_bcdice in H5. cbn [bd_bot bd_feeder] in H5. destruct (execute_command_with basic_bot (x_line x) (x_feeder x)) as [o f1] eqn:E. injection H5 as -> ->.
    destruct (replay_any _ _ _ _ H4 E) as (ds & Hd & Hr). eexists (_ :: cs). constructor; [exists ds; split; [reflexivity|split; assumption]|exact IH]. }
  exists cs. split; [clear - Hcs; induction Hcs as [|x c xs cs (ds & -> & Hd & _) H IH]; constructor; [auto|exact IH]|]. intros Hw g name n.
  assert (length cs = length xs) as Len by (clear - Hcs; induction Hcs; cbn; congruence).
  destruct (C58_file cs n g) as (l & P1 & P2 & P3).
  - intros ->. destruct xs; [congruence|discriminate Len].
  - clear - Hcs Hw H. induction Hcs as [|x c xs cs (ds & -> & Hd & _) Hcs IH]; constructor; inversion H; inversion Hw; subst; [apply recorded_well_formed; assumption|apply IH; assumption].
  - clear - Hcs H. induction Hcs as [|x c xs cs (ds & -> & Hd & Hr) Hcs IH]; constructor; inversion H; subst; [|apply IH; assumption]. intros g i. cbn [w_lines w_output w_dice]. apply C58_verdict. cbn [tc_input tc_output tc_dice]. exists (x_line x), []. split; [reflexivity|].
    match goal with T : took_place x |- _ => destruct T as (_ & _ & _ & _ & _ & Np) end. destruct (x_outcome x) as [r|e|p] eqn:Eo; [right|left|destruct (Np p eq_refl)]; cbn [recorded_output].
    + split; [apply answer_nonempty|]. exists r. split; [|reflexivity]. unfold execute_command, new_bcdice. cbn [bd_bot bd_feeder]. rewrite Hr. reflexivity.
    + split; [reflexivity|]. exists e. unfold execute_command, new_bcdice. cbn [bd_bot bd_feeder]. rewrite Hr. eexists. reflexivity.
  - assert (parse_files [(name, Ok (file_text cs n))] g = Ok (map (add_index 0) l)) as Hp. { unfold parse_files. cbn [parse_files_loop]. rewrite P1. reflexivity. }
    assert (map (add_index 0) l = l) as E0. { clear. induction l as [|c l IH]; [reflexivity|]. cbn [map]. rewrite IH. f_equal. destruct c. unfold add_index. cbn. rewrite Z.add_0_r. reflexivity. }
    rewrite E0 in Hp. destruct (proj2 (C86_green g [(name, Ok (file_text cs n))]) (ex_intro _ l (conj Hp P3))) as (s & K1 & K2). exists s. split; [exact K1|]. split; [exact K2|].
    apply C86_report in K1 as (l' & Hp' & F). rewrite Hp in Hp'. injection Hp' as <-. rewrite <- Len, <- P2. clear - F. induction F; cbn; congruence.
Qed.
Print Assumptions C86_recorded.
(** A file with a case that passes, one whose output is wrong, one with dice left over and one that expects an error *)
Definition mixed_file : list (string * outcome string) := [("a.txt", Ok (file_text [
  Written ["2D6"] "DiceBot : (2D6) ＞ 7[3,4] ＞ 7" [Die 3 6; Die 4 6];
  Written ["S1D6"] "DiceBot : (1D6) ＞ 7" [Die 3 6];
  Written ["C(1+2)"] "DiceBot : C(1+2) ＞ 計算結果 ＞ 3" [Die 5 10];
  Written ["hello"] "" [];
  Written ["2D6"] "" [Die 1 6; Die 1 6];
  Written ["2D6>="] "x" []] 1))]%string.
Definition mixed_report : list (string * list string) := Eval vm_compute in match run_tests "DiceBot" mixed_file with Ran l => l | _ => [] end.
Example C86_example : run_tests "DiceBot" mixed_file = Ran mixed_report /\ length mixed_report = 6%nat /\
  nth 0 mixed_report (""%string, []) = ("DiceBot-1:""2D6""[3/6,4/6]"%string, []) /\
  nth 1 mixed_report (""%string, []) = ("DiceBot-2:""S1D6""[3/6]"%string, ["got: ""DiceBot : (1D6) ＞ 3[3] ＞ 3###secret dice###"", want: ""DiceBot : (1D6) ＞ 7"""%string]) /\
  nth 2 mixed_report (""%string, []) = ("DiceBot-3:""C(1+2)""[5/10]"%string, ["ダイス残り: 5/10"%string]) /\
  nth 3 mixed_report (""%string, []) = ("DiceBot-4:""hello""[]"%string, []) /\
  nth 4 mixed_report (""%string, []) = ("DiceBot-5:""2D6""[1/6,1/6]"%string, ["エラーが発生しませんでした"%string]).
Proof. vconj. Qed.
Example C86_unloaded_example : run_tests "DiceBot" [("a.txt"%string, Err "open a.txt: no such file or directory"%string)] = Unloaded "テストデータファイルの読み込み失敗: a.txt: open a.txt: no such file or directory" /\
  readable [("a.txt"%string, @Err string "open a.txt: no such file or directory"%string)].
Proof. split; [vm_compute; reflexivity|]. intros name content p [K|[]]. injection K as _ <-. clear. discriminate. Qed.
Definition sample_execution : execution := Execution "S2D6+1" (FQueue [Die 3 6; Die 4 6; Die 1 6]) (fst (execute_command (new_bcdice (FQueue [Die 3 6; Die 4 6; Die 1 6])) "S2D6+1")) (FQueue [Die 1 6]).
Example C86_recorded_example : took_place sample_execution /\ recorded_output (x_outcome sample_execution) = "DiceBot : (2D6+1) ＞ 7[3,4]+1 ＞ 8###secret dice###"%string.
Proof.
  split; [|vm_compute; reflexivity]. unfold took_place. split; [discriminate|]. split; [discriminate|]. split; [intros K; vm_compute in K; intuition discriminate|]. split; [vm_compute; reflexivity|].
  split; [vm_compute; reflexivity|]. intros p K. vm_compute in K. discriminate K.
Qed.
