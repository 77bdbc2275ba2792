(** ExecuteCommand as one or two executions of one parsed command; locality on a queue. *)
From Verif Require Import Grammar ProofBase SpecText SpecSyntax Dice SpecDice DiceProofs Comp CompProofs Command SpecCommand CommandProofs
  BCDice BCDiceProofs DecodeProofs ParseSound ParseFacts ParseText NumberText NotationProofs Prop_arith Prop_parse.
From Verif Require RegexUses.
Import RegexUses(is_re_space, hand_first_part, first_part_eq).
Open Scope list_scope.
Open Scope Z_scope.

(** ** Locality: a run that leaves [rest] in the queue did not look at it (unless it failed by exhausting the queue). *)
Lemma app_suffix_cases {A} (t rest ds q' : list A) : t ++ rest = ds ++ q' -> (length rest <= length q')%nat -> exists u, t = ds ++ u /\ q' = u ++ rest.
Proof.
  revert t. induction ds as [|d ds IH]; intros t H Hl; cbn [app] in H.
  - exists t. split; [reflexivity|symmetry; exact H].
  - destruct t as [|x t]; cbn [app] in H.
    + exfalso. subst rest. cbn [length] in Hl. rewrite app_length in Hl. lia.
    + injection H as -> H. destruct (IH _ H Hl) as (u & -> & ->). exists u. split; reflexivity.
Qed.
Lemma draws_queue_suffix f ds f' q' : draws f ds f' -> f' = FQueue q' -> exists q, f = FQueue q /\ q = ds ++ q'.
Proof.
  induction 1 as [f|f sides d f1 ds f2 H1 H2 IH]; intros E.
  - subst f. eauto.
  - destruct (IH E) as (q & -> & ->). unfold feeder_next in H1. destruct f as [[|x q]|intn k].
    + discriminate.
    + injection H1 as -> ->. eauto.
    + destruct (sides <=? 0); discriminate.
Qed.
Definition fails {A} (o : outcome A) : Prop := exists e, o = Err e.
Lemma roll_loop_suffix n : forall num sides acc q o f',
  roll_loop n num sides acc (FQueue q) = (o, f') -> exists ds q', f' = FQueue q' /\ q = ds ++ q'.
Proof.
  induction n as [|n IH]; intros num sides acc q o f' H; cbn [roll_loop] in H.
  - injection H as _ <-. exists [], q. split; reflexivity.
  - destruct q as [|d q]; cbn [feeder_next] in H.
    + injection H as _ <-. exists [], []. split; reflexivity.
    + destruct (die_sides d =? sides).
      * apply IH in H as (ds & q' & -> & ->). exists (d :: ds), q'. split; reflexivity.
      * injection H as _ <-. exists [d], q. split; reflexivity.
Qed.
Lemma roll_loop_local n : forall num sides acc t rest o,
  roll_loop n num sides acc (FQueue (t ++ rest)) = (o, FQueue rest) -> rest <> [] \/ ~ fails o ->
  forall rest', roll_loop n num sides acc (FQueue (t ++ rest')) = (o, FQueue rest').
Proof.
  induction n as [|n IH]; intros num sides acc t rest o H Hor rest'; cbn [roll_loop] in *.
  - injection H as <- H. assert (t = []) as ->; [|reflexivity]. rewrite <- (app_nil_l rest) in H at 2. apply app_inv_tail in H. exact H.
  - destruct t as [|d t]; cbn [app] in *.
    + destruct rest as [|d q]; cbn [feeder_next] in H.
      * injection H as <-. destruct Hor as [Hor|Hor]; [contradiction|]. exfalso. apply Hor. eexists. reflexivity.
      * exfalso. assert (exists ds, q = ds ++ d :: q) as (ds & E).
        { destruct (die_sides d =? sides).
          - destruct (roll_loop_suffix _ _ _ _ _ _ _ H) as (ds & q' & E1 & E2). injection E1 as <-. eauto.
          - exfalso. injection H as _ H. apply (f_equal (@length die)) in H. cbn in H. lia. }
        apply (f_equal (@length die)) in E. rewrite app_length in E. cbn in E. lia.
    + cbn [feeder_next] in *. destruct (die_sides d =? sides).
      * eapply IH; eassumption.
      * injection H as <- H. assert (t = []) as ->; [|reflexivity]. rewrite <- (app_nil_l rest) in H at 2. apply app_inv_tail in H. exact H.
Qed.
Lemma roll_dice_local num sides t rest o :
  roll_dice num sides (FQueue (t ++ rest)) = (o, FQueue rest) -> rest <> [] \/ ~ fails o ->
  forall rest', roll_dice num sides (FQueue (t ++ rest')) = (o, FQueue rest').
Proof.
  intros H Hor rest'. unfold roll_dice in *.
  assert (forall q, FQueue (t ++ rest) = FQueue q -> q = rest -> t = []) as Ht.
  { intros q E ->. injection E as E. rewrite <- (app_nil_l rest) in E at 2. apply app_inv_tail in E. exact E. }
  destruct (sides <? 1); [injection H as <- H; rewrite (Ht rest ltac:(f_equal; exact H) eq_refl); reflexivity|].
  destruct (num <? 1); [injection H as <- H; rewrite (Ht rest ltac:(f_equal; exact H) eq_refl); reflexivity|].
  destruct (max_alloc_16 <? num); [injection H as <- H; rewrite (Ht rest ltac:(f_equal; exact H) eq_refl); reflexivity|].
  eapply roll_loop_local; eassumption.
Qed.
Lemma run_local {A} (c : comp A) : forall t rest l o l',
  run c (EState (FQueue (t ++ rest)) l) = (o, EState (FQueue rest) l') -> rest <> [] \/ ~ fails o ->
  forall rest', run c (EState (FQueue (t ++ rest')) l) = (o, EState (FQueue rest') l').
Proof.
  assert (forall t rest : list die, t ++ rest = rest -> t = []) as Ht.
  { intros t rest H. rewrite <- (app_nil_l rest) in H at 2. apply app_inv_tail in H. exact H. }
  induction c as [a|e|p|num sides k IH|k IH]; intros t rest l o l' H Hor rest'; cbn [run es_feeder es_log] in *.
  1-3: injection H as <- H <-; rewrite (Ht _ _ H); reflexivity.
  - destruct (roll_dice num sides (FQueue (t ++ rest))) as [[ds|e|p] f1] eqn:E.
    + apply roll_dice_queue_iff in E as E'. destruct E' as (_ & _ & _ & _ & q1 & -> & Hq).
      destruct (run_draws _ _ _ _ H) as (d1 & d2 & _ & Hd). cbn [es_feeder] in Hd. apply draws_queue in Hd as (q2 & E2 & ->). injection E2 as <-.
      destruct (app_suffix_cases _ _ _ _ Hq) as (u & -> & Hu); [rewrite app_length; lia|]. rewrite Hu in *.
      rewrite <- app_assoc, (roll_dice_replay _ _ _ _ _ (u ++ rest') E). eapply IH; eassumption.
    + injection H as <- -> <-. rewrite (roll_dice_local _ _ _ _ _ E); [reflexivity|]. destruct Hor as [Hor|Hor]; [left; exact Hor|exfalso; apply Hor; eexists; reflexivity].
    + injection H as <- -> <-. rewrite (roll_dice_local _ _ _ _ _ E); [reflexivity|]. right. intros (e & He). discriminate.
  - eapply IH; eassumption.
Qed.
(** A run that takes no die and succeeds does not depend on the feeder. *)
Lemma run_no_die {A} (c : comp A) : forall f l a,
  run c (EState f l) = (Ok a, EState f l) -> forall g, run c (EState g l) = (Ok a, EState g l).
Proof.
  induction c as [a0|e|p|num sides k IH|k IH]; intros f l a H g; cbn [run es_feeder es_log] in *; try discriminate.
  - injection H as ->. reflexivity.
  - exfalso. destruct (roll_dice num sides f) as [[ds|e|p] f1] eqn:E; try discriminate.
    destruct (run_ok_draws _ _ _ _ H) as (d & Hd & _). cbn [es_log] in Hd. apply roll_dice_ok in E as (E1 & E2 & _).
    apply (f_equal (@length die)) in Hd. rewrite !app_length in Hd. lia.
  - eapply IH. exact H.
Qed.

(** [run_command] *)
Lemma run_command_queue_left gid n q o f' : run_command gid n (FQueue q) = (o, f') -> exists t q', f' = FQueue q' /\ q = t ++ q'.
Proof.
  intros H. apply run_command_draws in H as (ds & H). apply draws_queue in H as (q' & -> & ->). eauto.
Qed.
Lemma run_command_local gid n t rest o :
  run_command gid n (FQueue (t ++ rest)) = (o, FQueue rest) -> rest <> [] \/ ~ fails o ->
  forall rest', run_command gid n (FQueue (t ++ rest')) = (o, FQueue rest').
Proof.
  unfold run_command. destruct (run (execute default_max_rerolls gid n) (EState (FQueue (t ++ rest)) [])) as [o1 [f1 l1]] eqn:E.
  cbn [es_feeder]. intros H Hor rest'. injection H as -> ->. rewrite (run_local _ _ _ _ _ _ E Hor rest'). reflexivity.
Qed.
Lemma run_command_no_die gid n f r : run_command gid n f = (Ok r, f) -> (exists q, f = FQueue q) -> forall g, run_command gid n g = (Ok r, g).
Proof.
  intros H (q & ->) g. apply run_command_ok in H as (ds & H & Hd). apply draws_queue in Hd as (q' & Hq & E). injection Hq as <-.
  assert (ds = []) as ->. { rewrite <- (app_nil_l q) in E at 1. apply app_inv_tail in E. symmetry. exact E. }
  unfold run_command. rewrite (run_no_die _ _ _ _ H g). reflexivity.
Qed.

(** ** The shape of ExecuteCommand *)
Lemma encode_rune_length r : (String.length (encode_rune r) <= 4)%nat.
Proof. unfold encode_rune, bytes4, bytes3, bytes2. destruct (r <? 128), (r <? 2048), (r <? 65536); cbn [String.length]; lia. Qed.
Lemma encode_runes_length l : (String.length (encode_runes l) <= 4 * length l)%nat.
Proof. induction l as [|c l IH]; [cbn; lia|]. cbn [encode_runes length]. rewrite length_append. pose proof (encode_rune_length (gc_rune c)). lia. Qed.
Lemma first_char_shorter s c s' : first_char s = Some (c, s') -> (String.length s' < String.length s)%nat.
Proof. destruct s as [|a s]; [discriminate|]. cbn [first_char]. cbv zeta. split_chars; cbn [String.length] in *; intros [= <- <-]; cbn [String.length]; lia. Qed.
Lemma decode_length s : (length (decode s) <= String.length s)%nat.
Proof.
  induction s as [|s c s' E IH] using decode_ind; [cbn; lia|]. rewrite decode_first, E. cbn [length]. apply first_char_shorter in E. lia.
Qed.
Lemma check_secret_length s : (String.length (fst (check_secret s)) <= 4 * String.length s)%nat.
Proof.
  unfold check_secret. pose proof (decode_length s) as H. destruct (decode s) as [|c l]; [cbn; lia|]. destruct ((gc_rune c =? 83) || (gc_rune c =? 115)); cbn [fst].
  - pose proof (encode_runes_length l). cbn [length] in H. lia.
  - lia.
Qed.
Lemma first_part_split s : no_white s /\ first_part s = s \/ exists p a x, s = (p ++ String a x)%string /\ no_white p /\ white a /\ first_part s = p.
Proof.
  unfold no_white. induction s as [|a s IH]; [left; split; [constructor|reflexivity]|].
  assert (white a \/ ~ white a) as [Ha|Ha]. { unfold white. cbn. lia. }
  - right. exists EmptyString, a, s. repeat split; [constructor|exact Ha|]. exact (first_part_white "" a s ltac:(constructor) Ha).
  - assert (first_part (String a s) = String a (first_part s)) as E.
    { rewrite !first_part_eq. cbn [hand_first_part]. replace (is_re_space a) with false; [reflexivity|]. unfold white, is_re_space in *. cbn in Ha. lia. }
    destruct IH as [(H1 & H2)|(p & b & x & -> & H1 & H2 & H3)].
    + left. split; [cbn; constructor; assumption|]. rewrite E, H2. reflexivity.
    + right. exists (String a p), b, x. repeat split; [cbn; constructor; assumption|exact H2|]. rewrite E, H3. reflexivity.
Qed.

(** What ExecuteCommand makes of the outcome of the last execution *)
Definition outcome_secret (sec : bool) (x : outcome result * feeder) : outcome result * feeder :=
  match x with (Ok r, f) => (Ok (set_secret r sec), f) | other => other end.
Definition error_as (e : string) (x : outcome result * feeder) : outcome result * feeder :=
  match x with (Err _, f) => (Err e, f) | other => other end.
(** A command that is executed again if it fails *)
Definition run_retry (gid : string) (n : node) (f : feeder) : outcome result * feeder :=
  match run_command gid n f with (Err _, f1) => run_command gid n f1 | other => other end.

Inductive exec_shape (bot : dicebot) (input : string) : Prop :=
| shape_none e : (forall f, execute_command_with bot input f = (Err e, f)) -> exec_shape bot input
| shape_once n : (exists e, parse_command (fst (check_secret input)) = Err e) -> parse_command (first_part (fst (check_secret input))) = Ok n ->
    (forall f, execute_command_with bot input f = outcome_secret (snd (check_secret input)) (run_command (db_game_id bot) n f)) -> exec_shape bot input
| shape_once_err n e : parse_command (fst (check_secret input)) = Ok n ->
    (forall f, execute_command_with bot input f = error_as e (outcome_secret (snd (check_secret input)) (run_command (db_game_id bot) n f))) -> exec_shape bot input
| shape_retry n : parse_command (fst (check_secret input)) = Ok n ->
    (forall f, execute_command_with bot input f = outcome_secret (snd (check_secret input)) (run_retry (db_game_id bot) n f)) -> exec_shape bot input.

Lemma exec_has_shape bot input : Z.of_nat (String.length input) < 2 ^ 61 -> exec_shape bot input.
Proof.
  intros Hl. assert (Hlc : Z.of_nat (String.length (first_part (fst (check_secret input)))) < two63).
  { pose proof (check_secret_length input) as H1.
    assert (String.length (first_part (fst (check_secret input))) <= String.length (fst (check_secret input)))%nat as H2.
    { destruct (first_part_split (fst (check_secret input))) as [(_ & ->)|(p & a & x & E & _ & _ & ->)]; [lia|]. rewrite E, length_append. lia. }
    change (2 ^ 61) with 2305843009213693952 in Hl. unfold two63. lia. }
  pose proof (execute_command_with_eq bot input) as E. destruct (check_secret input) as [c sec] eqn:Ec. cbn [fst snd] in *.
  assert (forall f, execute_basic_command bot c f = match parse_command c with Ok n => run_command (db_game_id bot) n f | Err _ => (Err (syntax_error "input" c), f) | Panic p => (Panic p, f) end) as X1 by (intros; rewrite execute_basic_eq; reflexivity).
  assert (forall f, execute_basic_command bot (first_part c) f = match parse_command (first_part c) with Ok n => run_command (db_game_id bot) n f | Err _ => (Err (syntax_error "input" (first_part c)), f) | Panic p => (Panic p, f) end) as X2 by (intros; rewrite execute_basic_eq; reflexivity).
  destruct (parse_command c) as [n1|e1|p1] eqn:E1; [| |exfalso; eapply parse_no_panic; exact E1];
  destruct (parse_command (first_part c)) as [n2|e2|p2] eqn:E2; try (exfalso; eapply parse_no_panic; exact E2).
  - assert (n1 = n2) as <-.
    { destruct (first_part_split c) as [(_ & H)|(p & a & x & Hs & Hp & Ha & Hf)]; [congruence|]. rewrite Hf in *. rewrite Hs in E1.
      eapply (comment_parse p a x n2 n1); assumption. }
    apply (shape_retry _ _ n1); rewrite Ec; cbn [fst snd]; [exact E1|]. intros f. rewrite E, X1. unfold run_retry.
    destruct (run_command (db_game_id bot) n1 f) as [[r|e|p] f1]; try reflexivity. rewrite X2.
    destruct (run_command (db_game_id bot) n1 f1) as [[r'|e'|p'] f2]; reflexivity.
  - apply (shape_once_err _ _ n1 (syntax_error "input" (first_part c))); rewrite Ec; cbn [fst snd]; [exact E1|]. intros f. rewrite E, X1.
    destruct (run_command (db_game_id bot) n1 f) as [[r|e|p] f1]; [reflexivity| |reflexivity]. rewrite X2. reflexivity.
  - apply (shape_once _ _ n2); rewrite Ec; cbn [fst snd]; [eauto|exact E2|]. intros f. rewrite E, X1, X2.
    destruct (run_command (db_game_id bot) n2 f) as [[r|e|p] f1]; reflexivity.
  - apply (shape_none _ _ (syntax_error "input" (first_part c))). intros f. rewrite E, X1, X2. reflexivity.
Qed.

(** ** Locality of ExecuteCommand *)
Lemma run_retry_queue_left gid n q o f' : run_retry gid n (FQueue q) = (o, f') -> exists t q', f' = FQueue q' /\ q = t ++ q'.
Proof.
  unfold run_retry. destruct (run_command gid n (FQueue q)) as [[r|e|p] f1] eqn:E1; intros H;
  destruct (run_command_queue_left _ _ _ _ _ E1) as (t1 & q1 & -> & ->); try (injection H as _ <-; eauto).
  destruct (run_command_queue_left _ _ _ _ _ H) as (t2 & q2 & -> & ->). exists (t1 ++ t2), q2. rewrite app_assoc. auto.
Qed.
Lemma run_retry_local gid n t rest o :
  run_retry gid n (FQueue (t ++ rest)) = (o, FQueue rest) -> rest <> [] \/ (exists r, o = Ok r) ->
  forall rest', run_retry gid n (FQueue (t ++ rest')) = (o, FQueue rest').
Proof.
  unfold run_retry. intros H Hor rest'. destruct (run_command gid n (FQueue (t ++ rest))) as [[r|e|p] f1] eqn:E1.
  - injection H as <- ->. rewrite (run_command_local _ _ _ _ _ E1); [reflexivity|]. right. intros (e & He). discriminate.
  - destruct (run_command_queue_left _ _ _ _ _ E1) as (t1 & q1 & -> & Hq). destruct (run_command_queue_left _ _ _ _ _ H) as (t2 & q2 & Hf & ->). injection Hf as <-.
    rewrite app_assoc in Hq. apply app_inv_tail in Hq. subst t. rewrite <- app_assoc in *.
    assert (t2 ++ rest <> [] \/ t2 ++ rest = []) as [Hne|He]. { destruct (t2 ++ rest); [right; reflexivity|left; discriminate]. }
    + rewrite (run_command_local _ _ _ _ _ E1 (or_introl Hne) (t2 ++ rest')).
      apply (run_command_local _ _ _ _ _ H). destruct Hor as [Hor|(r & ->)]; [left; exact Hor|right]. intros (x & Hx). discriminate.
    + exfalso. apply app_eq_nil in He as (-> & ->). destruct Hor as [Hor|(r & ->)]; [contradiction|]. cbn [app] in *.
      rewrite (run_command_no_die _ _ _ _ H (ex_intro _ _ eq_refl)) in E1. discriminate.
  - injection H as <- ->. rewrite (run_command_local _ _ _ _ _ E1); [reflexivity|]. right. intros (e & He). discriminate.
Qed.
Lemma execute_command_queue_left bot input q o f' :
  execute_command_with bot input (FQueue q) = (o, f') -> exists t q', f' = FQueue q' /\ q = t ++ q'.
Proof. intros H. apply execute_command_draws in H as (ds & H). apply draws_queue in H as (q' & -> & ->). eauto. Qed.
Lemma execute_command_local bot input t rest o : Z.of_nat (String.length input) < 2 ^ 61 ->
  execute_command_with bot input (FQueue (t ++ rest)) = (o, FQueue rest) -> rest <> [] \/ (exists r, o = Ok r) ->
  forall rest', execute_command_with bot input (FQueue (t ++ rest')) = (o, FQueue rest').
Proof.
  intros Hl H Hor rest'. destruct (exec_has_shape bot input Hl) as [e Hs|n Hw Hn Hs|n e Hn Hs|n Hn Hs]; rewrite Hs in *.
  - injection H as <- H. rewrite <- (app_nil_l rest) in H at 2. apply app_inv_tail in H. subst t. reflexivity.
  - destruct (run_command (db_game_id bot) n (FQueue (t ++ rest))) as [o1 f1] eqn:E1. assert (f1 = FQueue rest) as -> by (destruct o1; injection H as _ ->; reflexivity).
    rewrite (run_command_local _ _ _ _ _ E1); [destruct o1; injection H as <-; reflexivity|].
    destruct Hor as [Hor|(r & ->)]; [left; exact Hor|right]. intros (x & ->). discriminate.
  - destruct (run_command (db_game_id bot) n (FQueue (t ++ rest))) as [o1 f1] eqn:E1. assert (f1 = FQueue rest) as -> by (destruct o1; injection H as _ ->; reflexivity).
    rewrite (run_command_local _ _ _ _ _ E1); [destruct o1; injection H as <-; reflexivity|].
    destruct Hor as [Hor|(r & ->)]; [left; exact Hor|right]. intros (x & ->). discriminate.
  - destruct (run_retry (db_game_id bot) n (FQueue (t ++ rest))) as [o1 f1] eqn:E1. assert (f1 = FQueue rest) as -> by (destruct o1; injection H as _ ->; reflexivity).
    rewrite (run_retry_local _ _ _ _ _ E1); [destruct o1; injection H as <-; reflexivity|].
    destruct Hor as [Hor|(r & ->)]; [left; exact Hor|right]. destruct o1; try discriminate. eauto.
Qed.

(** ** What is reported *)
Lemma run_command_reported_parsed gid input n f r f' : parse_command input = Ok n -> run_command gid n f = (Ok r, f') ->
  exists ds, draws f ds f' /\ (r_dice r = ds \/ r_dice r = [] /\ hint_result r).
Proof.
  intros Hp H. destruct (run_command_reported _ _ _ _ _ H) as (ds & Hd & [Hr|(Hr & [(e & ->)|(_ & Hh)])]); [eauto| |eauto].
  apply parse_spelled in Hp as (c & Hc & Hok). destruct c; cbn [command_tree] in Hc; try discriminate Hc.
  destruct (run_calculation gid e0 f) as (s & _ & Hrun). cbn [command_tree] in Hrun. rewrite <- Hc in Hrun. rewrite Hrun in H.
  injection H as _ <-. exists []. split; [constructor|]. left. exact Hr.
Qed.
Lemma execute_command_reported' bot input f r f' :
  execute_command_with bot input f = (Ok r, f') ->
  exists lost mid ds, draws f lost mid /\ draws mid ds f' /\ (r_dice r = ds \/ r_dice r = [] /\ hint_result r) /\
    (lost = [] \/ exists n e, parse_command (fst (check_secret input)) = Ok n /\ run_command (db_game_id bot) n f = (Err e, mid)).
Proof.
  rewrite execute_command_with_eq. destruct (check_secret input) as [c s]. cbn [fst]. rewrite (execute_basic_eq bot c).
  assert (forall r0 s0, hint_result r0 -> hint_result (set_secret r0 s0)) as Hset by (intros r0 s0 H; exact H).
  destruct (parse_command c) as [n1|e1|p1] eqn:E1; [| |discriminate].
  - rewrite with_fresh_env_run_command. destruct (run_command (db_game_id bot) n1 f) as [[r1|e|p] f1] eqn:R1; [| |discriminate].
    + intros [= <- <-]. destruct (run_command_reported_parsed _ _ _ _ _ _ E1 R1) as (ds & Hd & Hr). exists [], f, ds. repeat split; [constructor|exact Hd| |left; reflexivity].
      destruct Hr as [Hr|(Hr & Hh)]; [left; exact Hr|right; split; [exact Hr|exact Hh]].
    + rewrite execute_basic_eq. destruct (parse_command (first_part c)) as [n2|e2|p2] eqn:E2; try discriminate. rewrite with_fresh_env_run_command.
      destruct (run_command (db_game_id bot) n2 f1) as [[r2|e'|p] f2] eqn:R2; try discriminate. intros [= <- <-].
      destruct (run_command_reported_parsed _ _ _ _ _ _ E2 R2) as (ds & Hd & Hr). destruct (run_command_draws _ _ _ _ _ R1) as (lost & Hlost).
      exists lost, f1, ds. repeat split; [exact Hlost|exact Hd|exact Hr|]. right. exists n1, e. split; [reflexivity|exact R1].
  - rewrite execute_basic_eq. destruct (parse_command (first_part c)) as [n2|e2|p2] eqn:E2; try discriminate. rewrite with_fresh_env_run_command.
    destruct (run_command (db_game_id bot) n2 f) as [[r2|e'|p] f2] eqn:R2; try discriminate. intros [= <- <-].
    destruct (run_command_reported_parsed _ _ _ _ _ _ E2 R2) as (ds & Hd & Hr). exists [], f, ds. repeat split; [constructor|exact Hd|exact Hr|left; reflexivity].
Qed.

(** ** Random feeders: whatever the outcome, the dice taken replay it. *)
Lemma roll_loop_random n : forall num sides intn k acc o f', 0 < sides -> roll_loop n num sides acc (FRandom intn k) = (o, f') ->
  exists ds, o = Ok (acc ++ ds) /\ f' = FRandom intn (k + n) /\ Forall (fun d => die_sides d = sides) ds /\ length ds = n.
Proof.
  induction n as [|n IH]; intros num sides intn k acc o f' Hs H; cbn [roll_loop] in H.
  - injection H as <- <-. exists []. rewrite app_nil_r, Nat.add_0_r. repeat split. constructor.
  - cbn [feeder_next] in H. destruct (sides <=? 0) eqn:E; [lia|]. cbn [die_sides] in H. rewrite Z.eqb_refl in H.
    apply IH in H as (ds & -> & -> & H1 & H2); [|exact Hs]. eexists (_ :: ds). rewrite <- app_assoc. cbn [app length]. rewrite <- Nat.add_succ_comm. repeat split; [|lia].
    constructor; [reflexivity|exact H1].
Qed.
Definition random_feeder (f : feeder) : Prop := exists intn k, f = FRandom intn k.
Lemma run_random_replay {A} (c : comp A) : forall f l o s', random_feeder f -> run c (EState f l) = (o, s') ->
  random_feeder (es_feeder s') /\
  exists ds, draws f ds (es_feeder s') /\ forall rest, run c (EState (FQueue (ds ++ rest)) l) = (o, EState (FQueue rest) (es_log s')).
Proof.
  induction c as [a|e|p|num sides k IH|k IH]; intros f l o s' Hf H; cbn [run es_feeder es_log] in *.
  1-3: injection H as <- <-; split; [exact Hf|]; exists []; split; [constructor|intros rest; reflexivity].
  - destruct (roll_dice num sides f) as [[ds|e|p] f1] eqn:E.
    + assert (random_feeder f1) as Hf1.
      { destruct Hf as (intn & kk & ->). unfold roll_dice in E. destruct (sides <? 1) eqn:E1; [discriminate|]. destruct (num <? 1); [discriminate|]. destruct (max_alloc_16 <? num); [discriminate|].
        apply roll_loop_random in E as (d & _ & -> & _); [|lia]. eexists. eexists. reflexivity. }
      destruct (IH ds f1 _ _ _ Hf1 H) as (H1 & ds2 & H2 & H3). split; [exact H1|]. exists (ds ++ ds2). split.
      * apply roll_dice_ok in E as (_ & _ & _ & _ & E). apply supplies_draws in E. eapply draws_app; eassumption.
      * intros rest. rewrite <- app_assoc, (roll_dice_replay _ _ _ _ _ (ds2 ++ rest) E). apply H3.
    + assert (f1 = f /\ forall g, roll_dice num sides g = (Err e, g)) as (-> & Hg).
      { destruct Hf as (intn & kk & ->). unfold roll_dice in *. destruct (sides <? 1) eqn:E1; [injection E as <- <-; split; reflexivity|]. destruct (num <? 1); [injection E as <- <-; split; reflexivity|]. destruct (max_alloc_16 <? num); [discriminate|].
        apply roll_loop_random in E as (d & K & _); [discriminate|lia]. }
      injection H as <- <-. cbn [es_feeder es_log]. split; [exact Hf|]. exists []. split; [constructor|]. intros rest. rewrite Hg. reflexivity.
    + assert (f1 = f /\ forall g, roll_dice num sides g = (Panic p, g)) as (-> & Hg).
      { destruct Hf as (intn & kk & ->). unfold roll_dice in *. destruct (sides <? 1) eqn:E1; [discriminate|]. destruct (num <? 1); [discriminate|]. destruct (max_alloc_16 <? num); [injection E as <- <-; split; reflexivity|].
        apply roll_loop_random in E as (d & K & _); [discriminate|lia]. }
      injection H as <- <-. cbn [es_feeder es_log]. split; [exact Hf|]. exists []. split; [constructor|]. intros rest. rewrite Hg. reflexivity.
  - eapply IH; eassumption.
Qed.
Lemma run_command_random_replay gid n f o f' : random_feeder f -> run_command gid n f = (o, f') ->
  random_feeder f' /\ exists ds, draws f ds f' /\ forall rest, run_command gid n (FQueue (ds ++ rest)) = (o, FQueue rest).
Proof.
  unfold run_command. intros Hf H. destruct (run (execute default_max_rerolls gid n) (EState f [])) as [o1 s1] eqn:E. injection H as <- <-.
  destruct (run_random_replay _ _ _ _ _ Hf E) as (H1 & ds & H2 & H3). split; [exact H1|]. exists ds. split; [exact H2|]. intros rest. rewrite H3. reflexivity.
Qed.
Lemma execute_basic_random_replay bot c f o f' : random_feeder f -> execute_basic_command bot c f = (o, f') ->
  random_feeder f' /\ exists ds, draws f ds f' /\ forall rest, execute_basic_command bot c (FQueue (ds ++ rest)) = (o, FQueue rest).
Proof.
  rewrite execute_basic_eq. intros Hf H. assert (forall g, execute_basic_command bot c g = match parse_command c with Ok n => with_fresh_env (execute default_max_rerolls (db_game_id bot) n) g | Err _ => (Err (syntax_error "input" c), g) | Panic p => (Panic p, g) end) as X by (intros; apply execute_basic_eq). destruct (parse_command c) as [n|e|p].
  - rewrite with_fresh_env_run_command in H. destruct (run_command_random_replay _ _ _ _ _ Hf H) as (H1 & ds & H2 & H3). split; [exact H1|]. exists ds. split; [exact H2|].
    intros rest. rewrite X, with_fresh_env_run_command. apply H3.
  - injection H as <- <-. split; [exact Hf|]. exists []. split; [constructor|intros; apply X].
  - injection H as <- <-. split; [exact Hf|]. exists []. split; [constructor|intros; apply X].
Qed.
Lemma execute_command_random_replay bot input f o f' : random_feeder f -> execute_command_with bot input f = (o, f') ->
  exists ds, draws f ds f' /\ forall rest, execute_command_with bot input (FQueue (ds ++ rest)) = (o, FQueue rest).
Proof.
  intros Hf H. rewrite execute_command_with_eq in H. setoid_rewrite execute_command_with_eq. destruct (check_secret input) as [c s].
  destruct (execute_basic_command bot c f) as [o1 f1] eqn:E1. destruct (execute_basic_random_replay _ _ _ _ _ Hf E1) as (Hf1 & d1 & H1 & R1). destruct o1 as [r|e|p].
  - injection H as <- <-. exists d1. split; [exact H1|]. intros rest. rewrite R1. reflexivity.
  - destruct (execute_basic_command bot (first_part c) f1) as [o2 f2] eqn:E2. destruct (execute_basic_random_replay _ _ _ _ _ Hf1 E2) as (Hf2 & d2 & H2 & R2).
    exists (d1 ++ d2). split; [|intros rest; rewrite <- app_assoc, R1, R2; destruct o2; injection H as <- <-; reflexivity].
    eapply draws_app; [exact H1|]. destruct o2; injection H as _ <-; exact H2.
  - injection H as <- <-. exists d1. split; [exact H1|]. intros rest. rewrite R1. reflexivity.
Qed.
Lemma execute_command_replay bot input f r f' : Z.of_nat (String.length input) < 2 ^ 61 -> execute_command_with bot input f = (Ok r, f') ->
  exists ds, draws f ds f' /\ forall rest, execute_command_with bot input (FQueue (ds ++ rest)) = (Ok r, FQueue rest).
Proof.
  intros Hl H. destruct f as [q|intn k].
  - destruct (execute_command_queue_left _ _ _ _ _ H) as (t & q' & -> & ->). exists t. split; [apply draws_queue; eauto|].
    apply (execute_command_local _ _ _ _ _ Hl H). right. eauto.
  - apply (execute_command_random_replay _ _ _ _ _ ltac:(eexists; eexists; reflexivity) H).
Qed.
