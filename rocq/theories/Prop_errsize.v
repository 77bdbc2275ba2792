(** Property C90, continued: how long an error can be. *)
From Coq Require Import Permutation.
From Verif Require Import Grammar GoBase ProofBase Utf8 Quote SpecText Dice SpecDice DiceProofs Comp CompProofs Ast Eval Command BCDice BCDiceProofs NumberText
  SpecSyntax SpecArith ArithProofs SpecRoll SpecLists SpecCounts SpecReasons SpecErrors SpecGrammar TextFacts ParseSound ParseFacts DecodeProofs ParseText PegText DRollProofs ExecProofs EchoProofs ErrTop
  Prop_parse Prop_exec Prop_typed Prop_complete Prop_reasons Prop_errors Prop_size.
Open Scope list_scope.
Open Scope nat_scope.

(** ** Syntax errors *)
Lemma or_length l : len (or_list l) <= total (fun s => len s + 4) l.
Proof.
  induction l as [|a l IH]; [cbn; lia|]. destruct l as [|b l]; [cbn [or_list total]; lia|]. destruct l as [|c l].
  - cbn [or_list total]. rewrite !length_append. change (len " or ") with 4. lia.
  - change (or_list (a :: b :: c :: l)) with (a ++ ", " ++ or_list (b :: c :: l))%string. rewrite !length_append. change (len ", ") with 2. cbn [total] in *. lia.
Qed.
Lemma total_remove {A} (f : A -> nat) (dec : forall x y : A, {x = y} + {x <> y}) x l : In x l -> f x + total f (remove dec x l) <= total f l.
Proof.
  induction l as [|y l IH]; intros H; [destruct H|]. cbn [remove total]. destruct (dec x y) as [->|N].
  - clear. assert (total f (remove dec y l) <= total f l); [|lia]. induction l as [|z l IH]; [cbn; lia|]. cbn [remove total]. destruct (dec y z); cbn [total]; lia.
  - destruct H as [->|H]; [congruence|]. specialize (IH H). cbn [total]. lia.
Qed.
Lemma total_incl {A} (f : A -> nat) (dec : forall x y : A, {x = y} + {x <> y}) l : forall v, NoDup l -> incl l v -> total f l <= total f v.
Proof.
  induction l as [|x l IH]; intros v Hn Hi; [cbn; lia|]. inversion Hn; subst. cbn [total]. pose proof (total_remove f dec x v (Hi x (or_introl eq_refl))). specialize (IH (remove dec x v) ltac:(assumption)).
  assert (incl l (remove dec x v)). { intros y Hy. apply in_in_remove; [congruence|]. apply Hi. right; exact Hy. } specialize (IH ltac:(assumption)). lia.
Qed.
Lemma items_length items : in_order items -> Forall (fun i => In i vocabulary) items -> len (or_list items) <= 300.
Proof.
  intros (l & _ & Hn & He & Hi) Hv. etransitivity; [apply or_length|]. etransitivity; [apply (total_incl _ string_dec items vocabulary)|].
  - destruct Hi as [-> | ->]; [exact Hn|]. apply (Permutation_NoDup (Permutation_cons_append l "EOF"%string)). constructor; assumption.
  - intros x Hx. rewrite Forall_forall in Hv. apply Hv, Hx.
  - vm_compute. lia.
Qed.

Lemma raw_firstn s k : len (raw_text (firstn k (decode s))) <= len s.
Proof.
  assert (forall a b, len (raw_text a) <= len (raw_text (a ++ b))) as K. { intros a b. induction a as [|c l IH]; [cbn; lia|]. cbn [app raw_text]. rewrite !length_append. lia. }
  specialize (K (firstn k (decode s)) (skipn k (decode s))). rewrite firstn_skipn, raw_decode in K. exact K.
Qed.
Lemma filter_length_le' {A} (f : A -> bool) l : length (filter f l) <= length l.
Proof. induction l as [|x l IH]; [cbn; lia|]. cbn [filter]. destruct (f x); cbn [length]; lia. Qed.
Lemma line_tail_length t : length (line_tail t) <= length t.
Proof. induction t as [|c t IH]; [cbn; lia|]. cbn [line_tail]. destruct (newline c); cbn [length]; lia. Qed.
Lemma place_length s k : moderate s -> len (place_text (place (decode s) k)) <= 64.
Proof.
  intros H. assert (forall v, (0 <= v <= Z.of_nat (len s) + 2)%Z -> len (itoa v) <= 20) as N.
  { intros v Hv. apply itoa_20. unfold moderate in H. unfold in_int64, min_int, max_int, two63. change (2 ^ 61)%Z with 2305843009213693952%Z in H. lia. }
  assert (forall l c o, (0 <= l <= Z.of_nat (len s) + 2)%Z -> (0 <= c <= Z.of_nat (len s) + 2)%Z -> (0 <= o <= Z.of_nat (len s) + 2)%Z -> len (place_text (l, c, o)) <= 64) as K.
  { intros l c o H1 H2 H3. unfold place_text. rewrite !length_append. apply N in H1, H2, H3. change (len ":") with 1. change (len " (") with 2. change (len ")") with 1. lia. }
  pose proof (decode_length s) as L. pose proof (firstn_le_length k (decode s)) as F. pose proof (raw_firstn s k) as R.
  pose proof (filter_length_le' newline (firstn k (decode s))) as F1. pose proof (line_tail_length (rev (firstn k (decode s)))) as F2. rewrite rev_length in F2. pose proof (firstn_length k (decode s)) as F3. 
  unfold place. destruct k as [|k]; [apply K; lia|]. destruct (skipn (S k) (decode s)) as [|c l]; [apply K; lia|]. destruct (newline c); apply K; lia.
Qed.
Lemma syntax_length F s m : moderate s -> valid_utf8 s -> parse_text F s = Err m -> len m <= len F + 400.
Proof.
  intros Hs Hv H. pose proof (C68_error_text F s Hv) as K. rewrite H in K. destruct K as (_ & K). assert (len (file_prefix F) <= len F + 1) as P. { destruct F; cbn [file_prefix]; [cbn; lia|]. rewrite length_append. cbn [String.length]. lia. }
  destruct K as [(c & ->)|(k & items & -> & _ & _ & Ho & Hi & _)].
  - unfold no_dice_error. rewrite !length_append. assert (len (if c then "DRollCompCommand" else "DRollExprCommand") <= 20) by (destruct c; vm_compute; lia). cbn [String.length]. lia.
  - unfold no_match_error. rewrite !length_append. pose proof (place_length s k Hs). pose proof (items_length _ Ho Hi). change (len ": no match found, expected: ") with 28. lia.
Qed.

(** ** Errors of execution *)
Lemma part_ok {L} (P : L -> Prop) p e : part p e -> all_leaves P e -> all_leaves P p.
Proof. induction 1; cbn [all_leaves]; tauto. Qed.
Lemma zero_length {L} (value : ae L -> Z -> Prop) (P : L -> Prop) e msg : (forall a x, all_leaves P a -> value a x -> in_int64 x) -> all_leaves P e -> by_zero value e msg -> len msg <= 400.
Proof.
  intros Hv He. destruct 1 as [m a b x Hp Ha _]. apply (part_ok P _ _ Hp) in He. cbn [all_leaves] in He. pose proof (itoa_20 _ (Hv _ _ (proj1 He) Ha)). unfold zero_text. rewrite length_append. change (len " divided by zero") with 16. lia.
Qed.
Lemma int_zero e msg : iok e -> by_zero has_value e msg -> len msg <= 400.
Proof. intros H. apply (zero_length has_value in_int64); [|exact H]. intros a x. apply has_value_range. Qed.
Lemma random_length lo hi msg : iok lo -> iok hi -> random_reason lo hi msg -> len msg <= 400.
Proof.
  intros Hl Hh. destruct 1 as [msg H|msg H|a b Ha Hb _|a b Ha Hb Hw].
  - exact (int_zero _ _ Hl H).
  - exact (int_zero _ _ Hh H).
  - apply has_value_range, itoa_20 in Ha, Hb; try assumption. rewrite !length_append. cbn [String.length]. lia.
  - apply has_value_range in Ha, Hb; try assumption. unfold roll_call. rewrite !length_append. assert (len (itoa (b - a + 1 - 2 ^ 64)) <= 20).
    { apply itoa_20. unfold in_int64, min_int, max_int, two63 in *. change (2 ^ 64)%Z with 18446744073709551616%Z. lia. }
    change (len (itoa 1)) with 1. cbn [String.length]. lia.
Qed.
Lemma operand_length D e msg : rok e -> operand_reason D e msg -> len msg <= 400.
Proof.
  intros Hok. destruct 1 as [msg H|lo hi msg Hp H].
  - apply (zero_length (comes_out D) rleaf_ok) in H; [exact H| |exact Hok]. intros a x Ha (ds & _ & K). exact (operand_range _ _ _ Ha K).
  - pose proof (part_ok rleaf_ok _ _ Hp Hok) as (Hl & Hh). exact (random_length _ _ _ Hl Hh H).
Qed.
Lemma roll_length D name r msg : len name <= 20 -> roll_ok r -> roll_reason D name r msg -> len msg <= 400.
Proof.
  intros Hn (H1 & H2). destruct 1 as [msg H|msg H|x y (d1 & _ & Hx) (d2 & _ & Hy) _|x y (d1 & _ & Hx) (d2 & _ & Hy) _ _].
  - exact (operand_length _ _ _ H1 H).
  - exact (operand_length _ _ _ H2 H).
  - apply operand_range, itoa_20 in Hx, Hy; try assumption. unfold complaint. rewrite !length_append. cbn [String.length]. lia.
  - apply operand_range, itoa_20 in Hx, Hy; try assumption. unfold complaint. rewrite !length_append. cbn [String.length]. lia.
Qed.

Lemma rolls_ok c r : command_ok c -> In r (rolls_of c) -> roll_ok r.
Proof.
  assert (forall e, dok e -> In r (d_rolls e) -> roll_ok r) as Hd.
  { intros e. unfold dok. induction e as [[v|lo hi|n s]|e IH|op a IHa b IHb]; cbn [all_leaves d_rolls dleaf_ok]; intros H K; try (destruct K; fail); auto.
    - destruct K as [<-|[]]. exact H.
    - apply in_app_or in K. destruct H. destruct K; auto. }
  destruct c; cbn [command_ok rolls_of]; intros H K; try (destruct K; fail); try (match type of K with In r (d_rolls ?e) => apply (Hd e); [tauto|exact K] end); repeat match goal with H : _ /\ _ |- _ => destruct H end;
    match goal with H : Forall roll_ok _ |- _ => rewrite Forall_forall in H; exact (H _ K) end.
Qed.
Lemma numbers_ok c e : command_ok c -> In e (numbers_of c) -> iok e.
Proof.
  destruct c as [e0|e0|e0 op t|r rs|r rs op t|r rs [th|]|r rs [th|] op t|r rs [th|] [(s, b)|]|r rs [th|] [(s, b)|] op t|items]; cbn [command_ok numbers_of opt_list map snd app In th_ok bonus_ok]; intros H K; intuition (subst; assumption).
Qed.
Lemma d_range D a x : dok a -> d_comes_out D a x -> in_int64 x.
Proof.
  intros Hok (ops & rolls & mid & fin & _ & _ & H1 & H2 & H3). destruct (mid_leaves _ _ _ Hok H1) as (Hl & _). eapply has_value_range; [|exact H3]. clear - H2 Hl. unfold iok.
  induction H2 as [[u|x y] ds [w|rs] H|e ds e' H IH|op a b d1 d2 a' b' H1 IH1 H2 IH2]; cbn [ae_map all_leaves] in *; cbn [roll_leaf] in *; try contradiction; auto.
  - destruct H as (_ & ->). exact Hl.
  - apply wrap64_range.
  - destruct Hl. split; auto.
Qed.
Lemma reason_length D c msg : command_ok c -> reason D c msg -> len msg <= 400.
Proof.
  intros Hok. destruct 1 as [e msg He H|r msg Hr H|e msg He H|msg H].
  - exact (int_zero _ _ (numbers_ok _ _ Hok He) H).
  - apply (roll_length D (roller c) r); [destruct c; vm_compute; lia|exact (rolls_ok _ _ Hok Hr)|exact H].
  - apply (zero_length (d_comes_out D) dleaf_ok) in H; [exact H|intros a x; apply d_range|]. destruct c; cbn [d_part] in He; try discriminate He; injection He as <-; cbn [command_ok] in Hok; unfold dok in Hok; tauto.
  - destruct H as [? ? ? ? _ _| | |? ? a b _|? ? a b _ _|]; try (vm_compute; lia); rewrite length_append.
    + destruct a as [[]| |[| | |[]]]; vm_compute; lia.
    + destruct b as [[]| |[| | |[]]]; vm_compute; lia.
Qed.

(** * C90, errors *)
(** With dice from a random source, what is said about a command (a valid text) that fails is at most 405 bytes long, however long the command. *)
Theorem C90_errors bot input intn k e f' : moderate input -> valid_utf8 input -> execute_command_with bot input (FRandom intn k) = (Err e, f') -> len e <= 405.
Proof.
  intros Hm Hv H. destruct (check_secret_cases input Hv) as (m & t & secret & Ei & _ & Ht & Hc). rewrite execute_command_with_eq, Hc in H.
  assert (forall cmd j e1 f1, moderate cmd -> valid_utf8 cmd -> execute_basic_command bot cmd (FRandom intn j) = (Err e1, f1) -> len e1 <= 405) as K.
  { intros cmd j e1 f1 Hm1 Hv1 E. pose proof E as E'. unfold execute_basic_command in E. destruct (parse_text "input" cmd) as [n|e2|p] eqn:P; try discriminate E.
    - rewrite execute_basic_eq in E'. pose proof (C68_error_text "input" cmd Hv1) as K. rewrite P in K. rewrite K in E'. rewrite with_fresh_env_run_command in E'. apply parse_spelled in K as (c & -> & Hok).
      assert (dice_in (fun _ => True) (FRandom intn j)) as Hdi by (cbn; intros; exact I). destruct (C80_reasons (fun _ => True) _ c _ _ _ Hok Hdi E') as [R|(q & R & _)]; [|discriminate R]. apply (reason_length _ _ _ Hok) in R. lia.
    - injection E as <- _. exact (syntax_length "input" _ _ Hm1 Hv1 P). }
  assert (moderate t) as Hmt. { unfold moderate in *. rewrite Ei, length_append in Hm. lia. }
  destruct (execute_basic_command bot t (FRandom intn k)) as [[r1|e1|p1] f1] eqn:E1; try discriminate H.
  destruct (execute_basic_draws _ _ _ _ _ E1) as (ds & Hd). destruct (draws_asked _ _ _ Hd intn k eq_refl) as (-> & _).
  destruct (execute_basic_command bot (first_part t) (FRandom intn (k + length ds))) as [[r2|e2|p2] f2] eqn:E2; try discriminate H. injection H as <- _. apply K in E2; [exact E2| |].
  - destruct (first_part_split t) as [(_ & F)|(p & a & x & S & _ & _ & F)]; rewrite F; [exact Hmt|]. unfold moderate in *. rewrite S, length_append in Hmt. lia.
  - destruct (first_part_split t) as [(_ & F)|(p & a & x & S & _ & Wa & F)]; rewrite F; [exact Ht|]. rewrite S in Ht. apply valid_split in Ht; [tauto|]. unfold white in Wa. cbn in Wa. lia.
Qed.
Print Assumptions C90_errors.
Example C90_errors_example : fst (execute_command_with basic_bot "2D6x" (FRandom (fun _ _ => 0%Z) 0)) = Err "input:1:4 (3): no match found, expected: ""*"", ""+"", ""-"", ""/"", ""<"", ""<="", ""<>"", ""="", "">"", "">="", [0-9] or EOF" /\
  fst (execute_command_with basic_bot "[5...2]D6" (FRandom (fun _ _ => 0%Z) 0)) = Err "evalRandomNumber: min (5) must be less than max (2)" /\ moderate "2D6x" /\ valid_utf8 "2D6x".
Proof. split; [vmc|]. split; [vmc|]. split; [vmc|]. unfold valid_utf8. vm_compute. repeat apply Forall_cons; try apply Forall_nil; reflexivity. Qed.
