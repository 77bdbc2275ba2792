(** Consequences of the grammar: well-formedness, characters, random elements. *)
From Verif Require Import Grammar ProofBase SpecSyntax SpecGrammar TextFacts PegProofs GrammarSound PegTotal PegForward ParseSound ParseComplete ParseLang ParseCmd ParseTop DecodeProofs.
Open Scope list_scope.
Open Scope Z_scope.

(** ** Literals of spelled commands are Go integers *)
Lemma decimal_nonneg t : Forall is_digit t -> 0 <= decimal t.
Proof.
  unfold decimal. assert (forall t a, Forall is_digit t -> 0 <= a -> 0 <= fold_left (fun n c => 10 * n + (gc_rune c - 48)) t a) as H.
  { intros u. induction u as [|c u IH]; intros a Hu Ha; cbn [fold_left]; [exact Ha|]. inversion Hu as [|? ? H1 H2]. subst. apply IH; [exact H2|]. unfold is_digit in H1. lia. }
  intros Ht. apply H; [exact Ht|lia].
Qed.
Lemma number_ok v t : sp_number v t -> 0 <= v <= max_int.
Proof. intros (_ & Hd & ->). pose proof (decimal_nonneg _ Hd). unfold max_int, two63. lia. Qed.
Lemma number_int64 v t : sp_number v t -> in_int64 v.
Proof. intros H. apply number_ok in H. unfold in_int64, min_int, max_int, two63 in *. lia. Qed.
Lemma leaves_ok {L} (leaf : L -> text -> Prop) (P : L -> Prop) : (forall x t, leaf x t -> P x) ->
  (forall e t, sp_prim leaf e t -> all_leaves P e) /\ (forall e t, sp_mul leaf e t -> all_leaves P e) /\ (forall e t, sp_add leaf e t -> all_leaves P e).
Proof. intros H. apply (sp_arith_mut L leaf); cbn [all_leaves]; eauto. Qed.
Lemma int_ok_leaves e t : sp_int e t -> iok e.
Proof. apply (leaves_ok sp_number in_int64 number_int64). Qed.
Lemma bound_leaves e t : sp_bound e t -> iok e.
Proof. intros H. destruct H as [v t H|e o t c _ H _]; [exact (number_int64 _ _ H)|exact (int_ok_leaves _ _ H)]. Qed.
Lemma random_leaves lo hi t : sp_random lo hi t -> iok lo /\ iok hi.
Proof. intros H. destruct H as [lo hi o s d t c _ H1 _ H2 _]. split; eapply bound_leaves; eassumption. Qed.
Lemma rleaf_leaves x t : sp_rleaf x t -> rleaf_ok x.
Proof. destruct x; cbn; [apply number_int64|apply random_leaves]. Qed.
Lemma operand_leaves e t : sp_operand e t -> rok e.
Proof. intros H. destruct H as [v t H|e o t c _ H _]; [exact (rleaf_leaves _ _ H)|]. eapply (leaves_ok sp_rleaf rleaf_ok rleaf_leaves). exact H. Qed.
Lemma roll_leaves w r t : sp_roll w r t -> roll_ok r.
Proof. intros H. destruct H as [n s t u v H1 _ H2]. split; eapply operand_leaves; eassumption. Qed.
Lemma rolls_leaves w rs t : sp_rolls w rs t -> Forall roll_ok rs.
Proof. induction 1 as [|r rs o t u _ H _ IH]; constructor; [eapply roll_leaves; exact H|exact IH]. Qed.
Lemma dexpr_leaves e t : sp_dexpr e t -> dok e.
Proof.
  apply (leaves_ok sp_dleaf dleaf_ok). intros x u. destruct x; cbn; [apply number_int64|apply random_leaves|]. intros H. apply roll_leaves in H. exact H.
Qed.
Lemma threshold_leaves th t : sp_threshold th t -> th_ok th.
Proof. intros H. destruct H as [|e o t c _ H _]; [exact I|]. exact (int_ok_leaves _ _ H). Qed.
Lemma bonus_leaves b t : sp_bonus b t -> bonus_ok b.
Proof. intros H. destruct H as [|e o t _ H|e o t _ H]; [exact I|exact (int_ok_leaves _ _ H)..]. Qed.
Lemma target_leaves op e t : sp_target op e t -> is_compare_op op /\ iok e.
Proof. intros H. destruct H as [op e o t H1 _ H2]. split; [exact H1|exact (int_ok_leaves _ _ H2)]. Qed.
Lemma spells_ok c t : spells c t -> command_ok c.
Proof.
  intros H. destruct H; cbn [command_ok]; repeat split;
  repeat match goal with
  | H : sp_target _ _ _ |- _ => apply target_leaves in H as (? & ?)
  | H : sp_int _ _ |- _ => apply int_ok_leaves in H
  | H : sp_dexpr _ _ |- _ => apply dexpr_leaves in H
  | H : sp_roll _ _ _ |- _ => apply roll_leaves in H
  | H : sp_rolls _ _ _ |- _ => apply rolls_leaves in H
  | H : sp_threshold _ _ |- _ => apply threshold_leaves in H
  | H : sp_bonus _ _ |- _ => apply bonus_leaves in H
  end; try assumption; try (constructor; assumption). discriminate.
Qed.
Lemma parse_spelled input n : parse_command input = Ok n -> exists c, n = command_tree c /\ command_ok c.
Proof. intros H. apply parse_sound in H as (c & t & rest & -> & H & _). exists c. split; [reflexivity|exact (spells_ok _ _ H)]. Qed.

(** ** The alphabet of commands other than CHOICE *)
Definition command_rune (r : Z) : Prop := 40 <= r <= 57 \/ 60 <= r <= 62 \/ r = 91 \/ r = 93 \/
  exists l, In l [98; 99; 100; 114; 117] /\ (r = l \/ r = l - 32).
Lemma rune_letter r l : In l [98; 99; 100; 114; 117] -> to_lower r = l -> command_rune r.
Proof.
  intros Hl H. right. right. right. right. exists l. split; [exact Hl|]. apply to_lower_letter; [| | |exact H]; cbn in Hl; decompose [or] Hl; subst; try contradiction; lia.
Qed.
Definition cr (c : gochar) : Prop := command_rune (gc_rune c).
Lemma cr_sym c : 40 <= gc_rune c <= 57 -> cr c. Proof. unfold cr, command_rune. lia. Qed.
Lemma cr_brackets c : gc_rune c = 91 \/ gc_rune c = 93 -> cr c. Proof. unfold cr, command_rune. lia. Qed.
Lemma cr_letters c : to_lower (gc_rune c) = 100 \/ to_lower (gc_rune c) = 117 \/ to_lower (gc_rune c) = 114 -> cr c.
Proof. intros [H|[H|H]]; (eapply rune_letter; [|exact H]; cbn; tauto). Qed.
Lemma cr_word_i a u : In (Z.of_N (N_of_ascii a)) [98; 99; 100; 114; 117] -> word_i (String a EmptyString) u -> Forall cr u.
Proof. intros Ha H. apply word_i_one in H as (c & -> & E). constructor; [|constructor]. eapply rune_letter; [exact Ha|exact E]. Qed.
Lemma cr_op op o : is_compare_op op -> word op o -> Forall cr o.
Proof.
  intros Hop Ho. unfold word in Ho. assert (Forall (fun z => 60 <= z <= 62) (codes op)) as Hc.
  { cbn in Hop. decompose [or] Hop; subst; try contradiction; vm_compute; repeat constructor; discriminate. }
  rewrite <- Ho in Hc. rewrite Forall_map in Hc. eapply Forall_impl; [|exact Hc]. intros c Hc'. cbn in Hc'. unfold cr, command_rune. lia.
Qed.
Lemma cr_target op e t : sp_target op e t -> Forall cr t.
Proof.
  intros H. destruct H as [op e o t Hop Ho He]. apply Forall_app. split; [eapply cr_op; eassumption|].
  eapply (chars_int cr cr_sym cr_brackets cr_letters); exact He.
Qed.
Lemma spells_chars c t : spells c t -> (forall items, c <> Choose items) -> Forall cr t.
Proof.
  intros H Hc. destruct H; repeat (apply Forall_app; split);
  try (match goal with
       | H : sp_target _ _ ?t |- Forall cr ?t => exact (cr_target _ _ _ H)
       | H : sp_int _ ?t |- Forall cr ?t => exact (chars_int cr cr_sym cr_brackets cr_letters _ _ H)
       | H : sp_dexpr _ ?t |- Forall cr ?t => exact (chars_dexpr cr cr_sym cr_brackets cr_letters _ _ H)
       | H : sp_threshold _ ?t |- Forall cr ?t => exact (chars_threshold cr cr_sym cr_brackets cr_letters _ _ H)
       | H : sp_bonus _ ?t |- Forall cr ?t => exact (chars_bonus cr cr_sym cr_brackets cr_letters _ _ H)
       | H : sp_roll _ _ ?t |- Forall cr ?t => refine (chars_roll cr cr_sym cr_brackets cr_letters _ _ _ _ H); intros u0 Hu0; apply (cr_word_i _ _) in Hu0; [exact Hu0|vm_compute; tauto]
       | H : sp_rolls _ _ ?t |- Forall cr ?t => refine (chars_rolls cr cr_sym cr_brackets cr_letters _ _ _ _ H); intros u0 Hu0; apply (cr_word_i _ _) in Hu0; [exact Hu0|vm_compute; tauto]
       | H : word_i _ ?t |- Forall cr ?t => apply (cr_word_i _ _) in H; [exact H|vm_compute; tauto]
       | H : word (String _ EmptyString) ?t |- Forall cr ?t => apply word_one in H as (? & -> & E0); norm_eq E0; constructor; [|constructor]; apply cr_sym; rewrite E0; lia
       end).
  all: try (exfalso; eapply Hc; reflexivity).
Qed.

(** ** Pure arithmetic contains no random element *)
Definition int_char (c : gochar) : Prop := 40 <= gc_rune c <= 57 \/ to_lower (gc_rune c) = 117 \/ to_lower (gc_rune c) = 114.
Lemma int_chars e t : sp_int e t -> Forall int_char t.
Proof.
  assert (forall a o, word (String a EmptyString) o -> 40 <= Z.of_N (N_of_ascii a) <= 57 -> Forall int_char o) as Hw.
  { intros a o H Ha. apply word_one in H as (c & -> & E). constructor; [|constructor]. left. lia. }
  assert (forall u, word_i "u" u -> Forall int_char u) as Hu by (intros u H; symi H as c E; constructor; [|constructor]; right; left; exact E).
  assert (forall u, word_i "r" u -> Forall int_char u) as Hr by (intros u H; symi H as c E; constructor; [|constructor]; right; right; exact E).
  assert ((forall e t, sp_prim sp_number e t -> Forall int_char t) /\ (forall e t, sp_mul sp_number e t -> Forall int_char t) /\
          (forall e t, sp_add sp_number e t -> Forall int_char t)) as (_ & _ & H); [|apply H].
  apply (sp_arith_mut Z sp_number); intros; repeat (apply Forall_app; split); try assumption; try (eapply Hw; [eassumption|vm_compute; split; discriminate]); auto.
  destruct H as (_ & H & _). eapply Forall_impl; [|exact H]. intros c Hc. left. unfold is_digit in Hc. lia.
Qed.
(** a character that only random elements have: [ or d *)
Definition rand_char (c : gochar) : Prop := gc_rune c = 91 \/ to_lower (gc_rune c) = 100.
Lemma random_first lo hi t : sp_random lo hi t -> Exists rand_char t.
Proof. intros H. apply random_head in H as (c & t' & -> & E). constructor. left. exact E. Qed.
Lemma roll_d_char r t : sp_roll "d" r t -> Exists rand_char t.
Proof. intros H. destruct H as [n s t u v _ H _]. symi H as c E. apply Exists_exists. exists c. split; [apply in_or_app; right; left; reflexivity|right; exact E]. Qed.
Lemma Exists_app_l {A} (P : A -> Prop) a b : Exists P a -> Exists P (a ++ b).
Proof. intros H. apply Exists_app. left. exact H. Qed.
Lemma Exists_app_r {A} (P : A -> Prop) a b : Exists P b -> Exists P (a ++ b).
Proof. intros H. apply Exists_app. right. exact H. Qed.
Lemma dexpr_random e t : sp_dexpr e t -> has_random e -> Exists rand_char t.
Proof.
  unfold sp_dexpr, has_random.
  assert ((forall e t, sp_prim sp_dleaf e t -> (exists l, part (Leaf l) e /\ random_leaf l) -> Exists rand_char t) /\
          (forall e t, sp_mul sp_dleaf e t -> (exists l, part (Leaf l) e /\ random_leaf l) -> Exists rand_char t) /\
          (forall e t, sp_add sp_dleaf e t -> (exists l, part (Leaf l) e /\ random_leaf l) -> Exists rand_char t)) as (_ & _ & H); [|apply H].
  apply (sp_arith_mut dleaf sp_dleaf); intros; auto using Exists_app_l, Exists_app_r;
  try (match goal with H : exists l, part _ (Bin _ _ _) /\ _ |- _ => destruct H as (l0 & Hp & Hr); inversion Hp; subst end; eauto 7 using Exists_app_l, Exists_app_r).
  - destruct H0 as (l0 & Hp & Hr). inversion Hp. subst. destruct l; cbn in *; [contradiction|eapply random_first; eassumption|eapply roll_d_char; eassumption].
  - apply Exists_app_r. apply H1. destruct H2 as (l0 & Hp & Hr). inversion Hp. subst. eauto.
Qed.
(** No text of pure arithmetic, or comparison of two, is a command. *)
Lemma roll_letter_followed x a r t l : 97 <= x <= 122 -> Z.of_N (N_of_ascii a) = x -> sp_roll (String a EmptyString) r t -> ~ pf x (t ++ l).
Proof. intros Hx Ha H. eapply pf_no_roll; eassumption. Qed.
Lemma arithmetic_not_command c t u : spells c (t ++ u) -> forall l, Forall (fun d => int_char d \/ 60 <= gc_rune d <= 62) ((t ++ u) ++ l) ->
  pf 98 ((t ++ u) ++ l) -> pf 114 ((t ++ u) ++ l) -> pf 117 ((t ++ u) ++ l) -> False.
Proof.
  intros H l Hc Hb Hr Hu. remember (t ++ u) as tx eqn:Etx. clear Etx.
  assert (forall d, In d (tx ++ l) -> int_char d \/ 60 <= gc_rune d <= 62) as Hin by (apply Forall_forall; exact Hc).
  assert (forall d, In d tx -> to_lower (gc_rune d) <> 99) as Hnc.
  { intros d Hd E. destruct (Hin d (in_or_app _ _ _ (or_introl Hd))) as [[Hd'|[Hd'|Hd']]|Hd']; try lia; rewrite lower_ascii in E by lia; lia. }
  assert (forall t1, (exists v, tx = t1 ++ v) -> ~ Exists rand_char t1) as Hnr.
  { intros t1 (v & ->) He. apply Exists_exists in He as (d & Hd & Hrd).
    destruct (Hin d (in_or_app _ _ _ (or_introl (in_or_app _ _ _ (or_introl Hd))))) as [[Hd'|[Hd'|Hd']]|Hd']; destruct Hrd as [Hrd|Hrd]; try lia;
      try (rewrite Hrd in Hd'; discriminate Hd'); rewrite lower_ascii in Hrd by lia; lia. }
  destruct H.
  - symi H as d E. eapply Hnc; [left; reflexivity|exact E].
  - destruct k as [|d k]; [discriminate H|]. injection H as E _. eapply Hnc; [left; reflexivity|exact E].
  - eapply (Hnr t0); [exists []; rewrite app_nil_r; reflexivity|]. eapply dexpr_random; eassumption.
  - eapply (Hnr t0); [eexists; reflexivity|]. eapply dexpr_random; eassumption.
  - rewrite <- app_assoc in Hb. eapply (roll_letter_followed 98); [| |exact H|exact Hb]; [lia|reflexivity].
  - rewrite <- app_assoc in Hb. eapply (roll_letter_followed 98); [| |exact H|exact Hb]; [lia|reflexivity].
  - rewrite <- app_assoc in Hr. eapply (roll_letter_followed 114); [| |exact H|exact Hr]; [lia|reflexivity].
  - rewrite <- app_assoc in Hr. eapply (roll_letter_followed 114); [| |exact H|exact Hr]; [lia|reflexivity].
  - rewrite <- app_assoc in Hu. eapply (roll_letter_followed 117); [| |exact H|exact Hu]; [lia|reflexivity].
  - rewrite <- app_assoc in Hu. eapply (roll_letter_followed 117); [| |exact H|exact Hu]; [lia|reflexivity].
Qed.
