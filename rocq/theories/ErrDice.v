(** When Parse reports that a random element is missing. *)
From Verif Require Import Grammar PegText ProofBase SpecSyntax SpecGrammar TextFacts SpecErrors ErrInv ErrErase ErrTop PegProofs GrammarSound ParseSound PegForward ParseComplete ParseLang ParseCmd ParseTop SpecRoll EchoNorm DecodeProofs NumberText ExecProofs.
Open Scope list_scope.
Open Scope Z_scope.

(** ** Expressions without random elements *)
Definition plain_leaf (l : dleaf) : Z := match l with DInt v => v | _ => 0 end.
Lemma undiced_arith :
  (forall e t, sp_prim sp_dleaf e t -> total dcount e = 0 -> sp_prim sp_number (ae_map plain_leaf e) t) /\ (forall e t, sp_mul sp_dleaf e t -> total dcount e = 0 -> sp_mul sp_number (ae_map plain_leaf e) t) /\
  (forall e t, sp_add sp_dleaf e t -> total dcount e = 0 -> sp_add sp_number (ae_map plain_leaf e) t).
Proof.
  assert (forall a b : SpecSyntax.dexpr, total dcount a + total dcount b = 0 -> total dcount a = 0 /\ total dcount b = 0) as Hn.
  { intros a b H. pose proof (total_nonneg dcount a (fun l => proj1 (dcount_random l))). pose proof (total_nonneg dcount b (fun l => proj1 (dcount_random l))). lia. }
  apply (sp_arith_mut dleaf sp_dleaf); cbn [total ae_map]; intros;
    try match goal with H : total dcount ?a + total dcount ?b = 0 |- _ => apply Hn in H as (? & ?) end; try (econstructor; solve [eauto]).
  apply sp_leaf. destruct l as [v|lo hi|n s]; cbn in *; [assumption| |]; exfalso; [lia|].
  pose proof (total_nonneg rcount n rcount_nonneg). pose proof (total_nonneg rcount s rcount_nonneg). lia.
Qed.
Lemma dint_arith e t : sp_int e t -> sp_dexpr (ae_map DInt e) t.
Proof. apply (proj2 (proj2 (sp_map DInt sp_dleaf))). Qed.
Lemma dint_total e : total dcount (ae_map DInt e) = 0.
Proof. induction e; cbn [ae_map total]; [reflexivity|assumption|lia]. Qed.
Lemma undiced_reason c s : Z.of_nat (String.length s) < 2 ^ 63 -> undiced c (decode s) ->
  exists e t rest, sp_int e t /\ if c then exists op g u, sp_target op g u /\ decode s = t ++ u ++ rest else decode s = t ++ rest.
Proof.
  intros Hl (e & t & u & rest & E & He & Hk & Hc). pose proof (dexpr_length _ _ He) as Hlen. pose proof (total_nonneg dcount e (fun l => proj1 (dcount_random l))) as Hn.
  pose proof (decode_length s) as Hd. rewrite E, !app_length in Hd.
  assert (total dcount e = 0) as H0. { rewrite wrap64_id in Hk by (unfold in_int64, min_int, max_int, two63; lia). lia. }
  exists (ae_map plain_leaf e), t, rest. split; [apply undiced_arith; assumption|]. destruct c; [destruct Hc as (op & g & Hg); eauto 8|rewrite Hc in E; exact E].
Qed.

(** ** What a roll is made of *)
Definition own (c : gochar) : Prop := ~ foreign c.
Lemma own_sym c : 40 <= gc_rune c <= 57 -> own c.
Proof. unfold own, foreign. tauto. Qed.
Lemma own_brackets c : gc_rune c = 91 \/ gc_rune c = 93 -> own c.
Proof. unfold own, foreign. tauto. Qed.
Lemma own_letter_any c x : In x [98; 100; 114; 117] -> to_lower (gc_rune c) = x -> own c.
Proof.
  intros Hx E (_ & _ & _ & _ & H). apply H. assert (gc_rune c = x \/ gc_rune c = x - 32) as Hc by (cbn in Hx; apply to_lower_letter; [lia|lia|lia|exact E]).
  unfold ascii_fold, in_range. destruct Hc as [->| ->].
  - replace ((65 <=? x) && (x <=? 90)) with false by (cbn in Hx; lia). exact Hx.
  - replace ((65 <=? x - 32) && (x - 32 <=? 90)) with true by (cbn in Hx; lia). replace (x - 32 + 32) with x by lia. exact Hx.
Qed.
Lemma own_letter c : to_lower (gc_rune c) = 100 \/ to_lower (gc_rune c) = 117 \/ to_lower (gc_rune c) = 114 -> own c.
Proof. intros [H|[H|H]]; eapply own_letter_any; try exact H; cbn; tauto. Qed.
Lemma own_word a u : In (Z.of_N (N_of_ascii a)) [98; 100; 114; 117] -> word_i (String a EmptyString) u -> Forall own u.
Proof. intros Ha H. apply word_i_one in H as (c & -> & E). constructor; [|constructor]. eapply own_letter_any; eassumption. Qed.
Lemma own_target op g u : sp_target op g u -> Forall own u.
Proof.
  intros H. destruct H as [op e o t Hop Ho He]. apply Forall_app. split; [|eapply chars_int; [exact own_sym|exact own_brackets|exact own_letter|exact He]].
  unfold word in Ho. assert (Forall (fun z => 60 <= z <= 62) (codes op)) as Hc.
  { cbn in Hop. decompose [or] Hop; subst; try contradiction; vm_compute; repeat constructor; discriminate. }
  rewrite <- Ho, Forall_map in Hc. eapply Forall_impl; [|exact Hc]. intros d Hd (_ & H & _). exact (H Hd).
Qed.
Lemma own_prefix rest : ends_here rest -> forall t t1 l, Forall own t1 -> t ++ rest = t1 ++ l -> exists w, t = t1 ++ w.
Proof.
  intros Hr t t1. revert t. induction t1 as [|c t1 IH]; intros t l Ho E; [exists t; reflexivity|]. inversion Ho as [|? ? H1 H2]. subst. destruct t as [|d t].
  - cbn in E. subst rest. exfalso. exact (H1 Hr).
  - cbn in E. injection E as -> E. destruct (IH t l H2 E) as (w & ->). exists w. reflexivity.
Qed.
Lemma no_roll_before a r t rest t1 l : In (Z.of_N (N_of_ascii a)) [98; 114; 117] -> pf (Z.of_N (N_of_ascii a)) t -> ends_here rest -> t ++ rest = t1 ++ l -> sp_roll (String a EmptyString) r t1 -> False.
Proof.
  intros Ha Hp Hr E H. assert (Forall own t1) as Ho.
  { eapply chars_roll; [exact own_sym|exact own_brackets|exact own_letter| |exact H]. intros u. apply own_word. cbn in *. tauto. }
  destruct (own_prefix rest Hr t t1 l Ho E) as (w & ->). revert Hp. eapply pf_no_roll; [reflexivity|exact H].
Qed.
Lemma roll_alternatives t rest : good (t ++ rest) -> (forall x, 97 <= x <= 122 -> pf x t) -> ends_here rest ->
  Forall (fun e => Fl e (t ++ rest)) [ERef BRollComp; ERef BRollList; ERef RRollComp; ERef RRollList; ERef URollComp; ERef URollExpr].
Proof.
  intros (G1 & G2) Hp Hr.
  assert (forall a r t1 l, In (Z.of_N (N_of_ascii a)) [98; 114; 117] -> sp_roll (String a EmptyString) r t1 -> t ++ rest = t1 ++ l -> False) as Hno.
  { intros a r t1 l Ha H E. eapply no_roll_before; [exact Ha| |exact Hr|exact E|exact H]. apply Hp. cbn in Ha. lia. }
  repeat (apply Forall_cons; [apply Fl_sound; [reflexivity|exact G2|exact G1|]|]); [..|apply Forall_nil]; intros t' v j l' E Hpo.
  - destruct Hpo as (r & rs & op & g & _ & Hs). inversion Hs; subst. rewrite <- app_assoc in E. eapply (Hno "b"%char); [|eassumption|exact E]. cbn. tauto.
  - destruct Hpo as (r & rs & _ & Hs). inversion Hs; subst. rewrite <- app_assoc in E. eapply (Hno "b"%char); [|eassumption|exact E]. cbn. tauto.
  - destruct Hpo as (r & rs & th & op & g & _ & Hs). inversion Hs; subst. rewrite <- app_assoc in E. eapply (Hno "r"%char); [|eassumption|exact E]. cbn. tauto.
  - destruct Hpo as (r & rs & th & _ & Hs). inversion Hs; subst. rewrite <- app_assoc in E. eapply (Hno "r"%char); [|eassumption|exact E]. cbn. tauto.
  - destruct Hpo as (r & rs & th & b & op & g & _ & Hs). inversion Hs; subst. rewrite <- app_assoc in E. eapply (Hno "u"%char); [|eassumption|exact E]. cbn. tauto.
  - destruct Hpo as (r & rs & th & b & _ & Hs). inversion Hs; subst. rewrite <- app_assoc in E. eapply (Hno "u"%char); [|eassumption|exact E]. cbn. tauto.
Qed.
Lemma foreign_nA rest : ends_here rest -> not_head nA rest.
Proof.
  destruct rest as [|c l]; [trivial|]. cbn [ends_here not_head]. intros Hf H. assert (own c) as Ho; [|exact (Ho Hf)].
  destruct H as [[[[H|H]|[H|H]]|H]|H]; try (apply own_sym; unfold is_digit in *; lia); apply own_letter; tauto.
Qed.
Lemma int_nonempty e t : sp_int e t -> exists c t', t = c :: t'.
Proof.
  intros H. assert ((forall e t, sp_prim sp_number e t -> t <> []) /\ (forall e t, sp_mul sp_number e t -> t <> []) /\ (forall e t, sp_add sp_number e t -> t <> [])) as (_ & _ & Hne).
  { apply (sp_arith_mut Z sp_number); intros; try assumption; try (intros E; repeat (apply app_eq_nil in E as (? & E)); contradiction). destruct H0. assumption. }
  destruct t as [|c t]; [exfalso; exact (Hne _ _ H eq_refl)|eauto].
Qed.
Lemma int_not_c e t l : sp_int e t -> not_head (fun c => to_lower (gc_rune c) = 99) (t ++ l).
Proof.
  intros H. destruct (int_nonempty e t H) as (c & t' & ->). assert (Forall not_c (c :: t')) as Hc.
  { eapply chars_int; [| | |exact H]; unfold not_c.
    - intros d Hd. rewrite lower_ascii by lia. lia.
    - intros d Hd. rewrite lower_ascii' by lia. lia.
    - lia. }
  inversion Hc. assumption.
Qed.
Lemma compare_rest wrap left r n j t op g u rest : rules r = compare_rule wrap left -> sp_target op g u -> good u -> valid_head rest -> not_head nA rest -> not_head (fun c => 60 <= gc_rune c <= 62) rest ->
  (M (ERef left) (t ++ u ++ rest) [] (VNode n) (u ++ rest) j) -> M (ERef r) (t ++ u ++ rest) [] (VNode (wrap (NInfix (OpCmp op) n (itree g)))) rest j.
Proof.
  intros Hr Hg Gu Hv Hn Hc Hl. destruct Hg as [op e o w Hop Ho He]. apply good_app in Gu as (G1 & G2). rewrite <- app_assoc in *.
  eapply M_j with (j := j + (0 + (0 + 0))); [|lia]. eapply M_rule; [exact Hr| |].
  - apply M_seq. eapply Ms_cons; [eapply M_label, Hl|].
    eapply Ms_cons; [eapply M_label, compare_op_match; [exact Hop|exact Ho|exact G1|apply vh_app; assumption|]|].
    { eapply int_head, He. }
    eapply Ms_cons; [|apply Ms_nil]. eapply M_label. apply int_ok; [exact He|exact G2|exact Hv|exact Hn].
  - intros st. reflexivity.
Qed.

(** ** The run *)
Lemma hits_error F s c pre e post : valid (decode s) -> dice_alts = pre ++ e :: post -> Forall (fun x => Fl x (decode s)) pre -> alt_hits (decode s) c e -> not_head (fun c => to_lower (gc_rune c) = 99) (decode s) ->
  parse_text F s = Err (no_dice_error F c).
Proof.
  intros Hv Ha Hp He Hh. destruct (start_at s Hv) as (A & E & _). pose proof (run_total s) as Ht.
  pose proof (command_hits (decode s) Hv (decode_raws s) c pre e post (parse_fuel s) 0%nat _ Ha Hp He (Fl_choice_head _ Hh) (Fl_calc_head _ Hh) A) as H.
  unfold parse_text. fold (run_of (parse_fuel s) s). fold (run_of (parse_fuel s) s) in H. unfold errs_one, outcome_ok in H. rewrite E, (at_pt _ _ _ _ A) in H. cbn [app] in H.
  assert (forall d : dstate rule, (d_errs d = [] /\ False \/ (exists c', d_errs d = [dice_err (spot (decode s) 0) c'] /\ no_newline (decode s) /\ c = c')) -> errs_text F (d_errs d) = no_dice_error F c) as Hx.
  { intros d [(_ & [])|(c' & -> & Hn & <-)]. rewrite (spot_first _ Hn). apply no_dice_text. }
  destruct (run_cases s Hv) as (r & d & n & Er & Hr). rewrite Er in *. destruct r as [v| |m]; [| |destruct Hr].
  - specialize (Hx d H). destruct (d_errs d) as [|x l] eqn:Ed; [exfalso; destruct H as [(_ & [])|(c' & H & _)]; discriminate H|]. rewrite Hx. reflexivity.
  - specialize (Hx d H). unfold final_errs. cbn [d_errs d_set_rstack]. destruct (d_errs d) as [|x l] eqn:Ed; [exfalso; destruct H as [(_ & [])|(c' & H & _)]; discriminate H|]. rewrite Hx. reflexivity.
Qed.
Lemma valid_good t : valid t -> Forall plain t -> good t.
Proof. split; assumption. Qed.
Lemma arithmetic_error F s e t rest : valid (decode s) -> sp_int e t -> decode s = t ++ rest -> ends_here rest -> parse_text F s = Err (no_dice_error F false).
Proof.
  intros Hv Ht Es Hr. assert (good (t ++ rest)) as Hg by (rewrite <- Es; split; [exact Hv|apply decode_plain]). pose proof Hg as Hg'. apply good_app in Hg' as (G1 & G2).
  apply (hits_error F s false [ERef BRollComp; ERef BRollList; ERef RRollComp; ERef RRollList; ERef URollComp; ERef URollExpr; ERef DRollCompCommand] (ERef DRollExprCommand) []); [exact Hv|reflexivity| | |].
  - rewrite Es. pose proof (roll_alternatives t rest Hg (fun x Hx => pf_int x Hx _ _ Ht) Hr) as H. apply (Forall_app _ [_; _; _; _; _; _] [_]). split; [exact H|]. apply Forall_cons; [|apply Forall_nil].
    eapply Fl_rule; [reflexivity|]. apply Fl_label. apply Fl_sound; [reflexivity|apply Hg|apply Hg|].
    intros t' v j l' E (e' & op & g & t1 & t2 & _ & -> & H1 & H2 & _). assert (Forall own (t1 ++ t2)) as Ho.
    { apply Forall_app. split; [eapply chars_dexpr; [exact own_sym|exact own_brackets|exact own_letter|exact H1]|eapply own_target, H2]. }
    destruct (own_prefix rest Hr t _ l' Ho E) as (w & ->). eapply target_not_calm; [exact H2|]. rewrite app_assoc. eapply chars_int; [exact calm_sym|exact calm_brackets|exact calm_letters|exact Ht].
  - intros f j d. eapply (d_cmd_hits (decode s) Hv (decode_raws s) (decode_plain s) false). rewrite Es. cbn [d_in]. rewrite <- (dint_total e).
    apply dexpr_match; [apply dint_arith, Ht|exact G1|exact G2|apply foreign_nA, Hr].
  - rewrite Es. eapply int_not_c, Ht.
Qed.
Lemma comparison_error F s e op g t u rest : valid (decode s) -> sp_int e t -> sp_target op g u -> decode s = t ++ u ++ rest -> ends_here rest -> parse_text F s = Err (no_dice_error F true).
Proof.
  intros Hv Ht Hu Es Hr. assert (good (t ++ u ++ rest)) as Hg by (rewrite <- Es; split; [exact Hv|apply decode_plain]). pose proof Hg as Hg'. rewrite !good_app in Hg'. destruct Hg' as (G1 & G2 & G3).
  apply (hits_error F s true [ERef BRollComp; ERef BRollList; ERef RRollComp; ERef RRollList; ERef URollComp; ERef URollExpr] (ERef DRollCompCommand) [ERef DRollExprCommand]); [exact Hv|reflexivity| | |].
  - rewrite Es, app_assoc. apply roll_alternatives; [rewrite <- app_assoc; exact Hg| |exact Hr]. intros x Hx.
    apply (pf_app x); [apply (pf_int x Hx _ _ Ht)|apply (pf_target x Hx _ _ _ Hu)|right]. rewrite <- (app_nil_r u). eapply target_closed; exact Hu.
  - intros f j d. eapply (d_cmd_hits (decode s) Hv (decode_raws s) (decode_plain s) true). rewrite Es. cbn [d_in]. rewrite <- (dint_total e).
    eapply (compare_rest (fun n => n) DRollExprAdditive DRollComp); [reflexivity|exact Hu|exact G2|apply good_head, G3|apply foreign_nA, Hr| |].
    + destruct rest as [|c l]; [exact I|]. cbn in *. apply Hr.
    + apply dexprA_match; [apply dint_arith, Ht|exact G1|apply good_app; split; assumption|]. destruct (target_head _ _ _ Hu) as (c & u' & -> & Hc). cbn. apply nA_symbol. lia.
  - rewrite Es. eapply int_not_c, Ht.
Qed.
