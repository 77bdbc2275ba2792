(** Completeness of the parser: CHOICE, C(...) and the top level; the language accepted is exactly the one of SpecGrammar.v. *)
From Verif Require Import Grammar ProofBase SpecSyntax SpecGrammar TextFacts PegProofs GrammarSound PegTotal PegForward ParseSound ParseComplete ParseLang ParseCmd.
Open Scope list_scope.
Open Scope Z_scope.

(** ** CHOICE *)
Lemma Z_class c : class_match (CharClass [] [] true false false) (gc_rune c) = is_Z (gc_rune c).
Proof. unfold class_match, class_hit. cbn. destruct (is_Z (gc_rune c)); reflexivity. Qed.
Lemma Mr_class cc t l (P : gochar -> Prop) : (forall c, class_match cc (gc_rune c) = true <-> P c) -> Forall P t -> good t -> valid_head l -> not_head P l ->
  exists vs, Mr (EClass cc) (t ++ l) vs l 0 /\ length vs = length t.
Proof.
  intros HP Ht Hg Hv Hn. induction Ht as [|c t Hc _ IH].
  - exists []. split; [|reflexivity]. apply Mr_stop, Fl_class. destruct l; [exact I|]. cbn in *. intros H. apply Hn, HP, H.
  - apply (good_app [c] t) in Hg as (H1 & H2). destruct (IH H2) as (vs & Hr & Hl). exists (VBytes (gc_raw c) :: vs). split; [|cbn; lia].
    change 0 with (0 + 0). eapply Mr_more; [|exact Hr]. apply M_class; [apply HP, Hc|]. apply good_vh; assumption.
Qed.
Definition is_Zc (c : gochar) : Prop := is_Z (gc_rune c) = true.
Lemma is_Zc_class c : class_match (CharClass [] [] true false false) (gc_rune c) = true <-> is_Zc c.
Proof. rewrite Z_class. reflexivity. Qed.
Definition stops (l : text) : Prop := exists c l', l = c :: l' /\ ~ item_char c.
Lemma item_match x t l : sp_item x t -> good t -> valid_head l -> stops l -> M (ERef ChoiceItem) (t ++ l) [] (VNode (NString x)) l 0.
Proof.
  intros H Hg Hv (c & l' & -> & Hc). apply item_inv in H as (z & t0 & -> & -> & Hz & Hne & Ht & Hh). rename t0 into t. apply good_app in Hg as (G1 & G2). rewrite <- app_assoc.
  assert (not_head is_Zc (t ++ c :: l')) as Nz.
  { destruct t as [|d t]; [congruence|]. cbn. unfold is_Zc. congruence. }
  destruct (Mr_class _ z (t ++ c :: l') is_Zc is_Zc_class Hz G1 (vh_app _ _ G2 Hv) Nz) as (vs & Hr & _).
  destruct (Mr_class _ t (c :: l') item_char item_class Ht G2 Hv Hc) as (ws & Hs & Hl).
  eapply M_j with (j := 0 + (0 + 0)); [|lia]. eapply M_rule; [reflexivity| |].
  - apply M_seq. eapply Ms_cons; [apply M_star, Hr|]. eapply Ms_cons; [|apply Ms_nil]. eapply M_label. eapply M_rule; [reflexivity|apply M_plus; [exact Hs|]|].
    + intros ->. destruct t; [congruence|discriminate].
    + intros st. unfold act_choice_chars. rewrite slice_from_app. reflexivity.
  - intros st. reflexivity.
Qed.
Definition item_expr : expr rule := ESeq [lit ","; ERef ChoiceItem].
Lemma comma_stops o l : word "," o -> stops (o ++ l).
Proof. intros Ho. sym Ho as c E. exists c, l. split; [reflexivity|]. unfold item_char. lia. Qed.
Lemma close_stops o l : word "]" o -> stops (o ++ l).
Proof. intros Ho. sym Ho as c E. exists c, l. split; [reflexivity|]. unfold item_char. lia. Qed.
Lemma items_match ss u : sp_items ss u -> good u -> forall l, valid_head l -> stops l -> Fl item_expr l ->
  exists vs, Mr item_expr (u ++ l) vs l 0 /\ forall done, items_loop done vs = AVal (VNode (NChoice (done ++ ss))).
Proof.
  induction 1 as [|s ss o t u Ho Ht Hu IH]; intros Hg l Hv Hs Hl.
  - exists []. split; [apply Mr_stop, Hl|]. intros done. cbn. rewrite app_nil_r. reflexivity.
  - rewrite !good_app in Hg. destruct Hg as (G1 & G2 & G3). destruct (IH G3 l Hv Hs Hl) as (vs & H1 & H2).
    exists (VSlice [VBytes ","; VNode (NString s)] :: vs). split.
    + rewrite <- !app_assoc. change 0 with (0 + 0). eapply Mr_more; [|exact H1].
      eapply M_D with (D := ([] ++ []) ++ []) (j := 0 + (0 + 0)); [|reflexivity|lia].
      assert (valid_head (u ++ l)) as V1 by (apply vh_app; assumption).
      apply M_seq. eapply Ms_cons; [apply M_one; [exact Ho|reflexivity|exact G1|apply vh_app; assumption]|].
      eapply Ms_cons; [apply item_match; [exact Ht|exact G2|exact V1|]|apply Ms_nil].
      destruct Hu as [|s' ss' o' t' u' Ho' _ _]; [exact Hs|]. rewrite <- !app_assoc. apply comma_stops, Ho'.
    + intros done. cbn [items_loop to_iface_slice abind slice_elems index nth_error as_string_node]. rewrite H2, <- app_assoc. reflexivity.
Qed.
Lemma choice_match s ss k t u f c l : word_i "choice[" k -> sp_item s t -> sp_items ss u -> sp_final_comma f -> word "]" c -> good (k ++ t ++ u ++ f ++ c) -> valid_head l ->
  M (ERef Choice) (k ++ t ++ u ++ f ++ c ++ l) [] (VNode (NChoice (s :: ss))) l 0.
Proof.
  intros Hk Ht Hu Hf Hc Hg Hv. rewrite !good_app in Hg. destruct Hg as (G1 & G2 & G3 & G4 & G5).
  assert (valid_head (c ++ l)) as V1 by (apply vh_app; assumption). assert (valid_head (f ++ c ++ l)) as V2 by (apply vh_app; assumption).
  assert (valid_head (u ++ f ++ c ++ l)) as V3 by (apply vh_app; assumption).
  assert (stops (f ++ c ++ l)) as S1.
  { destruct Hf as [|o z Ho _]; [exact (close_stops c l Hc)|]. rewrite <- app_assoc. apply comma_stops, Ho. }
  assert (Fl item_expr (f ++ c ++ l)) as F1.
  { destruct Hf as [|o z Ho Hz].
    - apply Fl_seq0, Fl_lit. sym Hc as d E. rewrite E. discriminate.
    - apply good_app in G4 as (G6 & G7). rewrite <- app_assoc. eapply (Fl_seq [lit ","] (ERef ChoiceItem) []).
      + eapply Ms_cons; [apply M_one; [exact Ho|reflexivity|exact G6|apply vh_app; assumption]|apply Ms_nil].
      + assert (not_head is_Zc (c ++ l)) as Nz by (sym Hc as d E; unfold is_Zc; rewrite E; vm_compute; discriminate).
        destruct (Mr_class _ z (c ++ l) is_Zc is_Zc_class (proj1 (sep_forall _) Hz) G7 V1 Nz) as (vs & Hr & _).
        eapply Fl_rule; [reflexivity|]. eapply (Fl_seq [EStar cls_Z]); [eapply Ms_cons; [apply M_star, Hr|apply Ms_nil]|].
        apply Fl_label. eapply Fl_rule; [reflexivity|]. apply Fl_plus, Fl_class. sym Hc as d E. rewrite item_class. unfold item_char. lia. }
  destruct (items_match ss u Hu G3 _ V2 S1 F1) as (vs & H1 & H2).
  assert (M (EOpt (ESeq [lit ","; EStar cls_Z])) (f ++ c ++ l) [] (match f with [] => VNil | o :: z => VSlice [VBytes ","; VSlice (map (fun d => VBytes (gc_raw d)) z)] end) (c ++ l) 0
    \/ exists w, M (EOpt (ESeq [lit ","; EStar cls_Z])) (f ++ c ++ l) [] w (c ++ l) 0) as Hopt.
  { destruct Hf as [|o z Ho Hz].
    - left. apply M_opt_none, Fl_seq0, Fl_lit. sym Hc as d E. rewrite E. discriminate.
    - right. apply good_app in G4 as (G6 & G7). assert (not_head is_Zc (c ++ l)) as Nz by (sym Hc as d E; unfold is_Zc; rewrite E; vm_compute; discriminate).
      destruct (Mr_class _ z (c ++ l) is_Zc is_Zc_class (proj1 (sep_forall _) Hz) G7 V1 Nz) as (ws & Hr & _). eexists. rewrite <- app_assoc.
      eapply M_j with (j := 0 + (0 + 0)); [|lia]. eapply M_opt, M_seq. eapply Ms_cons; [apply M_one; [exact Ho|reflexivity|exact G6|apply vh_app; assumption]|].
      eapply Ms_cons; [apply M_star, Hr|apply Ms_nil]. }
  assert (exists w, M (EOpt (ESeq [lit ","; EStar cls_Z])) (f ++ c ++ l) [] w (c ++ l) 0) as (w & Hw) by (destruct Hopt; eauto).
  eapply M_j with (j := 0 + (0 + (0 + (0 + 0)))); [|lia]. eapply M_rule; [reflexivity| |].
  - apply M_seq. eapply Ms_cons; [apply M_lit_i; [exact Hk|apply G1|apply vh_app; assumption]|].
    eapply Ms_cons; [eapply M_label|].
    { eapply M_j with (j := 0 + (0 + 0)); [|lia]. eapply M_rule; [reflexivity| |].
      - apply M_seq. eapply Ms_cons; [eapply M_label, item_match; [exact Ht|exact G2|exact V3|]|].
        { destruct Hu as [|s' ss' o' t' u' Ho' _ _]; [exact S1|]. rewrite <- !app_assoc. apply comma_stops, Ho'. }
        eapply Ms_cons; [eapply M_label, M_star, H1|apply Ms_nil].
      - intros st. cbn [app]. unfold act_choice_items. cbn [lookup String.eqb Ascii.eqb Bool.eqb as_string_node abind to_iface_slice slice_elems]. apply H2. }
    eapply Ms_cons; [exact Hw|]. eapply Ms_cons; [apply M_one; [exact Hc|reflexivity|exact G5|exact Hv]|apply Ms_nil].
  - intros st. reflexivity.
Qed.

(** ** C(...) *)
Lemma calc_match e k o t c l : word_i "c" k -> word "(" o -> sp_int e t -> word ")" c -> good (k ++ o ++ t ++ c) -> valid_head l ->
  M (ERef Calc) (k ++ o ++ t ++ c ++ l) [] (VNode (command_tree (Calculation e))) l 0.
Proof.
  intros Hk Ho Ht Hc Hg Hv. rewrite !good_app in Hg. destruct Hg as (G1 & G2 & G3 & G4).
  assert (valid_head (c ++ l)) as V1 by (apply vh_app; assumption). assert (valid_head (t ++ c ++ l)) as V2 by (apply vh_app; assumption).
  eapply M_j with (j := 0 + (0 + (0 + (0 + 0)))); [|lia]. eapply M_rule; [reflexivity| |].
  - apply M_seq. eapply Ms_cons; [apply M_lit_i; [exact Hk|apply G1|apply vh_app; assumption]|].
    eapply Ms_cons; [apply M_one; [exact Ho|reflexivity|exact G2|exact V2]|].
    eapply Ms_cons; [eapply M_label, int_ok; [exact Ht|exact G3|exact V1|sym Hc as d E; apply nA_symbol; lia]|].
    eapply Ms_cons; [apply M_one; [exact Hc|reflexivity|exact G4|exact Hv]|apply Ms_nil].
  - intros st. reflexivity.
Qed.
Lemma Fl_choice_second c d l : gc_bad d = false -> to_lower (gc_rune d) <> 104 -> Fl (ERef Choice) (c :: d :: l).
Proof. intros Hv H. eapply Fl_rule; [reflexivity|]. apply Fl_seq0. unfold lit_i. cbn [runes]. apply Fl_ELit2; [exact Hv|exact H]. Qed.
Lemma Fl_choice_head l : not_head (fun c => to_lower (gc_rune c) = 99) l -> Fl (ERef Choice) l.
Proof. intros H. eapply Fl_rule; [reflexivity|]. apply Fl_seq0, Fl_lit_i. exact H. Qed.
Lemma Fl_calc_head l : not_head (fun c => to_lower (gc_rune c) = 99) l -> Fl (ERef Calc) l.
Proof. intros H. eapply Fl_rule; [reflexivity|]. apply Fl_seq0, Fl_lit_i. exact H. Qed.

(** ** From the start of a command *)
Definition starts (e : expr rule) (l : text) (v : val) (l' : text) : Prop :=
  forall E, exists st' E', run e (PState l (Some 0) [] E) (PMatch v) (PState l' st' [] E').
Lemma zero_in : in_int64 0.
Proof. unfold in_int64, min_int, max_int, two63. lia. Qed.
Lemma M_starts e l D v l' j : M e l D v l' j -> starts e l v l'.
Proof. intros H E. eexists _, _. apply (H 0 [] E zero_in). Qed.
Lemma starts_choice pre e post l v l' : Forall (fun a => Fl a l) pre -> starts e l v l' -> starts (EChoice (pre ++ e :: post)) l v l'.
Proof.
  intros Hp He E. destruct (He []) as (st' & E' & f1 & Hf1).
  assert (exists f0, forall f, (f0 <= f)%nat -> forall n, exists n', choice_loop (pexpr rules f) (pre ++ e :: post) (PState l (Some 0) [] E) n = Some (PMatch v, PState l' st' [] E, n')) as (f0 & Hf).
  { induction Hp as [|a pre Ha _ (f2 & Hf2)].
    - exists f1. intros f Hle n. destruct (Hf1 f Hle) as (n1 & E1). exists (n + n1)%N. cbn [app choice_loop]. unfold set_env at 1. cbn [ps_rest ps_st ps_errs]. rewrite E1. reflexivity.
    - destruct (Ha 0 [] [] zero_in) as (E2 & f3 & Hf3). exists (Nat.max f2 f3). intros f Hle n.
      destruct (Hf3 f ltac:(lia)) as (n1 & E1). destruct (Hf2 f ltac:(lia) (n + n1)%N) as (n2 & E3). exists n2.
      cbn [app choice_loop]. unfold set_env at 1. cbn [ps_rest ps_st ps_errs]. rewrite E1. exact E3. }
  exists st', E, (S f0). intros f Hle. destruct f as [|f]; [lia|]. destruct (Hf f ltac:(lia) 1%N) as (n & Hn). exists n. exact Hn.
Qed.

(** single steps *)
Lemma run_ref r s res s' : run (rules r) (set_env s []) res s' -> run (ERef r) s res (set_env s' (ps_env s)).
Proof. intros (f0 & Hf). exists (S f0). intros f Hle. destruct f as [|f]; [lia|]. destruct (Hf f ltac:(lia)) as (n & Hn). eexists. cbn [pexpr]. rewrite Hn. reflexivity. Qed.
Lemma run_label x e s v s' : run e (set_env s []) (PMatch v) s' -> run (ELabel x e) s (PMatch v) (set_env s' ((x, v) :: ps_env s)).
Proof. intros (f0 & Hf). exists (S f0). intros f Hle. destruct f as [|f]; [lia|]. destruct (Hf f ltac:(lia)) as (n & Hn). eexists. cbn [pexpr]. rewrite Hn. reflexivity. Qed.
Lemma run_action act e s w s' v : run e s (PMatch w) s' -> act (ps_env s') (slice_from (ps_rest s) (ps_rest s')) (ps_st s') = AVal v -> run (EAction act e) s (PMatch v) s'.
Proof. intros (f0 & Hf) Ha. exists (S f0). intros f Hle. destruct f as [|f]; [lia|]. destruct (Hf f ltac:(lia)) as (n & Hn). eexists. cbn [pexpr]. rewrite Hn, Ha. reflexivity. Qed.
Lemma run_seq2 a b s v s1 w s2 : run a s (PMatch v) s1 -> run b s1 (PMatch w) s2 -> run (ESeq [a; b]) s (PMatch (VSlice [v; w])) s2.
Proof.
  intros (f1 & H1) (f2 & H2). exists (S (Nat.max f1 f2)). intros f Hle. destruct f as [|f]; [lia|]. destruct (H1 f ltac:(lia)) as (n & Hn). destruct (H2 f ltac:(lia)) as (m & Hm).
  eexists. cbn [pexpr seq_loop]. rewrite Hn, Hm. reflexivity.
Qed.
Lemma run_eot st er E : run (ERef EOT) (PState [] st er E) (PMatch VNil) (PState [] st er E).
Proof. exists 3%nat. intros f Hle. destruct f as [|[|[|f]]]; try lia. eexists. reflexivity. Qed.
Lemma run_reset s : run (ERef ResetRandCount) s (PMatch VNil) (set_st s (Some 0)).
Proof. exists 2%nat. intros f Hle. destruct f as [|[|f]]; try lia. eexists. reflexivity. Qed.

Lemma starts_with_expression l v :
  starts (EChoice [ERef BRollComp; ERef BRollList; ERef RRollComp; ERef RRollList; ERef URollComp; ERef URollExpr; ERef DRollCompCommand; ERef DRollExprCommand]) l v [] ->
  starts (ERef CommandWithExpression) l v [].
Proof.
  intros H E. destruct (H []) as (st' & E' & Hr). eexists _, _.
  eapply (run_ref _ _ _ (PState [] st' [] [("n"%string, v)])). cbn [rules]. eapply run_action; [|reflexivity].
  eapply run_seq2; [eapply run_label, Hr|]. apply run_eot.
Qed.

Definition top_alts : list (expr rule) := [ERef Choice; ERef Calc; ERef CommandWithExpression].
Theorem starts_parse input v rest : valid_head (decode input) -> starts (EChoice top_alts) (decode input) v rest -> parse_val input = Some (Ok v).
Proof.
  intros Hv H. destruct (H []) as (st' & E' & Hr).
  assert (run (rules Command) (PState (decode input) None [] []) (PMatch v) (PState rest st' [] [("n"%string, v)])) as Hc.
  { cbn [rules]. eapply run_action; [|reflexivity]. eapply run_seq2; [apply run_reset|]. exact (run_label "n" _ (PState (decode input) (Some 0) [] []) _ _ Hr). }
  pose proof (parse_enough input) as Hen. unfold parse_val, parse in *.
  assert (arrive (PState (decode input) None [] []) = PState (decode input) None [] []) as Ea.
  { unfold arrive. cbn [ps_rest]. destruct (decode input) as [|c l]; [reflexivity|]. cbn in Hv. rewrite Hv. reflexivity. }
  rewrite Ea in *. destruct Hc as (f0 & Hf). destruct (Hf f0 (le_n _)) as (n & Hn).
  destruct (pexpr rules (parse_fuel input) (rules Command) _) as [[[res s'] m]|] eqn:Ep; [|congruence].
  pose proof (pexpr_det rules _ _ _ _ _ _ Hn Ep) as E. injection E as <- <- _. reflexivity.
Qed.

(** ** Rules that do not apply *)
Lemma Fl_b_comp l : good l -> pf 98 l \/ Fl (ERef BRollList) l \/ Forall calm l -> Fl (ERef BRollComp) l.
Proof.
  intros (G1 & G2) H. destruct H as [H|[H|H]].
  - apply Fl_sound; [reflexivity|assumption..|]. intros t v j l' -> (r & rs & op & g & _ & Hs). inversion Hs; subst. rewrite <- app_assoc in H. revert H. eapply pf_no_roll; [|eassumption]; reflexivity.
  - eapply Fl_rule; [reflexivity|]. apply Fl_seq0, Fl_label, H.
  - apply Fl_sound; [reflexivity|assumption..|]. intros t v j l' -> (r & rs & op & g & _ & Hs). inversion Hs; subst. rewrite <- !app_assoc, app_assoc in H. revert H. eapply target_not_calm; eassumption.
Qed.
Lemma Fl_b_list l : good l -> pf 98 l -> Fl (ERef BRollList) l.
Proof.
  intros (G1 & G2) H. apply Fl_sound; [reflexivity|assumption..|]. intros t v j l' -> (r & rs & _ & Hs). inversion Hs; subst. rewrite <- app_assoc in H. revert H. eapply pf_no_roll; [|eassumption]; reflexivity.
Qed.
Lemma Fl_r_comp l : good l -> pf 114 l \/ Forall calm l -> Fl (ERef RRollComp) l.
Proof.
  intros (G1 & G2) H. apply Fl_sound; [reflexivity|assumption..|]. intros t v j l' -> (r & rs & th & op & g & _ & Hs). inversion Hs; subst. destruct H as [H|H].
  - rewrite <- app_assoc in H. revert H. eapply pf_no_roll; [|eassumption]; reflexivity.
  - rewrite <- !app_assoc in H. rewrite app_assoc in H. rewrite app_assoc in H. revert H. eapply target_not_calm; eassumption.
Qed.
Lemma Fl_r_list l : good l -> pf 114 l -> Fl (ERef RRollList) l.
Proof.
  intros (G1 & G2) H. apply Fl_sound; [reflexivity|assumption..|]. intros t v j l' -> (r & rs & th & _ & Hs). inversion Hs; subst. rewrite <- app_assoc in H. revert H. eapply pf_no_roll; [|eassumption]; reflexivity.
Qed.
Lemma Fl_u_comp l : good l -> pf 117 l \/ Forall calm l -> Fl (ERef URollComp) l.
Proof.
  intros (G1 & G2) H. apply Fl_sound; [reflexivity|assumption..|]. intros t v j l' -> (r & rs & th & b & op & g & _ & Hs). inversion Hs; subst. destruct H as [H|H].
  - rewrite <- app_assoc in H. revert H. eapply pf_no_roll; [|eassumption]; reflexivity.
  - rewrite <- !app_assoc in H. rewrite app_assoc in H. rewrite app_assoc in H. rewrite app_assoc in H. revert H. eapply target_not_calm; eassumption.
Qed.
Lemma Fl_u_expr l : good l -> pf 117 l -> Fl (ERef URollExpr) l.
Proof.
  intros (G1 & G2) H. apply Fl_sound; [reflexivity|assumption..|]. intros t v j l' -> (r & rs & th & b & _ & Hs). inversion Hs; subst. rewrite <- app_assoc in H. revert H. eapply pf_no_roll; [|eassumption]; reflexivity.
Qed.
Lemma Fl_d_comp l : good l -> Forall calm l -> Fl (ERef DRollCompCommand) l.
Proof.
  intros (G1 & G2) H. eapply Fl_rule; [reflexivity|]. apply Fl_label. apply Fl_sound; [reflexivity|assumption..|].
  intros t v j l' -> (e & op & g & t1 & t2 & _ & -> & _ & Hg & _). rewrite <- !app_assoc in H. revert H. eapply target_not_calm; eassumption.
Qed.

(** ** Counting random elements *)
Lemma total_length {L} (leaf : L -> text -> Prop) lc : (forall x t, leaf x t -> lc x <= Z.of_nat (length t)) ->
  (forall e t, sp_prim leaf e t -> total lc e <= Z.of_nat (length t)) /\ (forall e t, sp_mul leaf e t -> total lc e <= Z.of_nat (length t)) /\
  (forall e t, sp_add leaf e t -> total lc e <= Z.of_nat (length t)).
Proof. intros Hl. apply (sp_arith_mut L leaf); intros; cbn [total]; rewrite ?app_length; try lia; try (apply Hl; assumption). Qed.
Lemma rleaf_length x t : sp_rleaf x t -> rcount x <= Z.of_nat (length t).
Proof. destruct x; cbn; [lia|]. intros H. destruct (random_head _ _ _ H) as (c & t' & -> & _). cbn [length]. lia. Qed.
Lemma operand_length e t : sp_operand e t -> total rcount e <= Z.of_nat (length t).
Proof.
  intros H. destruct H as [x t Hx|e o t c _ He _]; [apply rleaf_length, Hx|]. rewrite !app_length. pose proof (proj2 (proj2 (total_length sp_rleaf rcount rleaf_length)) e t He). lia.
Qed.
Lemma dleaf_length x t : sp_dleaf x t -> dcount x <= Z.of_nat (length t).
Proof.
  destruct x as [x|lo hi|n s]; cbn; [lia| |].
  - intros H. destruct (random_head _ _ _ H) as (c & t' & -> & _). cbn [length]. lia.
  - intros H. inversion H as [n' s' t1 u v H1 H2 H3]; subst. rewrite !app_length. pose proof (operand_length _ _ H1). pose proof (operand_length _ _ H3).
    apply word_i_one in H2 as (c & -> & _). cbn [length]. lia.
Qed.
Lemma dexpr_length e t : sp_dexpr e t -> total dcount e <= Z.of_nat (length t).
Proof. apply (total_length sp_dleaf dcount dleaf_length). Qed.

(** ** The beginning of a text *)
Definition not_c (c : gochar) : Prop := to_lower (gc_rune c) <> 99.
Lemma opener_not_c c : opener c -> not_c c.
Proof. unfold opener, is_digit, not_c. intros [H|[H|H]]; [rewrite lower_ascii by lia|rewrite lower_ascii' by lia|rewrite lower_ascii by lia]; lia. Qed.
Lemma roll_head w r t : sp_roll w r t -> exists c t', t = c :: t' /\ opener c.
Proof. intros H. destruct H as [n s t u v H1 H2 H3]. destruct (operand_head _ _ H1) as (c & t' & -> & Hc). cbn [app]. eauto. Qed.
Lemma not_c_head l : not_head (fun c => ~ not_c c) l -> not_head (fun c => to_lower (gc_rune c) = 99) l.
Proof. apply not_head_sub. intros c H. unfold not_c. congruence. Qed.
Lemma roll_not_c w r t l : sp_roll w r t -> not_head (fun c => to_lower (gc_rune c) = 99) (t ++ l).
Proof. intros H. destruct (roll_head _ _ _ H) as (c & t' & -> & Hc). exact (opener_not_c c Hc). Qed.
Lemma dexpr_not_c e t l : sp_dexpr e t -> has_random e -> not_head (fun c => to_lower (gc_rune c) = 99) (t ++ l).
Proof.
  intros H Hr. assert (t <> []) as Hne by (intros ->; apply has_random_total in Hr; pose proof (dexpr_length _ _ H); cbn in *; lia).
  assert (Forall not_c t) as Hc.
  { eapply chars_dexpr; [| | |exact H]; unfold not_c.
    - intros c Hc. rewrite lower_ascii by lia. lia.
    - intros c Hc. rewrite lower_ascii' by lia. lia.
    - lia. }
  destruct Hc; [congruence|assumption].
Qed.
Lemma starts_other l v : good l -> not_head (fun c => to_lower (gc_rune c) = 99) l ->
  (exists pre e post, [ERef BRollComp; ERef BRollList; ERef RRollComp; ERef RRollList; ERef URollComp; ERef URollExpr; ERef DRollCompCommand; ERef DRollExprCommand] = pre ++ e :: post /\
     Forall (fun a => Fl a l) pre /\ starts e l v []) ->
  starts (EChoice top_alts) l v [].
Proof.
  intros Hg Hh (pre & e & post & Heq & Hp & He). apply (starts_choice [ERef Choice; ERef Calc] (ERef CommandWithExpression) []).
  - repeat constructor; [apply Fl_choice_head, Hh|apply Fl_calc_head, Hh].
  - apply starts_with_expression. rewrite Heq. apply starts_choice; assumption.
Qed.

(** ** D commands *)
Lemma d_command_starts r t0 inner_rule l v j : rules r = EAction (act_d_command t0) (ELabel "expr" (ERef inner_rule)) ->
  M (ERef inner_rule) l [] (VNode v) [] j -> 1 <= j < two63 -> starts (ERef r) l (VNode (NCommand t0 v)) [].
Proof.
  intros Hr H Hj E. eexists _, _. eapply (run_ref _ _ _ (PState [] (Some (wrap64 (0 + j))) [] [("expr"%string, VNode v)])). rewrite Hr.
  eapply run_action.
  - exact (run_label "expr" _ (PState l (Some 0) [] []) _ _ (H 0 [] [] zero_in)).
  - unfold act_d_command. cbn [ps_st ps_env lookup String.eqb Ascii.eqb Bool.eqb as_node abind]. rewrite Z.add_0_l, wrap64_id by (unfold in_int64, min_int, max_int; lia).
    replace (j <? 1) with false by lia. reflexivity.
Qed.

(** the text is validly encoded and decoded *)
Theorem parse_complete input c t rest : spells c t -> decode input = t ++ rest -> valid t -> valid_head rest -> (may_be_followed c \/ rest = []) ->
  Z.of_nat (String.length input) < two63 -> parse_command input = Ok (command_tree c).
Proof.
  intros Hs Hd Hv Hr Hf Hlen.
  assert (good t) as Hg.
  { split; [exact Hv|]. pose proof (decode_plain input) as Hp. rewrite Hd in Hp. apply Forall_app in Hp as (Hp & _). exact Hp. }
  assert (Z.of_nat (length t) < two63) as Hlt.
  { pose proof (decode_length input) as Hl. rewrite Hd, app_length in Hl. lia. }
  assert (starts (EChoice top_alts) (t ++ rest) (VNode (command_tree c)) rest) as H.
  2:{ assert (parse_val input = Some (Ok (VNode (command_tree c)))) as E.
      { eapply starts_parse; rewrite Hd; [apply vh_app; [exact Hg|exact Hr]|exact H]. }
      unfold parse_command. rewrite E. reflexivity. }
  clear Hd input Hlen. destruct Hs as [e k o t c Hk Ho Ht Hc|s ss k t u f c Hk Ht Hu Hfc Hc|e t Ht Hran|e op g t u Ht Hran Hu|r rs t u H1 H2|r rs op g t u v H1 H2 H3|r rs th t u v H1 H2 H3
    |r rs th op g t u v w H1 H2 H3 H4|r rs th b t u v w H1 H2 H3 H4|r rs th b op g t u v w x H1 H2 H3 H4 H5]; try (destruct Hf as [[]| ->]; rewrite app_nil_r).
  - (* C(...) *) rewrite <- !app_assoc. apply (starts_choice [ERef Choice] (ERef Calc) [ERef CommandWithExpression]); [|eapply M_starts, calc_match; eassumption].
    repeat constructor. symi Hk as d E. sym Ho as d' E'. apply Fl_choice_second; [|rewrite E'; discriminate]. destruct Hg as (Hg & _). inversion Hg as [|? ? _ Hg']. inversion Hg'. assumption.
  - (* CHOICE *) rewrite <- !app_assoc. apply (starts_choice [] (ERef Choice) [ERef Calc; ERef CommandWithExpression]); [constructor|]. eapply M_starts, choice_match; eassumption.
  - (* D *) apply starts_other; [exact Hg|rewrite <- (app_nil_r t); eapply dexpr_not_c; eassumption|].
    assert (Forall calm t) as Hcalm by (eapply chars_dexpr; [exact calm_sym|exact calm_brackets|exact calm_letters|exact Ht]).
    assert (forall x, 97 <= x <= 122 -> x <> 100 -> pf x t) as Hpf by (intros x X1 X2; eapply pf_dexpr; eassumption).
    eexists [ERef BRollComp; ERef BRollList; ERef RRollComp; ERef RRollList; ERef URollComp; ERef URollExpr; ERef DRollCompCommand], (ERef DRollExprCommand), []. split; [reflexivity|]. split.
    + repeat constructor; [apply Fl_b_comp|apply Fl_b_list|apply Fl_r_comp|apply Fl_r_list|apply Fl_u_comp|apply Fl_u_expr|apply Fl_d_comp]; try exact Hg; try exact Hcalm; try (right; right; exact Hcalm); try (right; exact Hcalm); apply Hpf; lia.
    + eapply d_command_starts; [reflexivity| |].
      * rewrite <- (app_nil_r t). apply dexpr_match; [exact Ht|exact Hg|apply good_nil|exact I].
      * apply has_random_total in Hran. pose proof (dexpr_length _ _ Ht). lia.
  - (* D with comparison *) apply good_app in Hg as (G1 & G2). apply starts_other; [apply good_app; auto|eapply dexpr_not_c; eassumption|].
    assert (forall x, 97 <= x <= 122 -> x <> 100 -> pf x (t ++ u)) as Hpf.
    { intros x X1 X2. apply pf_app; [eapply pf_dexpr; eassumption|eapply pf_target; eassumption|right]. rewrite <- (app_nil_r u). eapply target_closed, Hu. }
    assert (good (t ++ u)) as Hg by (apply good_app; auto).
    eexists [ERef BRollComp; ERef BRollList; ERef RRollComp; ERef RRollList; ERef URollComp; ERef URollExpr], (ERef DRollCompCommand), _. split; [reflexivity|]. split.
    + repeat constructor; [apply Fl_b_comp|apply Fl_b_list|apply Fl_r_comp|apply Fl_r_list|apply Fl_u_comp|apply Fl_u_expr]; try exact Hg; try left; apply Hpf; lia.
    + destruct (target_head _ _ _ Hu) as (d & u' & Eu & Hdd).
      eapply (d_command_starts DRollCompCommand CDRollComp DRollComp _ _ (total dcount e)); [reflexivity| |].
      * eapply (compare_match (fun n => n) DRollExprAdditive); [reflexivity|exact Hu|exact G2|]. apply dexprA_match; [exact Ht|exact G1|exact G2|]. rewrite Eu. cbn. apply nA_symbol. lia.
      * apply has_random_total in Hran. pose proof (dexpr_length _ _ Ht). rewrite app_length in Hlt. lia.
  - (* B *) apply good_app in Hg as (G1 & G2). apply starts_other; [apply good_app; auto|eapply roll_not_c; eassumption|].
    assert (Forall calm (t ++ u)) as Hcalm.
    { apply Forall_app. split; [eapply chars_roll|eapply chars_rolls]; try exact calm_sym; try exact calm_brackets; try exact calm_letters; try eassumption; intros y; apply calm_word; vm_compute; split; discriminate. }
    eexists [ERef BRollComp], (ERef BRollList), _. split; [reflexivity|]. split.
    + repeat constructor. apply Fl_b_comp; [apply good_app; auto|right; right; exact Hcalm].
    + eapply M_starts. rewrite <- (app_nil_r u). apply b_list_match; try assumption; exact I.
  - (* B with comparison *) rewrite !good_app in Hg. destruct Hg as (G1 & G2 & G3). apply starts_other; [rewrite !good_app; auto|eapply roll_not_c; eassumption|].
    eexists [], (ERef BRollComp), _. split; [reflexivity|]. split; [constructor|].
    destruct (target_head _ _ _ H3) as (d & v' & Ev & Hdd).
    eapply M_starts. rewrite app_assoc. eapply (compare_match (NCommand CBRollComp) BRollList); [reflexivity|exact H3|exact G3|]. rewrite <- app_assoc.
    apply b_list_match; try assumption; [apply good_head, G3|rewrite Ev; cbn; unfold is_digit; lia|rewrite Ev; cbn; lia].
  - (* R *) pose proof Hg as Hg0. rewrite !good_app in Hg. destruct Hg as (G1 & G2 & G3). apply starts_other; [exact Hg0|eapply roll_not_c; eassumption|].
    assert (Forall calm (t ++ u ++ v)) as Hcalm.
    { repeat (apply Forall_app; split); [eapply chars_roll|eapply chars_rolls|eapply chars_threshold]; try exact calm_sym; try exact calm_brackets; try exact calm_letters; try eassumption; intros y; apply calm_word; vm_compute; split; discriminate. }
    assert (pf 98 (t ++ u ++ v)) as Hpf.
    { refine (proj1 (_ : clean 98 _)). repeat apply clean_app; [eapply clean_roll|eapply clean_rolls|eapply clean_threshold]; try eassumption; try lia; vm_compute; discriminate. }
    eexists [ERef BRollComp; ERef BRollList; ERef RRollComp], (ERef RRollList), _. split; [reflexivity|]. split.
    + repeat constructor; [apply Fl_b_comp|apply Fl_b_list|apply Fl_r_comp]; try exact Hg0; try exact Hpf; [left; exact Hpf|right; exact Hcalm].
    + eapply M_starts. rewrite <- (app_nil_r v). eapply (r_list_match KR "r" RRoll); [reflexivity|reflexivity|vm_compute; split; discriminate|exact H1|exact H2|exact H3|assumption..|exact I|].
      intros _. repeat split. apply Fl_seq0, Fl_lit. exact I.
  - (* R with comparison *) pose proof Hg as Hg0. rewrite !good_app in Hg. destruct Hg as (G1 & G2 & G3 & G4). apply starts_other; [exact Hg0|eapply roll_not_c; eassumption|].
    destruct (target_head _ _ _ H4) as (d & w' & Ew & Hdd).
    assert (pf 98 (t ++ u ++ v ++ w)) as Hpf.
    { assert (clean 98 (t ++ u ++ v)) as (P1 & P2) by (repeat apply clean_app; [eapply clean_roll|eapply clean_rolls|eapply clean_threshold]; try eassumption; try lia; vm_compute; discriminate).
      replace (t ++ u ++ v ++ w) with ((t ++ u ++ v) ++ w) by (rewrite <- !app_assoc; reflexivity). apply pf_app; [exact P1|eapply pf_target; [|exact H4]; lia|left; exact P2]. }
    eexists [ERef BRollComp; ERef BRollList], (ERef RRollComp), _. split; [reflexivity|]. split.
    + repeat constructor; [apply Fl_b_comp|apply Fl_b_list]; try exact Hg0; try exact Hpf; left; exact Hpf.
    + eapply M_starts. replace (t ++ u ++ v ++ w) with ((t ++ u ++ v) ++ w) by (rewrite <- !app_assoc; reflexivity).
      eapply (compare_match (NCommand CRRollComp) RRollList); [reflexivity|exact H4|exact G4|]. rewrite <- !app_assoc.
      eapply (r_list_match KR "r" RRoll); [reflexivity|reflexivity|vm_compute; split; discriminate|exact H1|exact H2|exact H3|assumption..|apply good_head, G4|].
      intros _. rewrite Ew. cbn [not_head]. split; [unfold is_digit; lia|]. split; [lia|]. apply Fl_seq0, Fl_lit. cbn [runes not_head]. intros E. rewrite E in Hdd. vm_compute in Hdd. destruct Hdd as (A & _). apply A. reflexivity.
  - (* U *) pose proof Hg as Hg0. rewrite !good_app in Hg. destruct Hg as (G1 & G2 & G3 & G4). apply starts_other; [exact Hg0|eapply roll_not_c; eassumption|].
    assert (Forall calm (t ++ u ++ v ++ w)) as Hcalm.
    { repeat (apply Forall_app; split); [eapply chars_roll|eapply chars_rolls|eapply chars_threshold|eapply chars_bonus]; try exact calm_sym; try exact calm_brackets; try exact calm_letters; try eassumption; intros y; apply calm_word; vm_compute; split; discriminate. }
    assert (forall x, 97 <= x <= 122 -> x <> 117 -> pf x (t ++ u ++ v ++ w)) as Hpf.
    { intros x X1 X2. assert (clean x (t ++ u ++ v)) as (P1 & P2) by (repeat apply clean_app; [eapply clean_roll|eapply clean_rolls|eapply clean_threshold]; try eassumption; exact (not_eq_sym X2)).
      replace (t ++ u ++ v ++ w) with ((t ++ u ++ v) ++ w) by (rewrite <- !app_assoc; reflexivity). apply pf_app; [exact P1|eapply pf_bonus; eassumption|left; exact P2]. }
    eexists [ERef BRollComp; ERef BRollList; ERef RRollComp; ERef RRollList; ERef URollComp], (ERef URollExpr), _. split; [reflexivity|]. split.
    + repeat constructor; [apply Fl_b_comp|apply Fl_b_list|apply Fl_r_comp|apply Fl_r_list|apply Fl_u_comp]; try exact Hg0; try (right; exact Hcalm); try left; apply Hpf; lia.
    + eapply M_starts. rewrite <- (app_nil_r w). apply u_expr_match; try assumption; try exact I. apply good_nil.
  - (* U with comparison *) pose proof Hg as Hg0. rewrite !good_app in Hg. destruct Hg as (G1 & G2 & G3 & G4 & G5). apply starts_other; [exact Hg0|eapply roll_not_c; eassumption|].
    destruct (target_head _ _ _ H5) as (d & x' & Ex & Hdd).
    assert (forall y, 97 <= y <= 122 -> y <> 117 -> pf y (t ++ u ++ v ++ w ++ x)) as Hpf.
    { intros y X1 X2. assert (clean y (t ++ u ++ v)) as (P1 & P2) by (repeat apply clean_app; [eapply clean_roll|eapply clean_rolls|eapply clean_threshold]; try eassumption; exact (not_eq_sym X2)).
      replace (t ++ u ++ v ++ w ++ x) with ((t ++ u ++ v) ++ w ++ x) by (rewrite <- !app_assoc; reflexivity). apply pf_app; [exact P1| |left; exact P2].
      apply pf_app; [eapply pf_bonus; eassumption|eapply pf_target; eassumption|right]. rewrite <- (app_nil_r x). eapply target_closed, H5. }
    eexists [ERef BRollComp; ERef BRollList; ERef RRollComp; ERef RRollList], (ERef URollComp), _. split; [reflexivity|]. split.
    + repeat constructor; [apply Fl_b_comp|apply Fl_b_list|apply Fl_r_comp|apply Fl_r_list]; try exact Hg0; try left; apply Hpf; lia.
    + eapply M_starts. replace (t ++ u ++ v ++ w ++ x) with ((t ++ u ++ v ++ w) ++ x) by (rewrite <- !app_assoc; reflexivity).
      eapply (compare_match (NCommand CURollComp) URollExpr); [reflexivity|exact H5|exact G5|]. rewrite <- !app_assoc.
      apply u_expr_match; try assumption; try (rewrite Ex; cbn [not_head]); [apply nA_symbol; lia|lia|unfold opener, is_digit; lia|].
      rewrite <- Ex. eapply pf_target; [|exact H5]; lia.
Qed.

(** The parser accepts exactly the language of SpecGrammar.v. *)
Theorem parse_iff input n : Z.of_nat (String.length input) < two63 ->
  (parse_command input = Ok n <->
   exists c t rest, n = command_tree c /\ spells c t /\ decode input = t ++ rest /\ valid t /\ valid_head rest /\ (may_be_followed c \/ rest = [])).
Proof.
  intros Hlen. split; [apply parse_sound|]. intros (c & t & rest & -> & H1 & H2 & H3 & H4 & H5). eapply parse_complete; eassumption.
Qed.
