(** Completeness of the parser, concluded: commands. *)
From Verif Require Import Grammar ProofBase SpecSyntax SpecGrammar TextFacts PegProofs GrammarSound PegTotal PegForward ParseSound ParseComplete ParseLang.
Open Scope list_scope.
Open Scope Z_scope.

(** ** Characters of expressions *)
Section Chars.
  Variable ok : gochar -> Prop.
  Hypothesis ok_sym : forall c, 40 <= gc_rune c <= 57 -> ok c.
  Hypothesis ok_brackets : forall c, gc_rune c = 91 \/ gc_rune c = 93 -> ok c.
  Hypothesis ok_letter : forall c, to_lower (gc_rune c) = 100 \/ to_lower (gc_rune c) = 117 \/ to_lower (gc_rune c) = 114 -> ok c.
  Lemma chars_word a o : word (String a EmptyString) o -> 40 <= Z.of_N (N_of_ascii a) <= 57 -> Forall ok o.
  Proof. intros H Ha. apply word_one in H as (c & -> & E). repeat constructor. apply ok_sym. lia. Qed.
  Lemma chars_bracket a o : word (String a EmptyString) o -> Z.of_N (N_of_ascii a) = 91 \/ Z.of_N (N_of_ascii a) = 93 -> Forall ok o.
  Proof. intros H Ha. apply word_one in H as (c & -> & E). repeat constructor. apply ok_brackets. lia. Qed.
  Lemma chars_number x t : sp_number x t -> Forall ok t.
  Proof. intros (_ & Hd & _). eapply Forall_impl; [|exact Hd]. intros c Hc. apply ok_sym. unfold is_digit in Hc. lia. Qed.
  Ltac go := repeat (apply Forall_app; split); try assumption; try (eapply chars_word; [eassumption|vm_compute; split; discriminate]);
    try (eapply chars_bracket; [eassumption|vm_compute; tauto]);
    try match goal with H : word_i _ ?u |- Forall ok ?u => let c := fresh in let E := fresh in symi H as c E; repeat constructor; apply ok_letter; rewrite E; tauto end.
  Lemma chars_arith {L} (leaf : L -> text -> Prop) : (forall x t, leaf x t -> Forall ok t) ->
    (forall e t, sp_prim leaf e t -> Forall ok t) /\ (forall e t, sp_mul leaf e t -> Forall ok t) /\ (forall e t, sp_add leaf e t -> Forall ok t).
  Proof. intros Hl. apply (sp_arith_mut L leaf); intros; try assumption; try (eapply Hl; eassumption); go. Qed.
  Lemma chars_int e t : sp_int e t -> Forall ok t.
  Proof. apply (chars_arith sp_number chars_number). Qed.
  Lemma chars_bound e t : sp_bound e t -> Forall ok t.
  Proof. intros H. destruct H; [eapply chars_number; eassumption|]. go. eapply chars_int; eassumption. Qed.
  Lemma chars_random lo hi t : sp_random lo hi t -> Forall ok t.
  Proof.
    intros H. destruct H as [lo hi o s d t c Ho Hs Hd Ht Hc]. go; try (eapply chars_bound; eassumption).
    unfold word in Hd. destruct d as [|d1 [|d2 [|d3 [|? ?]]]]; try discriminate. cbn [map codes] in Hd. injection Hd as E1 E2 E3. norm_eq E1. norm_eq E2. norm_eq E3.
    repeat constructor; apply ok_sym; lia.
  Qed.
  Lemma chars_rleaf x t : sp_rleaf x t -> Forall ok t.
  Proof. destruct x; cbn; [apply chars_number|apply chars_random]. Qed.
  Lemma chars_operand e t : sp_operand e t -> Forall ok t.
  Proof. intros H. destruct H; [eapply chars_rleaf; eassumption|]. go. eapply (chars_arith sp_rleaf chars_rleaf); eassumption. Qed.
  Lemma chars_roll w r t : (forall u, word_i w u -> Forall ok u) -> sp_roll w r t -> Forall ok t.
  Proof. intros Hw H. destruct H. repeat (apply Forall_app; split); [eapply chars_operand; eassumption|auto|eapply chars_operand; eassumption]. Qed.
  Lemma chars_rolls w rs t : (forall u, word_i w u -> Forall ok u) -> sp_rolls w rs t -> Forall ok t.
  Proof. intros Hw H. induction H; [constructor|]. go. eapply chars_roll; eassumption. Qed.
  Lemma chars_dexpr e t : sp_dexpr e t -> Forall ok t.
  Proof.
    apply chars_arith. intros x u. destruct x; cbn; [apply chars_number|apply chars_random|apply chars_roll].
    intros w Hw. symi Hw as c E. repeat constructor. apply ok_letter. tauto.
  Qed.
  Lemma chars_threshold th t : sp_threshold th t -> Forall ok t.
  Proof. intros H. destruct H; [constructor|]. go. eapply chars_int; eassumption. Qed.
  Lemma chars_bonus b t : sp_bonus b t -> Forall ok t.
  Proof. intros H. destruct H; [constructor| |]; go; eapply chars_int; eassumption. Qed.
End Chars.

(** no comparison *)
Definition calm (c : gochar) : Prop := ~ 60 <= gc_rune c <= 62.
Lemma calm_letter c a : 97 <= a <= 122 -> to_lower (gc_rune c) = a -> calm c.
Proof. intros Ha H1 H2. rewrite lower_ascii in H1 by lia. lia. Qed.
Lemma calm_word a u : 97 <= Z.of_N (N_of_ascii a) <= 122 -> word_i (String a EmptyString) u -> Forall calm u.
Proof. intros Ha H. apply word_i_one in H as (c & -> & E). repeat constructor. eapply calm_letter; [exact Ha|exact E]. Qed.
Section Calm.
  Lemma calm_sym c : 40 <= gc_rune c <= 57 -> calm c. Proof. unfold calm. lia. Qed.
  Lemma calm_brackets c : gc_rune c = 91 \/ gc_rune c = 93 -> calm c. Proof. unfold calm. lia. Qed.
  Lemma calm_letters c : to_lower (gc_rune c) = 100 \/ to_lower (gc_rune c) = 117 \/ to_lower (gc_rune c) = 114 -> calm c.
  Proof. intros [H|[H|H]]; (eapply calm_letter; [|exact H]; lia). Qed.
End Calm.
Lemma op_head op o : is_compare_op op -> word op o -> exists c o', o = c :: o' /\ 60 <= gc_rune c <= 62.
Proof.
  intros Hop Hw. unfold word in Hw. destruct o as [|c o']; [cbn in Hop; decompose [or] Hop; subst; try contradiction; discriminate|].
  exists c, o'. split; [reflexivity|]. cbn in Hop. decompose [or] Hop; subst; try contradiction; injection Hw as E _; norm_eq E; lia.
Qed.
Lemma target_head op g t : sp_target op g t -> exists c t', t = c :: t' /\ 60 <= gc_rune c <= 62.
Proof. intros H. destruct H as [op e o t Hop Ho He]. destruct (op_head _ _ Hop Ho) as (c & o' & -> & E). cbn [app]. eauto. Qed.
Lemma target_not_calm op g t l a : sp_target op g t -> ~ Forall calm (a ++ t ++ l).
Proof. intros H Hc. destruct (target_head _ _ _ H) as (c & t' & -> & E). apply Forall_app in Hc as (_ & Hc). inversion Hc as [|? ? H1 _]. unfold calm in H1. lia. Qed.

(** ** Letters before operands *)
Section Pairs.
  Variable x : Z.
  Hypothesis Hx : 97 <= x <= 122.
  Definition is_x (c : gochar) : Prop := to_lower (gc_rune c) = x.
  Fixpoint pf (t : text) : Prop := match t with c :: t' => (is_x c -> not_head opener t') /\ pf t' | [] => True end.
  Definition not_last (t : text) : Prop := forall a c, t = a ++ [c] -> ~ is_x c.
  Lemma pf_cons c t : pf (c :: t) <-> (is_x c -> not_head opener t) /\ pf t.
  Proof. reflexivity. Qed.
  Lemma pf_app a b : pf a -> pf b -> not_last a \/ not_head opener b -> pf (a ++ b).
  Proof.
    intros Ha Hb H. induction a as [|c a IH]; [exact Hb|]. cbn [app]. apply pf_cons in Ha as (H1 & H2). apply pf_cons. split.
    - intros Hc. destruct a as [|d a]; [|exact (H1 Hc)]. destruct H as [H|H]; [|exact H]. destruct (H [] c eq_refl Hc).
    - apply IH; [exact H2|]. destruct H as [H|H]; [left|right; exact H]. intros a' d ->. exact (H (c :: a') d eq_refl).
  Qed.
  Lemma not_last_app a b : b <> [] -> not_last b -> not_last (a ++ b).
  Proof.
    intros Hne Hb p c E. destruct (exists_last Hne) as (b' & d & ->). rewrite app_assoc in E. apply app_inj_tail in E as (_ & <-). exact (Hb b' d eq_refl).
  Qed.
  Lemma not_x_sym c : 0 <= gc_rune c < 65 \/ 90 < gc_rune c < 97 -> ~ is_x c.
  Proof. intros H. unfold is_x. destruct H as [H|H]; [rewrite lower_ascii by lia|rewrite lower_ascii' by lia]; lia. Qed.
  Definition clean (t : text) : Prop := pf t /\ not_last t.
  Lemma clean_nil : clean [].
  Proof. split; [exact I|]. intros a c E. destruct a; discriminate. Qed.
  Lemma clean_one c : ~ is_x c -> clean [c].
  Proof. intros H. split; [repeat split|]. intros a d E. destruct a as [|? [|? ?]]; try discriminate. injection E as <-. exact H. Qed.
  Lemma clean_app a b : clean a -> clean b -> clean (a ++ b).
  Proof.
    intros (A1 & A2) (B1 & B2). split; [apply pf_app; auto|]. destruct b as [|c b]; [rewrite app_nil_r; exact A2|]. apply not_last_app; [discriminate|exact B2].
  Qed.
  Lemma clean_all t : Forall (fun c => ~ is_x c) t -> clean t.
  Proof. induction 1 as [|c t Hc _ IH]; [apply clean_nil|]. apply (clean_app [c] t); [apply clean_one, Hc|exact IH]. Qed.
  Lemma clean_word a o : word (String a EmptyString) o -> 0 <= Z.of_N (N_of_ascii a) < 65 \/ 90 < Z.of_N (N_of_ascii a) < 97 -> clean o.
  Proof. intros H Ha. apply word_one in H as (c & -> & E). apply clean_one, not_x_sym. lia. Qed.
  Lemma clean_letter a o : word_i (String a EmptyString) o -> Z.of_N (N_of_ascii a) <> x -> clean o.
  Proof. intros H Ha. apply word_i_one in H as (c & -> & E). apply clean_one. unfold is_x. congruence. Qed.
  Lemma clean_number v t : sp_number v t -> clean t.
  Proof. intros (_ & Hd & _). apply clean_all. eapply Forall_impl; [|exact Hd]. intros c Hc. apply not_x_sym. unfold is_digit in Hc. lia. Qed.
  Lemma word_closed a o : word (String a EmptyString) o -> Z.of_N (N_of_ascii a) <> 91 -> Z.of_N (N_of_ascii a) <> 40 -> ~ 48 <= Z.of_N (N_of_ascii a) <= 57 -> forall l, not_head opener (o ++ l).
  Proof. intros H H1 H2 H3 l. apply word_one in H as (c & -> & E). cbn. unfold opener, is_digit. lia. Qed.
  Lemma letter_closed a o : word_i (String a EmptyString) o -> 97 <= Z.of_N (N_of_ascii a) <= 122 -> forall l, not_head opener (o ++ l).
  Proof. intros H Ha l. apply word_i_one in H as (c & -> & E). cbn. unfold opener, is_digit. intros Hc. assert (to_lower (gc_rune c) = gc_rune c) as E1; [|lia]. destruct Hc as [Hc|[Hc|Hc]]; [apply lower_ascii; lia|apply lower_ascii'; lia|apply lower_ascii; lia]. Qed.
  Ltac cw := first [eapply clean_word; [eassumption|vm_compute; tauto] | eapply clean_word; [eassumption|left; vm_compute; split; [discriminate|reflexivity]] | eapply clean_word; [eassumption|right; vm_compute; split; reflexivity]].
  Ltac closed := eapply word_closed; [eassumption|discriminate|discriminate|vm_compute; intros (H1 & H2); first [apply H1; reflexivity | apply H2; reflexivity]].
  Lemma pf_arith {L} (leaf : L -> text -> Prop) : (forall v t, leaf v t -> clean t) ->
    (forall e t, sp_prim leaf e t -> clean t) /\ (forall e t, sp_mul leaf e t -> pf t) /\ (forall e t, sp_add leaf e t -> pf t).
  Proof.
    intros Hl. apply (sp_arith_mut L leaf).
    - exact Hl.
    - intros e s t Hs _ Ht. apply clean_app; [cw|exact Ht].
    - intros e s t Hs _ Ht. apply clean_app; [cw|exact Ht].
    - intros e o t c Ho _ Ht Hc. assert (clean o) as (O1 & O2) by cw. assert (clean c) as (C1 & C2) by cw. split.
      + apply pf_app; [exact O1| |left; exact O2]. apply pf_app; [exact Ht|exact C1|right]. rewrite <- (app_nil_r c). closed.
      + rewrite app_assoc. apply not_last_app; [apply word_one in Hc as (c0 & -> & _); discriminate|exact C2].
    - intros e t _ (H & _). exact H.
    - intros a b s t o _ Hs Ho _ (T1 & T2). assert (clean o) as (O1 & O2) by cw. apply pf_app; [exact Hs|apply pf_app; auto|right; closed].
    - intros a b s t o _ Hs Ho _ (T1 & T2). assert (clean o) as (O1 & O2) by cw. apply pf_app; [exact Hs|apply pf_app; auto|right; closed].
    - intros a b s t o u _ Hs Ho _ (T1 & T2) Hu. assert (clean o) as (O1 & O2) by cw. apply pf_app; [exact Hs| |right; closed]. apply pf_app; [exact O1| |auto].
      apply pf_app; [exact T1|symi Hu as c E; repeat split|auto].
    - intros a b s t o u _ Hs Ho _ (T1 & T2) Hu. assert (clean o) as (O1 & O2) by cw. apply pf_app; [exact Hs| |right; closed]. apply pf_app; [exact O1| |auto].
      apply pf_app; [exact T1|symi Hu as c E; repeat split|auto].
    - auto.
    - intros a b s t o _ Hs Ho _ Ht. assert (clean o) as (O1 & O2) by cw. apply pf_app; [exact Hs|apply pf_app; auto|right; closed].
    - intros a b s t o _ Hs Ho _ Ht. assert (clean o) as (O1 & O2) by cw. apply pf_app; [exact Hs|apply pf_app; auto|right; closed].
  Qed.
  Lemma clean_paren o t c : word "(" o -> pf t -> word ")" c -> clean (o ++ t ++ c).
  Proof.
    intros Ho Ht Hc. assert (clean o) as (O1 & O2) by cw. assert (clean c) as (C1 & C2) by cw. split.
    - apply pf_app; [exact O1| |left; exact O2]. apply pf_app; [exact Ht|exact C1|right]. rewrite <- (app_nil_r c). closed.
    - rewrite app_assoc. apply not_last_app; [apply word_one in Hc as (c0 & -> & _); discriminate|exact C2].
  Qed.
  Lemma pf_int e t : sp_int e t -> pf t.
  Proof. apply (pf_arith sp_number clean_number). Qed.
  Lemma clean_bound e t : sp_bound e t -> clean t.
  Proof. intros H. destruct H; [eapply clean_number; eassumption|apply clean_paren; try assumption; eapply pf_int; eassumption]. Qed.
  Lemma clean_random lo hi t : sp_random lo hi t -> clean t.
  Proof.
    intros H. destruct H as [lo hi o s d t c Ho Hs Hd Ht Hc]. repeat apply clean_app; try cw; try (eapply clean_bound; eassumption).
    unfold word in Hd. destruct d as [|d1 [|d2 [|d3 [|? ?]]]]; try discriminate. cbn [map codes] in Hd. injection Hd as E1 E2 E3. norm_eq E1. norm_eq E2. norm_eq E3.
    apply clean_all. repeat constructor; apply not_x_sym; lia.
  Qed.
  Lemma clean_rleaf v t : sp_rleaf v t -> clean t.
  Proof. destruct v; cbn; [apply clean_number|apply clean_random]. Qed.
  Lemma clean_operand e t : sp_operand e t -> clean t.
  Proof. intros H. destruct H; [eapply clean_rleaf; eassumption|apply clean_paren; try assumption; eapply (pf_arith sp_rleaf clean_rleaf); eassumption]. Qed.
  Lemma clean_roll a r t : Z.of_N (N_of_ascii a) <> x -> sp_roll (String a EmptyString) r t -> clean t.
  Proof. intros Ha H. destruct H. repeat apply clean_app; [eapply clean_operand; eassumption|eapply clean_letter; eassumption|eapply clean_operand; eassumption]. Qed.
  Lemma clean_rolls a rs t : Z.of_N (N_of_ascii a) <> x -> sp_rolls (String a EmptyString) rs t -> clean t.
  Proof. intros Ha H. induction H; [apply clean_nil|]. repeat apply clean_app; [cw|eapply clean_roll; eassumption|assumption]. Qed.
  Lemma pf_dexpr e t : x <> 100 -> sp_dexpr e t -> pf t.
  Proof.
    intros Hd. apply pf_arith. intros v u. destruct v; cbn; [apply clean_number|apply clean_random|]. apply clean_roll. intros E. apply Hd. rewrite <- E. reflexivity.
  Qed.
  Lemma clean_threshold th t : sp_threshold th t -> clean t.
  Proof.
    intros H. destruct H as [|e o t c Ho He Hc]; [apply clean_nil|]. pose proof (pf_int _ _ He) as Ht. assert (clean o) as (O1 & O2) by cw. assert (clean c) as (C1 & C2) by cw. split.
    - apply pf_app; [exact O1| |left; exact O2]. apply pf_app; [exact Ht|exact C1|right]. rewrite <- (app_nil_r c). closed.
    - rewrite app_assoc. apply not_last_app; [apply word_one in Hc as (c0 & -> & _); discriminate|exact C2].
  Qed.
  Lemma pf_bonus b t : sp_bonus b t -> pf t.
  Proof. intros H. destruct H as [|e o t Ho He|e o t Ho He]; [exact I| |]; pose proof (pf_int _ _ He) as Ht; assert (clean o) as (O1 & O2) by cw; apply pf_app; auto. Qed.
  Lemma pf_target op g t : sp_target op g t -> pf t.
  Proof.
    intros H. destruct H as [op e o t Hop Ho He]. pose proof (pf_int _ _ He) as Ht. assert (clean o) as (O1 & O2); [|apply pf_app; auto].
    apply clean_all. unfold word in Ho. assert (Forall (fun z => 0 <= z < 65) (codes op)) as Hc.
    { cbn in Hop. decompose [or] Hop; subst; try contradiction; vm_compute; repeat constructor; discriminate. }
    rewrite <- Ho in Hc. rewrite Forall_map in Hc. eapply Forall_impl; [|exact Hc]. intros c Hc'. apply not_x_sym. cbn in Hc'. lia.
  Qed.
  Lemma target_closed op g t l : sp_target op g t -> not_head opener (t ++ l).
  Proof. intros H. destruct (target_head _ _ _ H) as (c & t' & -> & E). cbn. unfold opener, is_digit. lia. Qed.
  (** a text without such pairs does not begin with a roll of that letter *)
  Lemma pf_no_roll a r t l : Z.of_N (N_of_ascii a) = x -> sp_roll (String a EmptyString) r t -> ~ pf (t ++ l).
  Proof.
    intros Ha H Hp. destruct H as [n s t u v H1 H2 H3]. destruct (operand_head _ _ H3) as (d & v' & -> & Hd). apply word_i_one in H2 as (c & -> & E).
    rewrite <- !app_assoc in Hp. cbn [app] in Hp. assert (pf (c :: d :: v' ++ l)) as Hp'.
    { clear -Hp. induction t as [|b t IH]; [exact Hp|]. apply IH. cbn [app] in Hp. apply pf_cons in Hp. apply Hp. }
    apply pf_cons in Hp' as (Hp' & _). apply Hp'; [unfold is_x; congruence|exact Hd].
  Qed.
End Pairs.

(** ** Lists of rolls *)
Definition roll_item_expr (r : rule) : expr rule := ESeq [lit "+"; ERef r].
Fixpoint rolls_count (rs : list roll) : Z := match rs with [] => 0 | r :: rs' => roll_count r + rolls_count rs' end.
Lemma rolls_head w rs u l : sp_rolls w rs u -> not_head is_digit l -> not_head is_digit (u ++ l).
Proof. intros H Hl. destruct H as [|r rs o t u Ho _ _]; [exact Hl|]. sym Ho as c E. unfold is_digit. lia. Qed.
Lemma rolls_match k a r rs u : rules r = roll_rule k (String a EmptyString) -> 97 <= Z.of_N (N_of_ascii a) <= 122 -> sp_rolls (String a EmptyString) rs u ->
  good u -> forall l, valid_head l -> not_head is_digit l -> Fl (roll_item_expr r) l ->
  exists vs, Mr (roll_item_expr r) (u ++ l) vs l (rolls_count rs) /\ forall K done, rolls_loop K done vs = AVal (VNode (K (done ++ map (roll_tree k) rs))).
Proof.
  intros Hr Ha H. induction H as [|rl rs o t u Ho Ht Hu IH]; intros Hg l Hv Hn Hl.
  - exists []. split; [apply Mr_stop, Hl|]. intros K done. cbn. rewrite app_nil_r. reflexivity.
  - rewrite !good_app in Hg. destruct Hg as (G1 & G2 & G3). destruct (IH G3 l Hv Hn Hl) as (vs & H1 & H2).
    exists (VSlice [VBytes "+"; VNode (NInfix (OpVar k) (rtree (fst rl)) (rtree (snd rl)))] :: vs). split.
    + rewrite <- !app_assoc. cbn [rolls_count]. eapply Mr_more; [|exact H1].
      eapply M_D with (D := ([] ++ []) ++ []) (j := 0 + (roll_count rl + 0)); [|reflexivity|lia].
      assert (valid_head (u ++ l)) as V1 by (apply vh_app; assumption).
      apply M_seq. eapply Ms_cons; [apply M_one; [exact Ho|reflexivity|exact G1|apply vh_app; assumption]|].
      eapply Ms_cons; [eapply roll_match; [exact Hr|exact Ha|exact Ht|exact G2|exact V1|]|apply Ms_nil]. eapply rolls_head; eassumption.
    + intros K done. cbn [rolls_loop to_iface_slice abind slice_elems index nth_error as_vroll]. rewrite H2, <- app_assoc. reflexivity.
Qed.

(** ** Comparison operators *)
Lemma int_head e t : sp_int e t -> forall l, not_head (fun c => 60 <= gc_rune c <= 62) (t ++ l).
Proof.
  intros H l. pose proof (chars_int calm calm_sym calm_brackets calm_letters e t H) as Hc. destruct t as [|c t].
  - exfalso. assert ((forall e t, sp_prim sp_number e t -> t <> []) /\ (forall e t, sp_mul sp_number e t -> t <> []) /\ (forall e t, sp_add sp_number e t -> t <> [])) as (_ & _ & Hne).
    { apply (sp_arith_mut Z sp_number); intros; try assumption; try (intros E; repeat (apply app_eq_nil in E as (? & E)); contradiction).
      - destruct H0. assumption. }
    exact (Hne _ _ H eq_refl).
  - inversion Hc as [|? ? H1 _]. exact H1.
Qed.
Lemma compare_op_match op o l : is_compare_op op -> word op o -> good o -> valid_head l -> not_head (fun c => 60 <= gc_rune c <= 62) l ->
  M (ERef CompareOp) (o ++ l) [] (VBytes op) l 0.
Proof.
  intros Hop Ho (Gv & Gp) Hv Hn. eapply M_ref. apply M_choice.
  assert (forall w, word w o -> forallb (fun z => z <? 128) (codes w) = true -> M (lit w) (o ++ l) [] (VBytes w) l 0) as Hm by (intros w H1 H2; apply M_lit; assumption).
  assert (forall x w c, not_head (fun c => gc_rune c = w) l -> Fl (ELit [x; w] false) (c :: l)) as Hf2.
  { intros x w c H. apply Fl_ELit2; [exact Hv|exact H]. }
  assert (not_head (fun c => gc_rune c = 61) l) as N61 by (eapply not_head_sub; [|exact Hn]; cbn; lia).
  assert (not_head (fun c => gc_rune c = 62) l) as N62 by (eapply not_head_sub; [|exact Hn]; cbn; lia).
  cbn in Hop. decompose [or] Hop; subst; try contradiction.
  - eapply Mc_here, Hm; [exact Ho|reflexivity].
  - apply Mc_next; [|eapply Mc_here, Hm; [exact Ho|reflexivity]]. apply Fl_lit.
    destruct o as [|c o]; [discriminate|]. injection Ho as E _. norm_eq E. cbn [app runes not_head]. rewrite E. discriminate.
  - destruct o as [|c [|d [|? ?]]]; try discriminate. unfold word in Ho. pose proof Ho as Ho'. cbn [map codes] in Ho'. injection Ho' as E1 E2. norm_eq E1. norm_eq E2.
    apply Mc_next; [|apply Mc_next; [|eapply Mc_here, Hm; [exact Ho|reflexivity]]].
    + apply Fl_lit. cbn [app runes not_head]. rewrite E1. discriminate.
    + apply Fl_ELit2; [cbn; inversion Gv as [|? ? _ Gv']; inversion Gv'; assumption|]. cbn [app not_head]. rewrite E2. discriminate.
  - destruct o as [|c [|? ?]]; try discriminate. unfold word in Ho. pose proof Ho as Ho'. cbn [map codes] in Ho'. injection Ho' as E1. norm_eq E1.
    apply Mc_next; [|apply Mc_next; [|apply Mc_next; [|eapply Mc_here, Hm; [exact Ho|reflexivity]]]].
    + apply Fl_lit. cbn [app runes not_head]. rewrite E1. discriminate.
    + apply Hf2. exact N62.
    + apply Hf2. exact N61.
  - destruct o as [|c [|d [|? ?]]]; try discriminate. unfold word in Ho. pose proof Ho as Ho'. cbn [map codes] in Ho'. injection Ho' as E1 E2. norm_eq E1. norm_eq E2.
    apply Mc_next; [|apply Mc_next; [|apply Mc_next; [|apply Mc_next; [|eapply Mc_here, Hm; [exact Ho|reflexivity]]]]];
      apply Fl_lit; cbn [app runes not_head]; rewrite E1; discriminate.
  - destruct o as [|c [|? ?]]; try discriminate. unfold word in Ho. pose proof Ho as Ho'. cbn [map codes] in Ho'. injection Ho' as E1. norm_eq E1.
    apply Mc_next; [|apply Mc_next; [|apply Mc_next; [|apply Mc_next; [|apply Mc_next; [|eapply Mc_here, Hm; [exact Ho|reflexivity]]]]]].
    1-4: apply Fl_lit; cbn [app runes not_head]; rewrite E1; discriminate.
    apply Hf2. exact N61.
Qed.
Lemma compare_match wrap left r n j t op g u : rules r = compare_rule wrap left -> sp_target op g u -> good u ->
  (M (ERef left) (t ++ u) [] (VNode n) u j) -> M (ERef r) (t ++ u) [] (VNode (wrap (NInfix (OpCmp op) n (itree g)))) [] j.
Proof.
  intros Hr Hg Gu Hl. destruct Hg as [op e o w Hop Ho He]. apply good_app in Gu as (G1 & G2).
  eapply M_j with (j := j + (0 + (0 + 0))); [|lia]. eapply M_rule; [exact Hr| |].
  - apply M_seq. eapply Ms_cons; [eapply M_label, Hl|].
    eapply Ms_cons; [eapply M_label, compare_op_match; [exact Hop|exact Ho|exact G1|apply good_head, G2|]|].
    { rewrite <- (app_nil_r w). eapply int_head, He. }
    eapply Ms_cons; [|apply Ms_nil]. eapply M_label. rewrite <- (app_nil_r w) at 1. apply int_ok; [exact He|exact G2|exact I|exact I].
  - intros st. reflexivity.
Qed.

(** ** B rolls *)
Lemma b_list_match r rs t u l : sp_roll "b" r t -> sp_rolls "b" rs u -> good t -> good u -> valid_head l -> not_head is_digit l -> not_head (fun c => gc_rune c = 43) l ->
  M (ERef BRollList) (t ++ u ++ l) [] (VNode (command_tree (BList r rs))) l (roll_count r + rolls_count rs).
Proof.
  intros Hr Hrs G1 G2 Hv Hn Hp.
  assert (Fl (roll_item_expr BRoll) l) as Hf by (apply Fl_seq0, Fl_lit; exact Hp).
  destruct (rolls_match KB _ BRoll rs u eq_refl ltac:(vm_compute; split; discriminate) Hrs G2 l Hv Hn Hf) as (vs & H1 & H2).
  eapply M_j with (j := roll_count r + (rolls_count rs + 0)); [|lia]. eapply M_rule; [reflexivity| |].
  - apply M_seq. eapply Ms_cons; [eapply M_label, (roll_match KB); [reflexivity|vm_compute; split; discriminate|exact Hr|exact G1|apply vh_app; assumption|eapply rolls_head; eassumption]|].
    eapply Ms_cons; [eapply M_label, M_star, H1|apply Ms_nil].
  - intros st. cbn [app]. unfold act_b_roll_list. cbn [lookup String.eqb Ascii.eqb Bool.eqb as_vroll abind to_iface_slice slice_elems]. rewrite H2. destruct r. reflexivity.
Qed.

(** ** R and U lists *)
Lemma threshold_match th t l : sp_threshold th t -> good t -> valid_head l -> (th = None -> not_head (fun c => gc_rune c = 91) l) ->
  exists v, M (EOpt (ESeq [lit "["; ERef IntExpr; lit "]"])) (t ++ l) [] v l 0 /\
    ((th = None /\ v = VNil) \/ exists e, th = Some e /\ v = VSlice [VBytes "["; VNode (itree e); VBytes "]"]).
Proof.
  intros H Hg Hv Hn. destruct H as [|e o t c Ho He Hc].
  - exists VNil. split; [|auto]. apply M_opt_none, Fl_seq0, Fl_lit. exact (Hn eq_refl).
  - exists (VSlice [VBytes "["; VNode (itree e); VBytes "]"]). split; [|eauto]. rewrite !good_app in Hg. destruct Hg as (G1 & G2 & G3). rewrite <- !app_assoc.
    assert (valid_head (c ++ l)) as V1 by (apply vh_app; assumption).
    eapply M_j with (j := 0 + (0 + (0 + 0))); [|lia]. eapply M_opt, M_seq.
    eapply Ms_cons; [apply M_one; [exact Ho|reflexivity|exact G1|apply vh_app; assumption]|].
    eapply Ms_cons; [apply int_ok; [exact He|exact G2|exact V1|sym Hc as d E; apply nA_symbol; lia]|].
    eapply Ms_cons; [apply M_one; [exact Hc|reflexivity|exact G3|exact Hv]|apply Ms_nil].
Qed.
Lemma r_list_match k a f r rl rs th t u v l : rules r = r_list_rule f -> rules f = roll_rule k (String a EmptyString) -> 97 <= Z.of_N (N_of_ascii a) <= 122 ->
  sp_roll (String a EmptyString) rl t -> sp_rolls (String a EmptyString) rs u -> sp_threshold th v -> good t -> good u -> good v -> valid_head l ->
  (th = None -> not_head is_digit l /\ not_head (fun c => gc_rune c = 91) l /\ Fl (roll_item_expr f) l) ->
  M (ERef r) (t ++ u ++ v ++ l) [] (VNode (NRRollList (map (roll_tree k) (rl :: rs)) (th_tree th))) l (roll_count rl + rolls_count rs).
Proof.
  intros Hr Hf Ha Ht Hu Hth G1 G2 G3 Hv Hn.
  destruct (threshold_match th v l Hth G3 Hv ltac:(intros E; apply (Hn E))) as (w & Hw & Hcase).
  assert (valid_head (v ++ l)) as V1 by (apply vh_app; assumption).
  assert (not_head is_digit (v ++ l) /\ Fl (roll_item_expr f) (v ++ l)) as (N1 & F1).
  { destruct Hth as [|e o v c Ho _ _]; [destruct (Hn eq_refl) as (A & _ & B); auto|]. split; [sym Ho as d E; unfold is_digit; lia|apply Fl_seq0, Fl_lit; sym Ho as d E; rewrite E; discriminate]. }
  destruct (rolls_match k a f rs u Hf Ha Hu G2 (v ++ l) V1 N1 F1) as (vs & H1 & H2).
  eapply M_j with (j := roll_count rl + (rolls_count rs + (0 + 0))); [|lia]. eapply M_rule; [exact Hr| |].
  - apply M_seq. eapply Ms_cons; [eapply M_label, (roll_match k); [exact Hf|exact Ha|exact Ht|exact G1|apply vh_app; assumption|eapply rolls_head; eassumption]|].
    eapply Ms_cons; [eapply M_label, M_star, H1|]. eapply Ms_cons; [eapply M_label, Hw|apply Ms_nil].
  - intros st. cbn [app]. unfold act_r_roll_list. cbn [lookup String.eqb Ascii.eqb Bool.eqb].
    destruct Hcase as [(-> & ->)|(e & -> & ->)]; cbn [to_iface_slice abind index nth_error as_node lookup String.eqb Ascii.eqb Bool.eqb as_vroll slice_elems]; rewrite H2; destruct rl; reflexivity.
Qed.

(** ** U expressions *)
Lemma bonus_match b t l : sp_bonus b t -> good t -> valid_head l -> not_head nA l ->
  exists v, M (EOpt (ESeq [EChoice [lit "+"; lit "-"]; ERef IntExprAdditive])) (t ++ l) [] v l 0 /\
    ((b = None /\ v = VNil) \/ (exists e, b = Some (true, e) /\ v = VSlice [VBytes "+"; VNode (itree e)]) \/ (exists e, b = Some (false, e) /\ v = VSlice [VBytes "-"; VNode (itree e)])).
Proof.
  intros H Hg Hv Hn. destruct H as [|e o t Ho He|e o t Ho He].
  - exists VNil. split; [|auto]. apply M_opt_none, Fl_seq0, Fl_choice. repeat constructor; apply Fl_lit; (eapply not_head_sub; [|exact Hn]); unfold nA; cbn; tauto.
  - exists (VSlice [VBytes "+"; VNode (itree e)]). split; [|right; left; eauto]. rewrite !good_app in Hg. destruct Hg as (G1 & G2). rewrite <- !app_assoc.
    eapply M_j with (j := 0 + (0 + 0)); [|lia]. eapply M_opt, M_seq.
    eapply Ms_cons; [apply M_choice; eapply Mc_here, M_one; [exact Ho|reflexivity|exact G1|apply vh_app; assumption]|].
    eapply Ms_cons; [apply intA_ok; assumption|apply Ms_nil].
  - exists (VSlice [VBytes "-"; VNode (itree e)]). split; [|right; right; eauto]. rewrite !good_app in Hg. destruct Hg as (G1 & G2). rewrite <- !app_assoc.
    eapply M_j with (j := 0 + (0 + 0)); [|lia]. eapply M_opt, M_seq.
    eapply Ms_cons; [apply M_choice, Mc_next; [apply Fl_lit; sym Ho as d E; rewrite E; discriminate|eapply Mc_here, M_one; [exact Ho|reflexivity|exact G1|apply vh_app; assumption]]|].
    eapply Ms_cons; [apply intA_ok; assumption|apply Ms_nil].
Qed.
Lemma u_expr_match r rs th b t u v w l : sp_roll "u" r t -> sp_rolls "u" rs u -> sp_threshold th v -> sp_bonus b w -> good t -> good u -> good v -> good w -> good l ->
  not_head nA l -> not_head (fun c => gc_rune c = 91) l -> not_head opener l -> pf 117 l ->
  M (ERef URollExpr) (t ++ u ++ v ++ w ++ l) [] (VNode (command_tree (UExpr r rs th b))) l (roll_count r + rolls_count rs).
Proof.
  intros Ht Hu Hth Hb G1 G2 G3 G4 Gl Hn Hn2 Hn3 Hpf. pose proof (good_head l Gl) as Hv.
  destruct (bonus_match b w l Hb G4 Hv Hn) as (x & Hx & Hcase).
  assert (not_head is_digit l) as Nd by (eapply not_head_sub; [|exact Hn]; unfold nA, nM, nI, nP; tauto).
  assert (valid_head (w ++ l)) as V1 by (apply vh_app; assumption).
  eapply M_j with (j := (roll_count r + rolls_count rs) + (0 + 0)); [|lia]. eapply M_rule; [reflexivity| |].
  - apply M_seq. eapply Ms_cons; [eapply M_label, (r_list_match KU "u" URoll); [reflexivity|reflexivity|vm_compute; split; discriminate|exact Ht|exact Hu|exact Hth|assumption..|]|].
    + intros _. pose proof Hb as Hb'. destruct Hb as [|e o w Ho He|e o w Ho He].
      * split; [exact Nd|]. split; [exact Hn2|]. apply Fl_seq0, Fl_lit. eapply not_head_sub; [|exact Hn]. unfold nA. cbn. tauto.
      * split; [sym Ho as d E; unfold is_digit; lia|]. split; [sym Ho as d E; lia|]. apply good_app in G4 as (G5 & G6).
        rewrite <- app_assoc. eapply (Fl_seq [lit "+"] (ERef URoll) []).
        { eapply Ms_cons; [apply M_one; [exact Ho|reflexivity|exact G5|apply vh_app; assumption]|apply Ms_nil]. }
        apply Fl_sound; [reflexivity|apply Forall_app; split; [apply G6|apply Gl]|apply valid_app; split; [apply G6|apply Gl]|].
        intros t' v' j' l' Heq (n & s & _ & Hroll & _). assert (pf 117 (w ++ l)) as Hp.
        { apply pf_app; [eapply pf_int; [|exact He]; lia|exact Hpf|right; exact Hn3]. }
        rewrite Heq in Hp. revert Hp. eapply pf_no_roll; [|exact Hroll]; reflexivity.
      * split; [sym Ho as d E; unfold is_digit; lia|]. split; [sym Ho as d E; lia|]. apply Fl_seq0, Fl_lit. sym Ho as d E. rewrite E. discriminate.
    + eapply Ms_cons; [eapply M_label, Hx|apply Ms_nil].
  - intros st. cbn [app]. unfold act_u_roll_expr. cbn [lookup String.eqb Ascii.eqb Bool.eqb].
    destruct Hcase as [(-> & ->)|[(e & -> & ->)|(e & -> & ->)]]; reflexivity.
Qed.
