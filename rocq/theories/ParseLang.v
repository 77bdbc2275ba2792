(** Completeness of the parser, continued: the three kinds of expressions, rolls, lists and commands. *)
From Verif Require Import Grammar ProofBase SpecSyntax SpecGrammar TextFacts PegProofs GrammarSound PegTotal PegForward ParseComplete.
Open Scope list_scope.
Open Scope Z_scope.

Lemma vh_app t l : good t -> valid_head l -> valid_head (t ++ l).
Proof. exact (good_vh t l). Qed.
Lemma good_app' t l : good t -> good l -> good (t ++ l).
Proof. intros. apply good_app. auto. Qed.

(** ** Failing at the first character *)
Lemma Fl_random l : not_head (fun c => gc_rune c = 91) l -> Fl (ERef RandomNumber) l.
Proof. intros H. eapply Fl_rule; [reflexivity|]. apply Fl_seq0, Fl_lit. exact H. Qed.
Lemma Fl_paren r f l : rules r = parenthesized f -> not_head (fun c => gc_rune c = 40) l -> Fl (ERef r) l.
Proof. intros Hr H. eapply Fl_rule; [exact Hr|]. apply Fl_seq0, Fl_lit. exact H. Qed.
Lemma Fl_unary_plus r f l : rules r = unary_plus f -> not_head (fun c => gc_rune c = 43) l -> Fl (ERef r) l.
Proof. intros Hr H. eapply Fl_rule; [exact Hr|]. apply Fl_seq0, Fl_lit. exact H. Qed.
Lemma Fl_unary_minus r f l : rules r = unary_minus f -> not_head (fun c => gc_rune c = 45) l -> Fl (ERef r) l.
Proof. intros Hr H. eapply Fl_rule; [exact Hr|]. apply Fl_seq0, Fl_lit. exact H. Qed.

Lemma number_head x t : sp_number x t -> exists c t', t = c :: t' /\ is_digit c.
Proof. intros (Hne & Hd & _). destruct Hd as [|c t' Hc _]; [congruence|]. eauto. Qed.
Lemma nP_digit l : not_head nP l -> not_head is_digit l.
Proof. apply not_head_sub. unfold nP. tauto. Qed.

(** ** Integer expressions *)
Definition int_match := add_match sp_number NInt icount IntExpr IntExprAdditive IntExprMultitive IntExprPrimary ParenthesizedIntExpr IntExprUnaryPlus IntExprUnaryMinus valid_head
  eq_refl eq_refl eq_refl eq_refl eq_refl eq_refl (fun l H => H) vh_app.
Section Int.
  Lemma int_leaf x t l : sp_number x t -> good t -> valid_head l -> not_head nP l -> M (ERef IntExprPrimary) (t ++ l) [] (VNode (NInt x)) l (icount x).
  Proof. intros Hx Hg Hv Hn. eapply M_ref, M_choice, Mc_here, integer_match; try assumption. apply nP_digit, Hn. Qed.
  Lemma int_plus o t l v j : word "+" o -> good (o ++ t) -> valid_head l -> M (ERef IntExprUnaryPlus) (o ++ t ++ l) [] v l j -> M (ERef IntExprPrimary) (o ++ t ++ l) [] v l j.
  Proof.
    intros Ho _ _ H. eapply M_ref. apply M_choice, Mc_next; [|eapply Mc_here, H]. apply Fl_integer. sym Ho as c E. unfold is_digit. lia.
  Qed.
  Lemma int_minus o t l v j : word "-" o -> good (o ++ t) -> valid_head l -> M (ERef IntExprUnaryMinus) (o ++ t ++ l) [] v l j -> M (ERef IntExprPrimary) (o ++ t ++ l) [] v l j.
  Proof.
    intros Ho _ _ H. eapply M_ref. apply M_choice, Mc_next; [|apply Mc_next; [|eapply Mc_here, H]].
    - apply Fl_integer. sym Ho as c E. unfold is_digit. lia.
    - eapply Fl_unary_plus; [reflexivity|]. sym Ho as c E. lia.
  Qed.
  Lemma int_paren (e : iexpr) o t c l v j : word "(" o -> sp_add sp_number e t -> word ")" c -> good (o ++ t ++ c) -> valid_head l -> not_head nP l ->
    M (ERef ParenthesizedIntExpr) (o ++ t ++ c ++ l) [] v l j -> M (ERef IntExprPrimary) (o ++ t ++ c ++ l) [] v l j.
  Proof.
    intros Ho _ _ _ _ _ H. eapply M_ref. apply M_choice, Mc_next; [|apply Mc_next; [|apply Mc_next; [|eapply Mc_here, H]]].
    - apply Fl_integer. sym Ho as d E. unfold is_digit. lia.
    - eapply Fl_unary_plus; [reflexivity|]. sym Ho as d E. lia.
    - eapply Fl_unary_minus; [reflexivity|]. sym Ho as d E. lia.
  Qed.
End Int.
Lemma int_total (e : iexpr) : total icount e = 0.
Proof. induction e; cbn [total]; [reflexivity|assumption|lia]. Qed.
Lemma int_ok e t l : sp_int e t -> good t -> valid_head l -> not_head nA l -> M (ERef IntExpr) (t ++ l) [] (VNode (itree e)) l 0.
Proof. intros H Hg Hv Hn. rewrite <- (int_total e). apply (int_match int_leaf int_plus int_minus int_paren e t H Hg l Hv Hn). Qed.
Lemma intA_ok e t l : sp_int e t -> good t -> valid_head l -> not_head nA l -> M (ERef IntExprAdditive) (t ++ l) [] (VNode (itree e)) l 0.
Proof.
  intros H Hg Hv Hn. rewrite <- (int_total e).
  apply (addA_match sp_number NInt icount IntExpr IntExprAdditive IntExprMultitive IntExprPrimary ParenthesizedIntExpr IntExprUnaryPlus IntExprUnaryMinus valid_head
    eq_refl eq_refl eq_refl eq_refl eq_refl eq_refl (fun l H => H) vh_app int_leaf int_plus int_minus int_paren e t H Hg l Hv Hn).
Qed.
Lemma int_parens e o t c l : word "(" o -> sp_int e t -> word ")" c -> good (o ++ t ++ c) -> valid_head l -> M (ERef ParenthesizedIntExpr) (o ++ t ++ c ++ l) [] (VNode (itree e)) l 0.
Proof.
  intros Ho H Hc Hg Hv. rewrite <- (int_total e).
  apply (parens_match sp_number NInt icount IntExpr IntExprAdditive IntExprMultitive IntExprPrimary ParenthesizedIntExpr IntExprUnaryPlus IntExprUnaryMinus valid_head
    eq_refl eq_refl eq_refl eq_refl eq_refl eq_refl (fun l H => H) vh_app int_leaf int_plus int_minus int_paren e o t c Ho H Hc Hg l Hv).
Qed.

(** ** Random numbers *)
Lemma bound_ok e t l : sp_bound e t -> good t -> valid_head l -> not_head is_digit l -> M (ERef RandomNumberOperand) (t ++ l) [] (VNode (itree e)) l 0.
Proof.
  intros H Hg Hv Hn. destruct H as [x t Hx|e o t c Ho He Hc].
  - eapply M_ref, M_choice, Mc_here, integer_match; assumption.
  - rewrite <- !app_assoc. eapply M_ref. apply M_choice, Mc_next; [|eapply Mc_here, int_parens; eassumption].
    apply Fl_integer. sym Ho as d E. unfold is_digit. lia.
Qed.
Lemma random_match lo hi t l : sp_random lo hi t -> good t -> valid_head l -> M (ERef RandomNumber) (t ++ l) [] (VNode (NInfix (OpVar KRand) (itree lo) (itree hi))) l 1.
Proof.
  intros H Hg Hv. destruct H as [lo hi o s d t c Ho Hs Hd Ht Hc]. rewrite !good_app in Hg. destruct Hg as (G1 & G2 & G3 & G4 & G5). rewrite <- !app_assoc.
  assert (valid_head (c ++ l)) as V1 by (apply vh_app; assumption). assert (valid_head (t ++ c ++ l)) as V2 by (apply vh_app; assumption).
  assert (valid_head (d ++ t ++ c ++ l)) as V3 by (apply vh_app; assumption). assert (valid_head (s ++ d ++ t ++ c ++ l)) as V4 by (apply vh_app; assumption).
  eapply M_j with (j := 0 + (0 + (0 + (0 + (0 + (1 + 0)))))); [|lia]. eapply M_rule; [reflexivity| |].
  - apply M_seq. eapply Ms_cons; [apply M_one; [exact Ho|reflexivity|exact G1|exact V4]|].
    eapply Ms_cons; [eapply M_label, bound_ok; [exact Hs|exact G2|exact V3|]|].
    { unfold word in Hd. destruct d as [|c0 d']; [discriminate|]. cbn [map codes] in Hd. injection Hd as E _. norm_eq E. cbn. unfold is_digit. lia. }
    eapply Ms_cons; [apply M_lit; [exact Hd|reflexivity|apply G3|apply G3|exact V2]|].
    eapply Ms_cons; [eapply M_label, bound_ok; [exact Ht|exact G4|exact V1|]|].
    { sym Hc as c0 E. unfold is_digit. lia. }
    eapply Ms_cons; [apply M_one; [exact Hc|reflexivity|exact G5|exact Hv]|].
    eapply Ms_cons; [apply M_inc|apply Ms_nil].
  - intros st. reflexivity.
Qed.
Lemma random_head lo hi t : sp_random lo hi t -> exists c t', t = c :: t' /\ gc_rune c = 91.
Proof. intros H. destruct H as [lo hi o s d t c Ho Hs Hd Ht Hc]. sym Ho as c0 E. eauto. Qed.

(** ** Operands of rolls *)
Section Rand.
  Lemma rand_leaf x t l : sp_rleaf x t -> good t -> valid_head l -> not_head nP l -> M (ERef IntRandExprPrimary) (t ++ l) [] (VNode (rleaf_tree x)) l (rcount x).
  Proof.
    intros Hx Hg Hv Hn. destruct x as [x|lo hi]; cbn [sp_rleaf rleaf_tree rcount] in *.
    - eapply M_ref, M_choice, Mc_here, integer_match; try assumption. apply nP_digit, Hn.
    - eapply M_ref. apply M_choice, Mc_next; [|eapply Mc_here, random_match; assumption].
      destruct (random_head _ _ _ Hx) as (c & t' & -> & E). apply Fl_integer. cbn. unfold is_digit. lia.
  Qed.
  Lemma rand_plus o t l v j : word "+" o -> good (o ++ t) -> valid_head l -> M (ERef IntRandExprUnaryPlus) (o ++ t ++ l) [] v l j -> M (ERef IntRandExprPrimary) (o ++ t ++ l) [] v l j.
  Proof.
    intros Ho _ _ H. eapply M_ref. apply M_choice, Mc_next; [|apply Mc_next; [|eapply Mc_here, H]].
    - apply Fl_integer. sym Ho as c E. unfold is_digit. lia.
    - apply Fl_random. sym Ho as c E. lia.
  Qed.
  Lemma rand_minus o t l v j : word "-" o -> good (o ++ t) -> valid_head l -> M (ERef IntRandExprUnaryMinus) (o ++ t ++ l) [] v l j -> M (ERef IntRandExprPrimary) (o ++ t ++ l) [] v l j.
  Proof.
    intros Ho _ _ H. eapply M_ref. apply M_choice, Mc_next; [|apply Mc_next; [|apply Mc_next; [|eapply Mc_here, H]]].
    - apply Fl_integer. sym Ho as c E. unfold is_digit. lia.
    - apply Fl_random. sym Ho as c E. lia.
    - eapply Fl_unary_plus; [reflexivity|]. sym Ho as c E. lia.
  Qed.
  Lemma rand_paren (e : rexpr) o t c l v j : word "(" o -> sp_add sp_rleaf e t -> word ")" c -> good (o ++ t ++ c) -> valid_head l -> not_head nP l ->
    M (ERef ParenthesizedIntRandExpr) (o ++ t ++ c ++ l) [] v l j -> M (ERef IntRandExprPrimary) (o ++ t ++ c ++ l) [] v l j.
  Proof.
    intros Ho _ _ _ _ _ H. eapply M_ref. apply M_choice, Mc_next; [|apply Mc_next; [|apply Mc_next; [|apply Mc_next; [|eapply Mc_here, H]]]].
    - apply Fl_integer. sym Ho as d E. unfold is_digit. lia.
    - apply Fl_random. sym Ho as d E. lia.
    - eapply Fl_unary_plus; [reflexivity|]. sym Ho as d E. lia.
    - eapply Fl_unary_minus; [reflexivity|]. sym Ho as d E. lia.
  Qed.
End Rand.
Lemma rand_parens e o t c l : word "(" o -> sp_rexpr e t -> word ")" c -> good (o ++ t ++ c) -> valid_head l -> M (ERef ParenthesizedIntRandExpr) (o ++ t ++ c ++ l) [] (VNode (rtree e)) l (total rcount e).
Proof.
  intros Ho H Hc Hg Hv.
  apply (parens_match sp_rleaf rleaf_tree rcount IntRandExpr IntRandExprAdditive IntRandExprMultitive IntRandExprPrimary ParenthesizedIntRandExpr IntRandExprUnaryPlus IntRandExprUnaryMinus valid_head
    eq_refl eq_refl eq_refl eq_refl eq_refl eq_refl (fun l H => H) vh_app rand_leaf rand_plus rand_minus rand_paren e o t c Ho H Hc Hg l Hv).
Qed.
Lemma operand_match e t l : sp_operand e t -> good t -> valid_head l -> not_head is_digit l -> M (ERef RollOperand) (t ++ l) [] (VNode (rtree e)) l (total rcount e).
Proof.
  intros H Hg Hv Hn. destruct H as [x t Hx|e o t c Ho He Hc].
  - destruct x as [x|lo hi]; cbn [sp_rleaf] in Hx.
    + eapply M_ref, M_choice, Mc_here, integer_match; assumption.
    + eapply M_ref. apply M_choice, Mc_next; [|eapply Mc_here, random_match; eassumption].
      destruct (random_head _ _ _ Hx) as (c & t' & -> & E). apply Fl_integer. cbn. unfold is_digit. lia.
  - rewrite <- !app_assoc. eapply M_ref. apply M_choice, Mc_next; [|apply Mc_next; [|eapply Mc_here, rand_parens; eassumption]].
    + apply Fl_integer. sym Ho as d E. unfold is_digit. lia.
    + apply Fl_random. sym Ho as d E. lia.
Qed.
(** openers: the characters that may begin an operand *)
Definition opener (c : gochar) : Prop := is_digit c \/ gc_rune c = 91 \/ gc_rune c = 40.
Lemma operand_head e t : sp_operand e t -> exists c t', t = c :: t' /\ opener c.
Proof.
  intros H. destruct H as [x t Hx|e o t c Ho He Hc]; unfold opener.
  - destruct x as [x|lo hi]; cbn [sp_rleaf] in Hx.
    + destruct (number_head _ _ Hx) as (c & t' & -> & E). eauto 8.
    + destruct (random_head _ _ _ Hx) as (c & t' & -> & E). eauto 8.
  - sym Ho as d E. eauto 8.
Qed.
Lemma Fl_operand l : not_head opener l -> Fl (ERef RollOperand) l.
Proof.
  intros H. apply Fl_ref, Fl_choice. repeat constructor.
  - apply Fl_integer. eapply not_head_sub; [|exact H]. unfold opener. tauto.
  - apply Fl_random. eapply not_head_sub; [|exact H]. unfold opener. tauto.
  - eapply Fl_paren; [reflexivity|]. eapply not_head_sub; [|exact H]. unfold opener. tauto.
Qed.

(** ** Rolls *)
Definition roll_count (r : roll) : Z := total rcount (fst r) + total rcount (snd r) + 1.
Lemma letter_not_digit a c : 97 <= Z.of_N (N_of_ascii a) <= 122 -> to_lower (gc_rune c) = Z.of_N (N_of_ascii a) -> ~ is_digit c.
Proof. unfold is_digit. intros H1 H2 H3. rewrite lower_ascii in H2 by lia. lia. Qed.
Lemma roll_match k a r rl t l : rules r = roll_rule k (String a EmptyString) -> 97 <= Z.of_N (N_of_ascii a) <= 122 -> sp_roll (String a EmptyString) rl t ->
  good t -> valid_head l -> not_head is_digit l ->
  M (ERef r) (t ++ l) [] (VNode (NInfix (OpVar k) (rtree (fst rl)) (rtree (snd rl)))) l (roll_count rl).
Proof.
  intros Hr Ha H Hg Hv Hn. destruct H as [n s t u v H1 H2 H3]. cbn [fst snd]. rewrite !good_app in Hg. destruct Hg as (G1 & G2 & G3). rewrite <- !app_assoc.
  assert (valid_head (v ++ l)) as V1 by (apply vh_app; assumption). assert (valid_head (u ++ v ++ l)) as V2 by (apply vh_app; assumption).
  eapply M_j with (j := total rcount n + (0 + (total rcount s + (1 + 0)))); [|unfold roll_count; cbn [fst snd]; lia]. eapply M_rule; [exact Hr| |].
  - apply M_seq. eapply Ms_cons; [eapply M_label, operand_match; [exact H1|exact G1|exact V2|]|].
    { apply word_i_one in H2 as (c & -> & E). cbn. eapply letter_not_digit; [exact Ha|exact E]. }
    eapply Ms_cons; [apply M_lit_i; [exact H2|apply G2|exact V1]|].
    eapply Ms_cons; [eapply M_label, operand_match; [exact H3|exact G3|exact Hv|exact Hn]|].
    eapply Ms_cons; [apply M_inc|apply Ms_nil].
  - intros st. reflexivity.
Qed.
(** a roll fails without the letter after the first operand *)
Lemma Fl_roll_letter k w r e t l : rules r = roll_rule k w -> sp_operand e t -> good t -> valid_head l -> not_head is_digit l -> Fl (lit_i w) l -> Fl (ERef r) (t ++ l).
Proof.
  intros Hr He Hg Hv Hn Hl. eapply Fl_rule; [exact Hr|]. eapply (Fl_seq [_] _ _).
  - eapply Ms_cons; [eapply M_label, operand_match; eassumption|apply Ms_nil].
  - exact Hl.
Qed.
Lemma Fl_roll_head k w r l : rules r = roll_rule k w -> not_head opener l -> Fl (ERef r) l.
Proof. intros Hr H. eapply Fl_rule; [exact Hr|]. apply Fl_seq0, Fl_label, Fl_operand, H. Qed.

(** ** Matching parentheses *)
Fixpoint after (d : nat) (l : text) : option text :=
  match l with
  | [] => None
  | c :: l' => if gc_rune c =? 40 then after (S d) l' else if gc_rune c =? 41 then match d with O => Some l' | S d' => after d' l' end else after d l'
  end.
Definition balanced (t : text) : Prop := forall d l, after d (t ++ l) = after d l.
Lemma balanced_app a b : balanced a -> balanced b -> balanced (a ++ b).
Proof. intros Ha Hb d l. rewrite <- app_assoc, Ha. apply Hb. Qed.
Lemma balanced_nil : balanced [].
Proof. intros d l. reflexivity. Qed.
Lemma balanced_char c t : gc_rune c <> 40 -> gc_rune c <> 41 -> balanced t -> balanced (c :: t).
Proof. intros H1 H2 Ht d l. cbn [app after]. apply Z.eqb_neq in H1, H2. rewrite H1, H2. apply Ht. Qed.
Lemma balanced_paren o t c : word "(" o -> balanced t -> word ")" c -> balanced (o ++ t ++ c).
Proof.
  intros Ho Ht Hc d l. rewrite <- !app_assoc. sym Ho as x E. cbn [after]. rewrite E, Z.eqb_refl, Ht. sym Hc as y E'. cbn [after]. rewrite E'. reflexivity.
Qed.
Lemma balanced_word a o : word (String a EmptyString) o -> Z.of_N (N_of_ascii a) <> 40 -> Z.of_N (N_of_ascii a) <> 41 -> balanced o.
Proof. intros H H1 H2. apply word_one in H as (c & -> & E). apply balanced_char; [congruence|congruence|apply balanced_nil]. Qed.
Lemma balanced_letter a o : word_i (String a EmptyString) o -> 97 <= Z.of_N (N_of_ascii a) <= 122 -> balanced o.
Proof. intros H H1. apply word_i_one in H as (c & -> & E). apply balanced_char; [| |apply balanced_nil]; intros Hc; rewrite Hc in E; rewrite lower_ascii in E by lia; lia. Qed.
Lemma balanced_number x t : sp_number x t -> balanced t.
Proof. intros (_ & Hd & _). induction Hd as [|c t Hc _ IH]; [apply balanced_nil|]. unfold is_digit in Hc. apply balanced_char; [lia|lia|exact IH]. Qed.
Lemma balanced_arith {L} (leaf : L -> text -> Prop) : (forall x t, leaf x t -> balanced t) ->
  (forall e t, sp_prim leaf e t -> balanced t) /\ (forall e t, sp_mul leaf e t -> balanced t) /\ (forall e t, sp_add leaf e t -> balanced t).
Proof.
  intros Hl. apply (sp_arith_mut L leaf); intros; try assumption; try (apply balanced_paren; assumption); try (eapply Hl; eassumption);
    repeat apply balanced_app; try assumption; try (eapply balanced_word; [eassumption|discriminate|discriminate]); eapply balanced_letter; try eassumption; vm_compute; split; discriminate.
Qed.
Lemma balanced_int e t : sp_int e t -> balanced t.
Proof. apply (balanced_arith sp_number balanced_number). Qed.
Lemma balanced_bound e t : sp_bound e t -> balanced t.
Proof. intros H. destruct H; [eapply balanced_number; eassumption|apply balanced_paren; try assumption; eapply balanced_int; eassumption]. Qed.
Lemma balanced_random lo hi t : sp_random lo hi t -> balanced t.
Proof.
  intros H. destruct H as [lo hi o s d t c Ho Hs Hd Ht Hc]. repeat apply balanced_app; try (eapply balanced_bound; eassumption); try (eapply balanced_word; [eassumption|discriminate|discriminate]).
  unfold word in Hd. destruct d as [|d1 [|d2 [|d3 [|? ?]]]]; try discriminate. cbn [map codes] in Hd. injection Hd as E1 E2 E3. norm_eq E1. norm_eq E2. norm_eq E3.
  repeat apply balanced_char; try apply balanced_nil; congruence.
Qed.
Lemma balanced_rleaf x t : sp_rleaf x t -> balanced t.
Proof. destruct x; cbn; [apply balanced_number|apply balanced_random]. Qed.
Lemma balanced_rexpr e t : sp_rexpr e t -> balanced t.
Proof. apply (balanced_arith sp_rleaf balanced_rleaf). Qed.
Lemma balanced_operand e t : sp_operand e t -> balanced t.
Proof. intros H. destruct H; [eapply balanced_rleaf; eassumption|apply balanced_paren; try assumption; eapply balanced_rexpr; eassumption]. Qed.
Lemma balanced_dleaf x t : sp_dleaf x t -> balanced t.
Proof.
  destruct x; cbn; [apply balanced_number|apply balanced_random|]. intros H. inversion H; subst.
  repeat apply balanced_app; try (eapply balanced_operand; eassumption). eapply balanced_letter; [eassumption|vm_compute; split; discriminate].
Qed.
Lemma balanced_dexpr e t : sp_dexpr e t -> balanced t.
Proof. apply (balanced_arith sp_dleaf balanced_dleaf). Qed.

(** ** D expressions *)
Section D.
  Lemma d_leaf x t l : sp_dleaf x t -> good t -> good l -> not_head nP l -> M (ERef DRollExprPrimary) (t ++ l) [] (VNode (dleaf_tree x)) l (dcount x).
  Proof.
    intros Hx Hg Hl Hn. pose proof (good_head l Hl) as Hv. pose proof (nP_digit l Hn) as Hd.
    assert (Fl (lit_i "d") l) as Hlet by (apply Fl_lit_i; cbn; eapply not_head_sub; [|exact Hn]; unfold nP; tauto).
    destruct x as [x|lo hi|n s]; cbn [sp_dleaf dleaf_tree dcount] in *; eapply M_ref; apply M_choice.
    - apply Mc_next; [|apply Mc_next; [|eapply Mc_here, integer_match; assumption]].
      + eapply Fl_roll_letter; [reflexivity|apply (operand_leaf (RInt x)); exact Hx|assumption..].
      + destruct (number_head _ _ Hx) as (c & t' & -> & E). apply Fl_random. cbn. unfold is_digit in E. lia.
    - apply Mc_next; [|eapply Mc_here, random_match; assumption].
      eapply Fl_roll_letter; [reflexivity|apply (operand_leaf (RRand lo hi)); exact Hx|assumption..].
    - eapply Mc_here. eapply M_v; [eapply roll_match; [reflexivity|vm_compute; split; discriminate|exact Hx|exact Hg|exact Hv|exact Hd]|reflexivity|reflexivity].
  Qed.
  Lemma d_plus o t l v j : word "+" o -> good (o ++ t) -> good l -> M (ERef DRollExprUnaryPlus) (o ++ t ++ l) [] v l j -> M (ERef DRollExprPrimary) (o ++ t ++ l) [] v l j.
  Proof.
    intros Ho _ _ H. eapply M_ref. apply M_choice, Mc_next; [|apply Mc_next; [|apply Mc_next; [|eapply Mc_here, H]]].
    - eapply Fl_roll_head; [reflexivity|]. sym Ho as c E. unfold opener, is_digit. lia.
    - apply Fl_random. sym Ho as c E. lia.
    - apply Fl_integer. sym Ho as c E. unfold is_digit. lia.
  Qed.
  Lemma d_minus o t l v j : word "-" o -> good (o ++ t) -> good l -> M (ERef DRollExprUnaryMinus) (o ++ t ++ l) [] v l j -> M (ERef DRollExprPrimary) (o ++ t ++ l) [] v l j.
  Proof.
    intros Ho _ _ H. eapply M_ref. apply M_choice, Mc_next; [|apply Mc_next; [|apply Mc_next; [|apply Mc_next; [|eapply Mc_here, H]]]].
    - eapply Fl_roll_head; [reflexivity|]. sym Ho as c E. unfold opener, is_digit. lia.
    - apply Fl_random. sym Ho as c E. lia.
    - apply Fl_integer. sym Ho as c E. unfold is_digit. lia.
    - eapply Fl_unary_plus; [reflexivity|]. sym Ho as c E. lia.
  Qed.
  Lemma d_paren (e : dexpr) o t c l v j : word "(" o -> sp_add sp_dleaf e t -> word ")" c -> good (o ++ t ++ c) -> good l -> not_head nP l ->
    M (ERef ParenthesizedDRollExpr) (o ++ t ++ c ++ l) [] v l j -> M (ERef DRollExprPrimary) (o ++ t ++ c ++ l) [] v l j.
  Proof.
    intros Ho He Hc Hg Hl Hn H. eapply M_ref. apply M_choice, Mc_next; [|apply Mc_next; [|apply Mc_next; [|apply Mc_next; [|apply Mc_next; [|eapply Mc_here, H]]]]].
    - assert (good (o ++ t ++ c ++ l)) as (G1 & G2) by (rewrite !good_app in *; tauto).
      apply Fl_sound; [reflexivity|exact G2|exact G1|]. clear H. intros t' v' j' l' Heq (n & s & _ & Hroll & _). inversion Hroll as [n' s' p u w Hp Hu Hw]; subst.
      inversion Hp as [x p' Hx|e' o' q c' Ho' He' Hc']; subst.
      + sym Ho as d E. destruct x; cbn [sp_rleaf] in Hx.
        * destruct (number_head _ _ Hx) as (d' & t1 & -> & Ed). unfold is_digit in Ed. rewrite <- !app_assoc in Heq. injection Heq as -> _. lia.
        * destruct (random_head _ _ _ Hx) as (d' & t1 & -> & Ed). rewrite <- !app_assoc in Heq. injection Heq as -> _. lia.
      + rewrite <- !app_assoc in Heq. sym Ho as d E. sym Ho' as d' E'. cbn [app] in Heq. injection Heq as _ Heq. apply (f_equal (after 0)) in Heq.
        rewrite (balanced_dexpr _ _ He), (balanced_rexpr _ _ He') in Heq. sym Hc as b F. sym Hc' as b' F'. cbn [app after] in Heq. rewrite F, F' in Heq.
        change (Some l = Some (u ++ w ++ l')) in Heq. injection Heq as ->. symi Hu as y G. unfold nP in Hn. cbn in Hn. rewrite G in Hn. tauto.
    - apply Fl_random. sym Ho as d E. lia.
    - apply Fl_integer. sym Ho as d E. unfold is_digit. lia.
    - eapply Fl_unary_plus; [reflexivity|]. sym Ho as d E. lia.
    - eapply Fl_unary_minus; [reflexivity|]. sym Ho as d E. lia.
  Qed.
End D.
Lemma dexpr_match e t l : sp_dexpr e t -> good t -> good l -> not_head nA l -> M (ERef DRollExpr) (t ++ l) [] (VNode (dtree e)) l (total dcount e).
Proof.
  intros H Hg Hl Hn.
  apply (add_match sp_dleaf dleaf_tree dcount DRollExpr DRollExprAdditive DRollExprMultitive DRollExprPrimary ParenthesizedDRollExpr DRollExprUnaryPlus DRollExprUnaryMinus good
    eq_refl eq_refl eq_refl eq_refl eq_refl eq_refl good_head good_app' d_leaf d_plus d_minus d_paren e t H Hg l Hl Hn).
Qed.
Lemma dexprA_match e t l : sp_dexpr e t -> good t -> good l -> not_head nA l -> M (ERef DRollExprAdditive) (t ++ l) [] (VNode (dtree e)) l (total dcount e).
Proof.
  intros H Hg Hl Hn.
  apply (addA_match sp_dleaf dleaf_tree dcount DRollExpr DRollExprAdditive DRollExprMultitive DRollExprPrimary ParenthesizedDRollExpr DRollExprUnaryPlus DRollExprUnaryMinus good
    eq_refl eq_refl eq_refl eq_refl eq_refl eq_refl good_head good_app' d_leaf d_plus d_minus d_paren e t H Hg l Hl Hn).
Qed.
