(** Soundness of the parser: what it matches is spelled by the grammar of SpecGrammar.v. *)
From Verif Require Import Grammar ProofBase SpecSyntax SpecGrammar TextFacts PegProofs.
Open Scope list_scope.
Open Scope Z_scope.

Lemma runes_codes w : runes w = codes w.
Proof. induction w; cbn; congruence. Qed.

(** Number of random elements *)
Fixpoint total {L} (lc : L -> Z) (e : ae L) : Z :=
  match e with Leaf l => lc l | Neg e => total lc e | Bin _ a b => total lc a + total lc b end.
Definition icount (v : Z) : Z := 0.
Definition rcount (l : rleaf) : Z := match l with RInt _ => 0 | RRand _ _ => 1 end.
Definition dcount (l : dleaf) : Z :=
  match l with DInt _ => 0 | DRand _ _ => 1 | DDice n s => total rcount n + total rcount s + 1 end.

Definition post {L} (tr : L -> node) (lc : L -> Z) (sp : ae L -> text -> Prop) (t : text) (v : val) (k : Z) : Prop :=
  exists e, v = VNode (tree tr e) /\ sp e t /\ k = total lc e.
Inductive sp_parens {L} (leaf : L -> text -> Prop) : ae L -> text -> Prop :=
| parens_ e o t c : word "(" o -> sp_add leaf e t -> word ")" c -> sp_parens leaf e (o ++ t ++ c).

Definition postI := post NInt icount.
Definition postR := post rleaf_tree rcount.
Definition postD := post dleaf_tree dcount.
Definition post_roll (k0 : vkind) (letter : string) (t : text) (v : val) (k : Z) : Prop :=
  exists n s, v = VNode (NInfix (OpVar k0) (rtree n) (rtree s)) /\ sp_roll letter (n, s) t /\ k = total rcount n + total rcount s + 1.

Definition Post (r : rule) (t : text) (v : val) (k : Z) : Prop :=
  match r with
  | Integer => exists x, v = VNode (NInt x) /\ sp_number x t /\ k = 0
  | CompareOp => exists op, v = VBytes op /\ is_compare_op op /\ word op t /\ k = 0
  | IncRandCount => t = [] /\ k = 1
  | IntExpr | IntExprAdditive => postI (sp_add sp_number) t v k
  | IntExprMultitive => postI (sp_mul sp_number) t v k
  | IntExprPrimary | IntExprUnaryPlus | IntExprUnaryMinus => postI (sp_prim sp_number) t v k
  | ParenthesizedIntExpr => postI (sp_parens sp_number) t v k
  | RandomNumberOperand => postI sp_bound t v k
  | RandomNumber => exists lo hi, v = VNode (NInfix (OpVar KRand) (itree lo) (itree hi)) /\ sp_random lo hi t /\ k = 1
  | IntRandExpr | IntRandExprAdditive => postR (sp_add sp_rleaf) t v k
  | IntRandExprMultitive => postR (sp_mul sp_rleaf) t v k
  | IntRandExprPrimary | IntRandExprUnaryPlus | IntRandExprUnaryMinus => postR (sp_prim sp_rleaf) t v k
  | ParenthesizedIntRandExpr => postR (sp_parens sp_rleaf) t v k
  | RollOperand => postR sp_operand t v k
  | DRoll => post_roll KD "d" t v k
  | BRoll => post_roll KB "b" t v k
  | RRoll => post_roll KR "r" t v k
  | URoll => post_roll KU "u" t v k
  | DRollExpr | DRollExprAdditive => postD (sp_add sp_dleaf) t v k
  | DRollExprMultitive => postD (sp_mul sp_dleaf) t v k
  | DRollExprPrimary | DRollExprUnaryPlus | DRollExprUnaryMinus => postD (sp_prim sp_dleaf) t v k
  | ParenthesizedDRollExpr => postD (sp_parens sp_dleaf) t v k
  | DRollComp => exists e op g t1 t2, v = VNode (NInfix (OpCmp op) (dtree e) (itree g)) /\ t = t1 ++ t2 /\ sp_dexpr e t1 /\ sp_target op g t2 /\
      k = total dcount e
  | BRollList => exists r rs, v = VNode (command_tree (BList r rs)) /\ spells (BList r rs) t
  | BRollComp => exists r rs op g, v = VNode (command_tree (BComp r rs op g)) /\ spells (BComp r rs op g) t
  | RRollList => exists r rs th, v = VNode (command_tree (RList r rs th)) /\ spells (RList r rs th) t
  | RRollComp => exists r rs th op g, v = VNode (command_tree (RComp r rs th op g)) /\ spells (RComp r rs th op g) t
  | URollList => exists r rs th t1 t2 t3, v = VNode (NRRollList (map (roll_tree KU) (r :: rs)) (th_tree th)) /\ t = t1 ++ t2 ++ t3 /\
      sp_roll "u" r t1 /\ sp_rolls "u" rs t2 /\ sp_threshold th t3
  | URollExpr => exists r rs th b, v = VNode (command_tree (UExpr r rs th b)) /\ spells (UExpr r rs th b) t
  | URollComp => exists r rs th b op g, v = VNode (command_tree (UComp r rs th b op g)) /\ spells (UComp r rs th b op g) t
  | ChoiceItemChars => exists s, v = VNode (NString s) /\ t <> [] /\ Forall item_char t /\ s = raw_text (trim_space t)
  | ChoiceItem => exists s, v = VNode (NString s) /\ sp_item s t
  | ChoiceItems => exists s ss t1 t2, v = VNode (NChoice (s :: ss)) /\ t = t1 ++ t2 /\ sp_item s t1 /\ sp_items ss t2
  | Choice => exists s ss, v = VNode (command_tree (Choose (s :: ss))) /\ spells (Choose (s :: ss)) t
  | Calc => exists e, v = VNode (command_tree (Calculation e)) /\ spells (Calculation e) t
  | Command | CommandWithExpression | DRollExprCommand | DRollCompCommand | ResetRandCount | EOT => True
  end.

(** The rules above are the ones used inside commands. *)
Definition inner (r : rule) : bool :=
  match r with Command | CommandWithExpression | DRollExprCommand | DRollCompCommand | ResetRandCount | EOT => false | _ => true end.

Definition RP (r : rule) (s : pstate) (v : val) (s' : pstate) : Prop :=
  exists t k, stepped s s' t k /\ ps_env s' = ps_env s /\ Post r t v k.

Notation wpg := (wpp rules).

(** ** Small facts *)
Lemma word_raw w t : forallb (fun z => z <? 128) (codes w) = true -> Forall plain t -> word w t -> raw_text t = w.
Proof.
  revert t. induction w as [|a w IH]; intros t Ha Hp Hw; destruct t as [|c t]; try discriminate; [reflexivity|].
  unfold word in Hw. cbn in Hw, Ha. injection Hw as H1 H2. inversion Hp as [|? ? P1 P2]; subst. cbn.
  apply andb_prop in Ha as (A1 & A2). rewrite (IH t A2 P2 H2), P1 by lia.
  rewrite H1. unfold byte_of. rewrite N2Z.id, ascii_N_embedding. reflexivity.
Qed.
Lemma word_lit w t : map gc_rune t = runes w -> word w t.
Proof. unfold word. rewrite runes_codes. exact (fun H => H). Qed.
Lemma word_i_lit w t : map (fun c => to_lower (gc_rune c)) t = runes w -> word_i w t.
Proof. unfold word_i. rewrite runes_codes. exact (fun H => H). Qed.

Lemma to_lower_letter r c : 97 <= c <= 122 -> c <> 105 -> c <> 107 -> to_lower r = c -> r = c \/ r = c - 32.
Proof. unfold to_lower, in_range. intros H1 H2 H3. destruct (_ && _) eqn:E; [lia|]. destruct (r =? 304) eqn:E1; [lia|]. destruct (r =? 8490) eqn:E2; lia. Qed.
Lemma ur_char c : plain c -> class_match (CharClass (runes "ur") [] false true false) (gc_rune c) = true ->
  (to_upper_ur (gc_raw c) = "U"%string /\ word_i "u" [c]) \/ (to_upper_ur (gc_raw c) = "R"%string /\ word_i "r" [c]).
Proof.
  intros Hp. unfold class_match, class_hit. cbn [xorb cc_inverted cc_ignore_case cc_chars cc_ranges cc_Z existsb runes]. intros H.
  assert (to_lower (gc_rune c) = 117 \/ to_lower (gc_rune c) = 114) as Hl.
  { change (Z.of_N (N_of_ascii "u")) with 117 in H. change (Z.of_N (N_of_ascii "r")) with 114 in H. destruct (Z.eqb_spec (to_lower (gc_rune c)) 117); [left; assumption|]. destruct (Z.eqb_spec (to_lower (gc_rune c)) 114); [right; assumption|]. discriminate H. }
  unfold word_i. cbn [map codes N_of_ascii]. rewrite small_lower. destruct Hl as [Hl|Hl]; rewrite Hl; [left|right]; (split; [|reflexivity]).
  - destruct (to_lower_letter (gc_rune c) 117 ltac:(lia) ltac:(lia) ltac:(lia) Hl) as [E|E]; rewrite Hp by lia; rewrite E; reflexivity.
  - destruct (to_lower_letter (gc_rune c) 114 ltac:(lia) ltac:(lia) ltac:(lia) Hl) as [E|E]; rewrite Hp by lia; rewrite E; reflexivity.
Qed.

Lemma digit_class c : class_match (CharClass [] [(48, 57)] false false false) (gc_rune c) = true <-> is_digit c.
Proof. unfold class_match, class_hit, is_digit. cbn. unfold in_range. destruct (48 <=? gc_rune c) eqn:E1, (gc_rune c <=? 57) eqn:E2; cbn; split; intros; try discriminate; try reflexivity; lia. Qed.
Lemma item_class c : class_match (CharClass (runes "],") [] false false true) (gc_rune c) = true <-> item_char c.
Proof.
  unfold class_match, class_hit, item_char. cbn [xorb cc_inverted cc_ignore_case cc_chars cc_ranges cc_Z existsb runes].
  change (Z.of_N (N_of_ascii "]")) with 93. change (Z.of_N (N_of_ascii ",")) with 44.
  destruct (Z.eqb_spec (gc_rune c) 93), (Z.eqb_spec (gc_rune c) 44); cbn; split; intros; try discriminate; try reflexivity; lia.
Qed.

Lemma decimal_digits t : digits_val t = decimal t.
Proof.
  unfold digits_val, decimal. generalize 0. induction t as [|c t IHt]; intros a; cbn [fold_left]; [reflexivity|].
  rewrite IHt. unfold digit_val. f_equal. lia.
Qed.

(** ** The loops of the actions *)
Section Loops.
  Context {L : Type} (leaf : L -> text -> Prop) (tr : L -> node) (lc : L -> Z).
  Definition add_item (v : val) (t : text) (k : Z) : Prop :=
    exists o u b, t = o ++ u /\ sp_mul leaf b u /\ k = total lc b /\
      ((word "+" o /\ v = VSlice [VBytes "+"; VNode (tree tr b)]) \/ (word "-" o /\ v = VSlice [VBytes "-"; VNode (tree tr b)])).
  Lemma additive_loop_ok vs t k : many add_item vs t k -> forall e u, sp_add leaf e u ->
    exists e', additive_loop (tree tr e) vs = AVal (VNode (tree tr e')) /\ sp_add leaf e' (u ++ t) /\ total lc e' = total lc e + k.
  Proof.
    induction 1 as [|v vs t t' k k' (o & x & b & -> & Hb & -> & Hv) _ IH]; intros e u He.
    - exists e. rewrite app_nil_r, Z.add_0_r. auto.
    - destruct Hv as [(Ho & ->)|(Ho & ->)]; cbn [additive_loop to_iface_slice abind slice_elems index nth_error as_bytes as_node String.eqb Ascii.eqb Bool.eqb].
      + destruct (IH (Bin Plus e b) (u ++ o ++ x)) as (e' & H1 & H2 & H3); [constructor; assumption|].
        exists e'. split; [exact H1|]. rewrite <- !app_assoc in *. split; [exact H2|]. rewrite H3. cbn [total]. lia.
      + destruct (IH (Bin Minus e b) (u ++ o ++ x)) as (e' & H1 & H2 & H3); [constructor; assumption|].
        exists e'. split; [exact H1|]. rewrite <- !app_assoc in *. split; [exact H2|]. rewrite H3. cbn [total]. lia.
  Qed.
  Definition mul_item (v : val) (t : text) (k : Z) : Prop :=
    exists o u b, sp_prim leaf b u /\ k = total lc b /\
      ((t = o ++ u /\ word "*" o /\ v = VSlice [VBytes "*"; VNode (tree tr b)]) \/
       (t = o ++ u /\ word "/" o /\ v = VSlice [VBytes "/"; VNode (tree tr b)]) \/
       (exists c raw, t = o ++ u ++ c /\ word "/" o /\ v = VSlice [VBytes "/"; VNode (tree tr b); VBytes raw] /\
          ((to_upper_ur raw = "U"%string /\ word_i "u" c) \/ (to_upper_ur raw = "R"%string /\ word_i "r" c)))).
  Lemma multitive_loop_ok vs t k : many mul_item vs t k -> forall e u, sp_mul leaf e u ->
    exists e', multitive_loop (tree tr e) vs = AVal (VNode (tree tr e')) /\ sp_mul leaf e' (u ++ t) /\ total lc e' = total lc e + k.
  Proof.
    induction 1 as [|v vs t t' k k' (o & x & b & Hb & -> & Hv) _ IH]; intros e u He.
    - exists e. rewrite app_nil_r, Z.add_0_r. auto.
    - assert (exists m e1, multitive_loop (tree tr e) (v :: vs) = multitive_loop (tree tr (Bin m e b)) vs /\ e1 = Bin m e b /\ sp_mul leaf e1 (u ++ t)) as (m & e1 & E1 & -> & H1).
      { destruct Hv as [(-> & Ho & ->)|[(-> & Ho & ->)|(c & raw & -> & Ho & -> & [(Hu & Hw)|(Hu & Hw)])]].
        - exists Times. eexists. split; [reflexivity|]. split; [reflexivity|]. constructor; assumption.
        - exists (Over RoundDown). eexists. split; [reflexivity|]. split; [reflexivity|]. constructor; assumption.
        - exists (Over RoundUp). eexists. cbn [multitive_loop to_iface_slice abind slice_elems index nth_error as_bytes as_node]. rewrite Hu.
          split; [reflexivity|]. split; [reflexivity|]. constructor; assumption.
        - exists (Over RoundHalf). eexists. cbn [multitive_loop to_iface_slice abind slice_elems index nth_error as_bytes as_node]. rewrite Hu.
          split; [reflexivity|]. split; [reflexivity|]. constructor; assumption. }
      destruct (IH _ _ H1) as (e' & G1 & G2 & G3). exists e'. rewrite E1. split; [exact G1|]. rewrite app_assoc. split; [exact G2|]. rewrite G3. cbn [total]. lia.
  Qed.
End Loops.

(** ** The rules *)
Section Rules.
  Variable F : nat.
  Hypothesis IH : forall f r s, (f <= F)%nat -> inner r = true -> counted s -> wpg f (ERef r) s (RP r s).

  Lemma ref_ok f r s (Q : val -> pstate -> Prop) : (f <= F)%nat -> inner r = true -> counted s ->
    (forall v s' t k, stepped s s' t k -> ps_env s' = ps_env s -> Post r t v k -> Q v s') -> wpg f (ERef r) s Q.
  Proof.
    intros Hf Hr Hc H. eapply wpp_mono; [|apply IH; assumption]. intros v s' (t & k & H1 & H2 & H3). eapply H; eassumption.
  Qed.
  Lemma lit_ok f w s (Q : val -> pstate -> Prop) : forallb (fun z => z <? 128) (codes w) = true -> counted s ->
    (forall s' t, stepped s s' t 0 -> ps_env s' = ps_env s -> word w t -> Q (VBytes w) s') -> wpg f (lit w) s Q.
  Proof.
    intros Hw Hc H. apply wp_lit; [exact Hc|]. intros s' t H1 H2 H3. apply word_lit in H3.
    rewrite (word_raw w t Hw (stepped_plain _ _ _ _ H1) H3). eapply H; eassumption.
  Qed.
  Lemma lit_i_ok f w s (Q : val -> pstate -> Prop) : counted s ->
    (forall v s' t, stepped s s' t 0 -> ps_env s' = ps_env s -> word_i w t -> Q v s') -> wpg f (lit_i w) s Q.
  Proof.
    intros Hc H. apply wp_lit; [exact Hc|]. intros s' t H1 H2 H3. apply word_i_lit in H3. eapply H; eassumption.
  Qed.
  Lemma counted_env s e : counted s -> counted (set_env s e).
  Proof. exact (fun H => H). Qed.
  Lemma failed_counted s s' : failed s s' -> counted s -> counted s'.
  Proof. intros (H1 & H2 & _) (P & c & C1 & C2). split; [rewrite H1; exact P|]. exists c. rewrite H2. auto. Qed.
  Lemma failed_stepped_trans s1 s2 s3 t k : failed s1 s2 -> stepped s2 s3 t k -> counted s1 -> stepped s1 s3 t k.
  Proof. intros H1 H2 Hc. apply (stepped_trans _ _ _ [] t 0 k (failed_stepped _ _ Hc H1) H2). Qed.

  Ltac start := eexists _, _; eapply stepped_refl; eassumption.
  Lemma choice_ok f alts s (Q : val -> pstate -> Prop) : counted s ->
    (forall s1, failed s s1 -> counted s1 -> Forall (fun e => wpg (pred f) e (set_env s1 []) (fun v s' => Q v (set_env s' (ps_env s)))) alts) ->
    wpg f (EChoice alts) s Q.
  Proof.
    intros Hc H. apply wp_choice. rewrite Forall_forall. intros e He s1 H1 H2.
    specialize (H s1 H1 (failed_counted _ _ H1 Hc)). rewrite Forall_forall in H. apply H. exact He.
  Qed.
  (** the sign between operands *)
  Lemma sign_ok f a b s (Q : val -> pstate -> Prop) : counted s ->
    forallb (fun z => z <? 128) (codes a) = true -> forallb (fun z => z <? 128) (codes b) = true ->
    (forall w s' t, stepped s s' t 0 -> ps_env s' = ps_env s -> word w t -> w = a \/ w = b -> Q (VBytes w) s') ->
    wpg f (EChoice [lit a; lit b]) s Q.
  Proof.
    intros Hc Ha Hb H. apply choice_ok; [exact Hc|]. intros s1 H1 C1. repeat constructor.
    - apply lit_ok; [exact Ha|exact C1|]. intros s2 t S2 E2 W. eapply H; [|reflexivity|exact W|left; reflexivity].
      exact (failed_stepped_trans _ _ _ _ _ H1 S2 Hc).
    - apply lit_ok; [exact Hb|exact C1|]. intros s2 t S2 E2 W. eapply H; [|reflexivity|exact W|right; reflexivity].
      exact (failed_stepped_trans _ _ _ _ _ H1 S2 Hc).
  Qed.

  Lemma additive_ok {L} (leaf : L -> text -> Prop) tr lc r s : inner r = true -> counted s -> ps_env s = [] ->
    (forall t v k, Post r t v k -> post tr lc (sp_mul leaf) t v k) ->
    wpg F (additive r) s (fun v s' => exists t k, stepped s s' t k /\ post tr lc (sp_add leaf) t v k).
  Proof.
    intros Hr Hc He HP. apply wp_action, wp_seq. cbn [seq_wp app]. split; [start|].
    apply wp_label, ref_ok; [lia|exact Hr|exact Hc|]. intros v1 s1 t1 k1 S1 E1 P1.
    split; [eexists _, _; exact S1|]. apply wp_label.
    eapply (wp_star _ (add_item leaf tr lc)); [exact (stepped_counted _ _ _ _ S1)| |].
    - intros s2 C2 E2. apply wp_seq. cbn [seq_wp app]. split; [start|].
      apply sign_ok; [exact C2|reflexivity|reflexivity|]. intros w s3 t3 S3 E3 W3 Hw. split; [eexists _, _; exact S3|].
      apply ref_ok; [lia|exact Hr|exact (stepped_counted _ _ _ _ S3)|]. intros v4 s4 t4 k4 S4 E4 P4.
      destruct (HP _ _ _ P4) as (b & -> & Hb & ->). exists (t3 ++ t4), (total lc b).
      split; [exact (stepped_trans _ _ _ _ _ _ _ S3 S4)|]. exists t3, t4, b. split; [reflexivity|]. split; [exact Hb|]. split; [reflexivity|].
      destruct Hw as [-> | ->]; [left|right]; split; auto.
    - intros vs s5 t5 k5 S5 E5 M5 _. cbn [ps_env set_env]. rewrite He. unfold act_first_rest. cbn [lookup String.eqb Ascii.eqb Bool.eqb].
      destruct (HP _ _ _ P1) as (e & -> & He1 & ->). unfold left_assoc_additive. cbn [as_node abind to_iface_slice slice_elems].
      destruct (additive_loop_ok leaf tr lc _ _ _ M5 e t1 (sp_add_mul _ _ _ He1)) as (e' & -> & H2 & H3).
      exists (t1 ++ t5), (total lc e + k5). split; [exact (stepped_trans _ _ _ _ _ _ _ S1 S5)|]. exists e'. auto.
  Qed.
  Lemma multitive_ok {L} (leaf : L -> text -> Prop) tr lc r s : inner r = true -> counted s -> ps_env s = [] ->
    (forall t v k, Post r t v k -> post tr lc (sp_prim leaf) t v k) ->
    wpg F (multitive r) s (fun v s' => exists t k, stepped s s' t k /\ post tr lc (sp_mul leaf) t v k).
  Proof.
    intros Hr Hc He HP. apply wp_action, wp_seq. cbn [seq_wp app]. split; [start|].
    apply wp_label, ref_ok; [lia|exact Hr|exact Hc|]. intros v1 s1 t1 k1 S1 E1 P1.
    split; [eexists _, _; exact S1|]. apply wp_label.
    eapply (wp_star _ (mul_item leaf tr lc)); [exact (stepped_counted _ _ _ _ S1)| |].
    - intros s2 C2 E2. apply choice_ok; [exact C2|]. intros s2' F2 C2'. repeat constructor.
      + apply wp_seq. cbn [seq_wp app]. split; [start|].
        apply lit_ok; [reflexivity|exact C2'|]. intros s3 t3 S3 E3 W3. split; [eexists _, _; exact S3|].
        apply ref_ok; [lia|exact Hr|exact (stepped_counted _ _ _ _ S3)|]. intros v4 s4 t4 k4 S4 E4 P4.
        pose proof (stepped_trans _ _ _ _ _ _ _ S3 S4) as S34. split; [eexists _, _; exact S34|].
        apply wp_class; [exact (stepped_counted _ _ _ _ S4)|]. intros s5 c S5 E5 Hcl.
        destruct (HP _ _ _ P4) as (b & -> & Hb & ->). exists (t3 ++ t4 ++ [c]), (total lc b).
        split. { rewrite app_assoc. replace (total lc b) with (0 + total lc b + 0) by lia.
                 exact (failed_stepped_trans _ _ _ _ _ F2 (stepped_trans _ _ _ _ _ _ _ S34 S5) C2). }
        exists t3, t4, b. split; [exact Hb|]. split; [reflexivity|]. right. right. exists [c], (gc_raw c).
        split; [reflexivity|]. split; [exact W3|]. split; [reflexivity|]. apply ur_char; [|exact Hcl].
        pose proof (stepped_plain _ _ _ _ S5) as Hp. inversion Hp. assumption.
      + apply wp_seq. cbn [seq_wp app]. split; [start|].
        apply sign_ok; [exact C2'|reflexivity|reflexivity|]. intros w s3 t3 S3 E3 W3 Hw. split; [eexists _, _; exact S3|].
        apply ref_ok; [lia|exact Hr|exact (stepped_counted _ _ _ _ S3)|]. intros v4 s4 t4 k4 S4 E4 P4.
        destruct (HP _ _ _ P4) as (b & -> & Hb & ->). exists (t3 ++ t4), (total lc b).
        split; [exact (failed_stepped_trans _ _ _ _ _ F2 (stepped_trans _ _ _ _ _ _ _ S3 S4) C2)|].
        exists t3, t4, b. split; [exact Hb|]. split; [reflexivity|]. destruct Hw as [-> | ->]; [left|right; left]; auto.
    - intros vs s5 t5 k5 S5 E5 M5 _. cbn [ps_env set_env]. rewrite He. unfold act_first_rest. cbn [lookup String.eqb Ascii.eqb Bool.eqb].
      destruct (HP _ _ _ P1) as (e & -> & He1 & ->). unfold left_assoc_multitive. cbn [as_node abind to_iface_slice slice_elems].
      destruct (multitive_loop_ok leaf tr lc _ _ _ M5 e t1 (sp_mul_prim _ _ _ He1)) as (e' & -> & H2 & H3).
      exists (t1 ++ t5), (total lc e + k5). split; [exact (stepped_trans _ _ _ _ _ _ _ S1 S5)|]. exists e'. auto.
  Qed.
  Lemma parenthesized_ok {L} (leaf : L -> text -> Prop) tr lc r s : inner r = true -> counted s -> ps_env s = [] ->
    (forall t v k, Post r t v k -> post tr lc (sp_add leaf) t v k) ->
    wpg F (parenthesized r) s (fun v s' => exists t k, stepped s s' t k /\ post tr lc (sp_parens leaf) t v k).
  Proof.
    intros Hr Hc He HP. apply wp_action, wp_seq. cbn [seq_wp app]. split; [start|].
    apply lit_ok; [reflexivity|exact Hc|]. intros s1 t1 S1 E1 W1. split; [eexists _, _; exact S1|].
    apply wp_label, ref_ok; [lia|exact Hr|exact (stepped_counted _ _ _ _ S1)|]. intros v2 s2 t2 k2 S2 E2 P2.
    pose proof (stepped_trans _ _ _ _ _ _ _ S1 S2) as S12. split; [eexists _, _; exact S12|].
    apply lit_ok; [reflexivity|exact (stepped_counted _ _ _ _ S2)|]. intros s3 t3 S3 E3 W3.
    rewrite E3. cbn [ps_env set_env]. rewrite E1, He. unfold act_node. cbn [lookup String.eqb Ascii.eqb Bool.eqb].
    destruct (HP _ _ _ P2) as (e & -> & He1 & ->). cbn [as_node abind].
    exists (t1 ++ t2 ++ t3), (0 + total lc e + 0). split; [rewrite app_assoc; exact (stepped_trans _ _ _ _ _ _ _ S12 S3)|].
    exists e. split; [reflexivity|]. split; [constructor; assumption|lia].
  Qed.
  Lemma unary_plus_ok {L} (leaf : L -> text -> Prop) tr lc r s : inner r = true -> counted s -> ps_env s = [] ->
    (forall t v k, Post r t v k -> post tr lc (sp_prim leaf) t v k) ->
    wpg F (unary_plus r) s (fun v s' => exists t k, stepped s s' t k /\ post tr lc (sp_prim leaf) t v k).
  Proof.
    intros Hr Hc He HP. apply wp_action, wp_seq. cbn [seq_wp app]. split; [start|].
    apply lit_ok; [reflexivity|exact Hc|]. intros s1 t1 S1 E1 W1. split; [eexists _, _; exact S1|].
    apply wp_label, ref_ok; [lia|exact Hr|exact (stepped_counted _ _ _ _ S1)|]. intros v2 s2 t2 k2 S2 E2 P2.
    cbn [ps_env set_env]. rewrite E1, He. unfold act_node. cbn [lookup String.eqb Ascii.eqb Bool.eqb].
    destruct (HP _ _ _ P2) as (e & -> & He1 & ->). cbn [as_node abind].
    exists (t1 ++ t2), (0 + total lc e). split; [exact (stepped_trans _ _ _ _ _ _ _ S1 S2)|].
    exists e. split; [reflexivity|]. split; [constructor; assumption|lia].
  Qed.
  Lemma unary_minus_ok {L} (leaf : L -> text -> Prop) tr lc r s : inner r = true -> counted s -> ps_env s = [] ->
    (forall t v k, Post r t v k -> post tr lc (sp_prim leaf) t v k) ->
    wpg F (unary_minus r) s (fun v s' => exists t k, stepped s s' t k /\ post tr lc (sp_prim leaf) t v k).
  Proof.
    intros Hr Hc He HP. apply wp_action, wp_seq. cbn [seq_wp app]. split; [start|].
    apply lit_ok; [reflexivity|exact Hc|]. intros s1 t1 S1 E1 W1. split; [eexists _, _; exact S1|].
    apply wp_label, ref_ok; [lia|exact Hr|exact (stepped_counted _ _ _ _ S1)|]. intros v2 s2 t2 k2 S2 E2 P2.
    cbn [ps_env set_env]. rewrite E1, He. unfold act_unary_minus. cbn [lookup String.eqb Ascii.eqb Bool.eqb].
    destruct (HP _ _ _ P2) as (e & -> & He1 & ->). cbn [as_node abind].
    exists (t1 ++ t2), (0 + total lc e). split; [exact (stepped_trans _ _ _ _ _ _ _ S1 S2)|].
    exists (Neg e). split; [reflexivity|]. split; [constructor; assumption|cbn [total]; lia].
  Qed.

  Definition matches (s : pstate) (P : text -> val -> Z -> Prop) : val -> pstate -> Prop :=
    fun v s' => exists t k, stepped s s' t k /\ P t v k.
  (** a choice between rules *)
  Lemma refs_ok f alts s (P : text -> val -> Z -> Prop) : (f <= F)%nat -> counted s ->
    Forall (fun r => inner r = true /\ forall t v k, Post r t v k -> P t v k) alts ->
    wpg f (EChoice (map ERef alts)) s (matches s P).
  Proof.
    intros Hf Hc H. apply choice_ok; [exact Hc|]. intros s1 F1 C1. rewrite Forall_forall. intros e He.
    apply in_map_iff in He as (r & <- & Hr). rewrite Forall_forall in H. destruct (H r Hr) as (H1 & H2).
    apply ref_ok; [lia|exact H1|exact C1|]. intros v s2 t k S2 _ P2. exists t, k. split; [|apply H2, P2].
    exact (failed_stepped_trans _ _ _ _ _ F1 S2 Hc).
  Qed.
  Lemma alias_ok r s (P : text -> val -> Z -> Prop) : counted s -> inner r = true -> (forall t v k, Post r t v k -> P t v k) ->
    wpg F (ERef r) s (matches s P).
  Proof. intros Hc Hr H. apply ref_ok; [lia|exact Hr|exact Hc|]. intros v s2 t k S2 _ P2. exists t, k. auto. Qed.

  Lemma integer_ok s : counted s -> wpg F (rules Integer) s (matches s (Post Integer)).
  Proof.
    intros Hc. apply wp_action. eapply (wp_plus _ (fun _ t k => exists c, t = [c] /\ is_digit c /\ k = 0)); [exact Hc| |].
    - intros s1 C1 _. apply wp_class; [exact C1|]. intros s2 c S2 _ H2. exists [c], 0. split; [exact S2|]. exists c. split; [reflexivity|].
      split; [|reflexivity]. apply digit_class, H2.
    - intros vs s2 t k S2 _ M Hne. unfold act_integer. rewrite (proj1 S2), slice_from_app. exists t, k. split; [exact S2|].
      exists (atoi_digits t). split; [reflexivity|].
      assert (Forall is_digit t /\ k = 0 /\ (vs <> [] -> t <> [])) as (H1 & H2 & H3).
      { clear S2 Hne. induction M as [|v vs t u k l (c & -> & Hd & ->) M (I1 & I2 & I3)]; [repeat split; [constructor|congruence]|].
        split; [constructor; assumption|]. split; [lia|discriminate]. }
      split; [|exact H2]. split; [apply H3, Hne|]. split; [exact H1|]. unfold atoi_digits. rewrite decimal_digits. reflexivity.
  Qed.
  Lemma compare_op_ok s : counted s -> wpg F (rules CompareOp) s (matches s (Post CompareOp)).
  Proof.
    intros Hc. apply choice_ok; [exact Hc|]. intros s1 F1 C1.
    change [lit "="; lit "<>"; lit "<="; lit "<"; lit ">="; lit ">"] with (map lit ["="; "<>"; "<="; "<"; ">="; ">"]%string).
    rewrite Forall_forall. intros e He. apply in_map_iff in He as (w & <- & Hw).
    apply lit_ok; [|exact C1|].
    - cbn in Hw. decompose [or] Hw; subst; try reflexivity; contradiction.
    - intros s2 t S2 _ W. exists t, 0. split; [exact (failed_stepped_trans _ _ _ _ _ F1 S2 Hc)|]. exists w. auto.
  Qed.
  Lemma inc_ok s : counted s -> wpg F (rules IncRandCount) s (matches s (Post IncRandCount)).
  Proof.
    intros (Hp & c & C1 & C2). apply wp_state. rewrite C2. cbn. exists [], 1. split; [|split; reflexivity]. split; [reflexivity|]. split; [exact Hp|]. split; [reflexivity|].
    exists c. auto.
  Qed.
  Ltac label := apply wp_label.
  Lemma random_ok s : counted s -> ps_env s = [] -> wpg F (rules RandomNumber) s (matches s (Post RandomNumber)).
  Proof.
    intros Hc He. apply wp_action, wp_seq. cbn [seq_wp app]. split; [start|].
    apply lit_ok; [reflexivity|exact Hc|]. intros s1 t1 S1 E1 W1. split; [eexists _, _; exact S1|].
    apply wp_label, ref_ok; [lia|reflexivity|exact (stepped_counted _ _ _ _ S1)|]. intros v2 s2 t2 k2 S2 E2 (lo & -> & Hlo & ->).
    pose proof (stepped_trans _ _ _ _ _ _ _ S1 S2) as S12. split; [eexists _, _; exact S12|].
    apply lit_ok; [reflexivity|exact (stepped_counted _ _ _ _ S2)|]. intros s3 t3 S3 E3 W3.
    pose proof (stepped_trans _ _ _ _ _ _ _ S12 S3) as S13. split; [eexists _, _; exact S13|].
    apply wp_label, ref_ok; [lia|reflexivity|exact (stepped_counted _ _ _ _ S3)|]. intros v4 s4 t4 k4 S4 E4 (hi & -> & Hhi & ->).
    pose proof (stepped_trans _ _ _ _ _ _ _ S13 S4) as S14. split; [eexists _, _; exact S14|].
    apply lit_ok; [reflexivity|exact (stepped_counted _ _ _ _ S4)|]. intros s5 t5 S5 E5 W5.
    pose proof (stepped_trans _ _ _ _ _ _ _ S14 S5) as S15. split; [eexists _, _; exact S15|].
    apply ref_ok; [lia|reflexivity|exact (stepped_counted _ _ _ _ S5)|]. intros v6 s6 t6 k6 S6 E6 (-> & ->).
    pose proof (stepped_trans _ _ _ _ _ _ _ S15 S6) as S16.
    rewrite E6, E5. cbn [ps_env set_env]. rewrite E3. cbn [ps_env set_env]. rewrite E1, He.
    unfold act_var. cbn [lookup String.eqb Ascii.eqb Bool.eqb as_node abind].
    eexists _, _. split; [exact S16|]. exists lo, hi. split; [reflexivity|].
    assert (forall e : iexpr, total icount e = 0) as Z0 by (induction e as [| |? ? I1 ? I2]; cbn [total]; [reflexivity|assumption|rewrite I1, I2; reflexivity]).
    rewrite !Z0. split; [|reflexivity]. rewrite app_nil_r, <- !app_assoc. constructor; assumption.
  Qed.
  Lemma roll_rule_ok kd letter s : counted s -> ps_env s = [] ->
    wpg F (roll_rule kd letter) s (matches s (post_roll kd letter)).
  Proof.
    intros Hc He. apply wp_action, wp_seq. cbn [seq_wp app]. split; [start|].
    apply wp_label, ref_ok; [lia|reflexivity|exact Hc|]. intros v1 s1 t1 k1 S1 E1 (n & -> & Hn & ->). split; [eexists _, _; exact S1|].
    apply lit_i_ok; [exact (stepped_counted _ _ _ _ S1)|]. intros v2 s2 t2 S2 E2 W2.
    pose proof (stepped_trans _ _ _ _ _ _ _ S1 S2) as S12. split; [eexists _, _; exact S12|].
    apply wp_label, ref_ok; [lia|reflexivity|exact (stepped_counted _ _ _ _ S2)|]. intros v3 s3 t3 k3 S3 E3 (m & -> & Hm & ->).
    pose proof (stepped_trans _ _ _ _ _ _ _ S12 S3) as S13. split; [eexists _, _; exact S13|].
    apply ref_ok; [lia|reflexivity|exact (stepped_counted _ _ _ _ S3)|]. intros v4 s4 t4 k4 S4 E4 (-> & ->).
    pose proof (stepped_trans _ _ _ _ _ _ _ S13 S4) as S14.
    rewrite E4. cbn [ps_env set_env]. rewrite E2. cbn [ps_env set_env]. rewrite He.
    unfold act_var. cbn [lookup String.eqb Ascii.eqb Bool.eqb as_node abind].
    eexists _, _. split; [exact S14|]. exists n, m. split; [reflexivity|]. split; [|lia].
    rewrite app_nil_r, <- !app_assoc. constructor; assumption.
  Qed.

  (** lists of rolls *)
  Definition roll_item (kd : vkind) (letter : string) (v : val) (t : text) (k : Z) : Prop :=
    exists o u w r, t = o ++ u /\ word "+" o /\ sp_roll letter r u /\
      v = VSlice [w; VNode (NInfix (OpVar kd) (rtree (fst r)) (rtree (snd r)))].
  Lemma roll_items_ok kd letter f r s (Q : val -> pstate -> Prop) : (f <= F)%nat -> inner r = true -> counted s ->
    (forall t v k, Post r t v k -> post_roll kd letter t v k) ->
    (forall vs s' t k, stepped s s' t k -> ps_env s' = ps_env s -> many (roll_item kd letter) vs t k -> Q (VSlice vs) s') ->
    wpg f (EStar (ESeq [lit "+"; ERef r])) s Q.
  Proof.
    intros Hf Hr Hc HP HQ. eapply (wp_star _ (roll_item kd letter)); [exact Hc| |eauto].
    intros s1 C1 _. apply wp_seq. cbn [seq_wp app]. split; [start|].
    apply lit_ok; [reflexivity|exact C1|]. intros s2 t2 S2 _ W2. split; [eexists _, _; exact S2|].
    apply ref_ok; [lia|exact Hr|exact (stepped_counted _ _ _ _ S2)|]. intros v3 s3 t3 k3 S3 _ P3.
    destruct (HP _ _ _ P3) as (n & m & -> & Hs & ->). eexists _, _. split; [exact (stepped_trans _ _ _ _ _ _ _ S2 S3)|].
    exists t2, t3, (VBytes "+"), (n, m). auto.
  Qed.
  Lemma rolls_loop_ok kd letter K vs t k : many (roll_item kd letter) vs t k -> forall done,
    exists rs, rolls_loop K done vs = AVal (VNode (K (done ++ map (roll_tree kd) rs))) /\ sp_rolls letter rs t.
  Proof.
    induction 1 as [|v vs t t' k k' (o & u & w & r & -> & Ho & Hr & ->) _ IHm]; intros done.
    - exists []. rewrite app_nil_r. split; [reflexivity|constructor].
    - cbn [rolls_loop to_iface_slice abind slice_elems index nth_error as_vroll].
      destruct (IHm (done ++ [VRoll kd (rtree (fst r)) (rtree (snd r))])) as (rs & -> & Hrs). exists (r :: rs). split.
      + rewrite <- app_assoc. reflexivity.
      + rewrite <- app_assoc. constructor; assumption.
  Qed.
  Lemma b_list_ok s : counted s -> ps_env s = [] -> wpg F (rules BRollList) s (matches s (Post BRollList)).
  Proof.
    intros Hc He. apply wp_action, wp_seq. cbn [seq_wp app]. split; [start|].
    apply wp_label, ref_ok; [lia|reflexivity|exact Hc|]. intros v1 s1 t1 k1 S1 E1 (n & m & -> & Hr & ->). split; [eexists _, _; exact S1|].
    apply wp_label. apply (roll_items_ok KB "b"); [lia|reflexivity|exact (stepped_counted _ _ _ _ S1)|auto|].
    intros vs s2 t2 k2 S2 E2 M2. cbn [ps_env set_env]. rewrite He.
    unfold act_b_roll_list. cbn [lookup String.eqb Ascii.eqb Bool.eqb as_vroll abind to_iface_slice slice_elems].
    destruct (rolls_loop_ok KB "b" NBRollList _ _ _ M2 [VRoll KB (rtree n) (rtree m)]) as (rs & -> & Hrs).
    eexists _, _. split; [exact (stepped_trans _ _ _ _ _ _ _ S1 S2)|]. exists (n, m), rs. split; [reflexivity|]. constructor; assumption.
  Qed.
  Lemma threshold_ok f s (Q : val -> pstate -> Prop) : (f <= F)%nat -> counted s ->
    (forall s' th t k v, stepped s s' t k -> ps_env s' = ps_env s -> sp_threshold th t ->
        (th = None /\ v = VNil \/ exists e a b, th = Some e /\ v = VSlice [a; VNode (itree e); b]) -> Q v s') ->
    wpg f (EOpt (ESeq [lit "["; ERef IntExpr; lit "]"])) s Q.
  Proof.
    intros Hf Hc HQ. apply wp_opt.
    - apply wp_seq. cbn [seq_wp app]. split; [eexists _, _; apply stepped_refl, Hc|].
      apply lit_ok; [reflexivity|exact Hc|]. intros s2 t2 S2 _ W2. split; [eexists _, _; exact S2|].
      apply ref_ok; [lia|reflexivity|exact (stepped_counted _ _ _ _ S2)|]. intros v3 s3 t3 k3 S3 E3 (e & -> & He & ->).
      pose proof (stepped_trans _ _ _ _ _ _ _ S2 S3) as S23. split; [eexists _, _; exact S23|].
      apply lit_ok; [reflexivity|exact (stepped_counted _ _ _ _ S3)|]. intros s4 t4 S4 _ W4.
      eapply HQ; [exact (stepped_trans _ _ _ _ _ _ _ S23 S4)|reflexivity| |right; eexists e, _, _; split; reflexivity].
      rewrite <- app_assoc. constructor; assumption.
    - intros s' F' E'. eapply HQ; [exact (failed_stepped _ _ Hc F')|exact E'|constructor|left; split; reflexivity].
  Qed.
  Lemma r_list_ok kd letter r s : counted s -> ps_env s = [] -> inner r = true -> (forall t v k, Post r t v k -> post_roll kd letter t v k) ->
    wpg F (r_list_rule r) s (matches s (fun t v k => exists r rs th t1 t2 t3,
      v = VNode (NRRollList (map (roll_tree kd) (r :: rs)) (th_tree th)) /\ t = t1 ++ t2 ++ t3 /\
      sp_roll letter r t1 /\ sp_rolls letter rs t2 /\ sp_threshold th t3)).
  Proof.
    intros Hc He Hr HP. apply wp_action, wp_seq. cbn [seq_wp app]. split; [start|].
    apply wp_label, ref_ok; [lia|exact Hr|exact Hc|]. intros v1 s1 t1 k1 S1 E1 P1. destruct (HP _ _ _ P1) as (n & m & -> & Hnm & ->).
    split; [eexists _, _; exact S1|].
    apply wp_label. apply (roll_items_ok kd letter); [lia|exact Hr|exact (stepped_counted _ _ _ _ S1)|exact HP|].
    intros vs s2 t2 k2 S2 E2 M2. pose proof (stepped_trans _ _ _ _ _ _ _ S1 S2) as S12. split; [eexists _, _; exact S12|].
    apply wp_label. apply threshold_ok; [lia|exact (stepped_counted _ _ _ _ S2)|]. intros s3 th t3 k3 v3 S3 E3 Hth Hv.
    cbn [ps_env set_env]. rewrite He.
    unfold act_r_roll_list. cbn [lookup String.eqb Ascii.eqb Bool.eqb as_vroll abind to_iface_slice slice_elems].
    destruct (rolls_loop_ok kd letter (fun rolls => NRRollList rolls (th_tree th)) _ _ _ M2 [VRoll kd (rtree n) (rtree m)]) as (rs & El & Hrs).
    destruct Hv as [(-> & ->)|(e & a & b & -> & ->)]; cbn [to_iface_slice abind index nth_error as_node]; cbn [th_tree] in El; rewrite El.
    - eexists _, _. split; [exact (stepped_trans _ _ _ _ _ _ _ S12 S3)|]. exists (n, m), rs, None, t1, t2, t3. rewrite <- app_assoc. repeat split; assumption.
    - eexists _, _. split; [exact (stepped_trans _ _ _ _ _ _ _ S12 S3)|]. exists (n, m), rs, (Some e), t1, t2, t3. rewrite <- app_assoc. repeat split; assumption.
  Qed.
  Lemma compare_ok wrap left s (PL : text -> node -> Z -> Prop) : counted s -> ps_env s = [] -> inner left = true ->
    (forall t v k, Post left t v k -> exists n, v = VNode n /\ PL t n k) ->
    wpg F (compare_rule wrap left) s (matches s (fun t v k => exists n t1 t2 op g,
      v = VNode (wrap (NInfix (OpCmp op) n (itree g))) /\ t = t1 ++ t2 /\ PL t1 n k /\ sp_target op g t2)).
  Proof.
    intros Hc He Hl HP. apply wp_action, wp_seq. cbn [seq_wp app]. split; [start|].
    apply wp_label, ref_ok; [lia|exact Hl|exact Hc|]. intros v1 s1 t1 k1 S1 E1 P1. destruct (HP _ _ _ P1) as (n & -> & Hn). split; [eexists _, _; exact S1|].
    apply wp_label, ref_ok; [lia|reflexivity|exact (stepped_counted _ _ _ _ S1)|]. intros v2 s2 t2 k2 S2 E2 (op & -> & Hop & W2 & ->).
    pose proof (stepped_trans _ _ _ _ _ _ _ S1 S2) as S12. split; [eexists _, _; exact S12|].
    apply wp_label, ref_ok; [lia|reflexivity|exact (stepped_counted _ _ _ _ S2)|]. intros v3 s3 t3 k3 S3 E3 (g & -> & Hg & ->).
    cbn [ps_env set_env]. rewrite He.
    unfold act_compare. cbn [lookup String.eqb Ascii.eqb Bool.eqb as_node as_bytes abind].
    eexists _, _. split; [exact (stepped_trans _ _ _ _ _ _ _ S12 S3)|]. exists n, t1, (t2 ++ t3), op, g. split; [reflexivity|]. rewrite <- app_assoc. split; [reflexivity|].
    assert (forall e : iexpr, total icount e = 0) as Z0 by (induction e as [| |? ? I1 ? I2]; cbn [total]; [reflexivity|assumption|rewrite I1, I2; reflexivity]).
    rewrite Z0, !Z.add_0_r. split; [exact Hn|]. constructor; assumption.
  Qed.
  Lemma u_expr_ok s : counted s -> ps_env s = [] -> wpg F (rules URollExpr) s (matches s (Post URollExpr)).
  Proof.
    intros Hc He. apply wp_action, wp_seq. cbn [seq_wp app]. split; [start|].
    apply wp_label, ref_ok; [lia|reflexivity|exact Hc|]. intros v1 s1 t1 k1 S1 E1 (r & rs & th & u1 & u2 & u3 & -> & -> & Hr & Hrs & Hth). split; [eexists _, _; exact S1|].
    apply wp_label, wp_opt.
    - apply wp_seq. cbn [seq_wp app]. split; [eexists _, _; exact (stepped_refl _ (stepped_counted _ _ _ _ S1))|].
      apply sign_ok; [exact (stepped_counted _ _ _ _ S1)|reflexivity|reflexivity|]. intros w s3 t3 S3 E3 W3 Hw. split; [eexists _, _; exact S3|].
      apply ref_ok; [lia|reflexivity|exact (stepped_counted _ _ _ _ S3)|]. intros v4 s4 t4 k4 S4 E4 (e & -> & He4 & ->).
      cbn [ps_env set_env]. rewrite He.
      unfold act_u_roll_expr. cbn [lookup String.eqb Ascii.eqb Bool.eqb as_node as_bytes abind to_iface_slice index nth_error].
      pose proof (stepped_trans _ _ _ _ _ _ _ S1 (stepped_trans _ _ _ _ _ _ _ S3 S4)) as S14. rewrite <- !app_assoc in S14.
      destruct Hw as [-> | ->]; cbn [String.eqb Ascii.eqb Bool.eqb]; (eexists _, _; split; [exact S14|]).
      + exists r, rs, th, (Some (true, e)). split; [reflexivity|]. constructor; try assumption. constructor; assumption.
      + exists r, rs, th, (Some (false, e)). split; [reflexivity|]. constructor; try assumption. constructor; assumption.
    - intros s2 F2 E2. cbn [ps_env set_env]. rewrite He.
      unfold act_u_roll_expr. cbn [lookup String.eqb Ascii.eqb Bool.eqb as_node as_bytes abind to_iface_slice].
      eexists _, _. split; [exact (stepped_trans _ _ _ _ _ _ _ S1 (failed_stepped _ _ (stepped_counted _ _ _ _ S1) F2))|].
      exists r, rs, th, None. split; [reflexivity|]. rewrite <- !app_assoc. constructor; try assumption. constructor.
  Qed.
  Lemma calc_ok s : counted s -> ps_env s = [] -> wpg F (rules Calc) s (matches s (Post Calc)).
  Proof.
    intros Hc He. apply wp_action, wp_seq. cbn [seq_wp app]. split; [start|].
    apply lit_i_ok; [exact Hc|]. intros v1 s1 t1 S1 E1 W1. split; [eexists _, _; exact S1|].
    apply lit_ok; [reflexivity|exact (stepped_counted _ _ _ _ S1)|]. intros s2 t2 S2 E2 W2.
    pose proof (stepped_trans _ _ _ _ _ _ _ S1 S2) as S12. split; [eexists _, _; exact S12|].
    apply wp_label, ref_ok; [lia|reflexivity|exact (stepped_counted _ _ _ _ S2)|]. intros v3 s3 t3 k3 S3 E3 (e & -> & He3 & ->).
    pose proof (stepped_trans _ _ _ _ _ _ _ S12 S3) as S13. split; [eexists _, _; exact S13|].
    apply lit_ok; [reflexivity|exact (stepped_counted _ _ _ _ S3)|]. intros s4 t4 S4 E4 W4.
    rewrite E4. cbn [ps_env set_env]. rewrite E2, E1, He. unfold act_calc. cbn [lookup String.eqb Ascii.eqb Bool.eqb as_node abind].
    eexists _, _. split; [exact (stepped_trans _ _ _ _ _ _ _ S13 S4)|]. exists e. split; [reflexivity|]. rewrite <- !app_assoc. constructor; assumption.
  Qed.

  (** CHOICE *)
  Lemma spaces_ok f s (Q : val -> pstate -> Prop) : counted s ->
    (forall vs s' t k, stepped s s' t k -> ps_env s' = ps_env s -> Forall (fun c => is_Z (gc_rune c) = true) t ->
        match ps_rest s' with c :: _ => is_Z (gc_rune c) = false | [] => True end -> Q (VSlice vs) s') ->
    wpg f (EStar cls_Z) s Q.
  Proof.
    intros Hc HQ. eapply (wp_star _ (fun _ t k => exists c, t = [c] /\ is_Z (gc_rune c) = true)); [exact Hc| |].
    - intros s1 C1 _. apply wp_class; [exact C1|]. intros s2 c S2 _ H2. exists [c], 0. split; [exact S2|]. exists c. split; [reflexivity|].
      unfold class_match, class_hit in H2. cbn in H2. destruct (is_Z (gc_rune c)); [reflexivity|discriminate].
    - intros vs s2 t k S2 E2 M (s3 & s4 & n & H3 & H4). eapply HQ; [exact S2|exact E2| |].
      + clear - M. induction M as [|v vs t u k l (c & -> & Hd) M I1]; [constructor|]. constructor; assumption.
      + rewrite <- H4. destruct (pred f) as [|f']; [discriminate|]. cbn [pexpr cls_Z] in H3. destruct (ps_rest s3) as [|c l]; [exact Logic.I|].
        unfold class_match, class_hit in H3. cbn in H3. destruct (is_Z (gc_rune c)); [discriminate|reflexivity].
  Qed.
  Lemma chars_ok s : counted s -> wpg F (rules ChoiceItemChars) s (matches s (Post ChoiceItemChars)).
  Proof.
    intros Hc. apply wp_action. eapply (wp_plus _ (fun _ t k => exists c, t = [c] /\ item_char c)); [exact Hc| |].
    - intros s1 C1 _. apply wp_class; [exact C1|]. intros s2 c S2 _ H2. exists [c], 0. split; [exact S2|]. exists c. split; [reflexivity|].
      apply item_class, H2.
    - intros vs s2 t k S2 _ M Hne. unfold act_choice_chars. rewrite (proj1 S2), slice_from_app. exists t, k. split; [exact S2|].
      eexists. split; [reflexivity|].
      assert (Forall item_char t /\ (vs <> [] -> t <> [])) as (H1 & H3).
      { clear S2 Hne. induction M as [|v vs t u k l (c & -> & Hd) M (I1 & I3)]; [repeat split; [constructor|congruence]|].
        split; [constructor; assumption|]. discriminate. }
      split; [apply H3, Hne|]. split; [exact H1|reflexivity].
  Qed.
  Lemma item_ok s : counted s -> ps_env s = [] -> wpg F (rules ChoiceItem) s (matches s (Post ChoiceItem)).
  Proof.
    intros Hc He. apply wp_action, wp_seq. cbn [seq_wp app]. split; [start|].
    apply spaces_ok; [exact Hc|]. intros vs s1 t1 k1 S1 E1 Z1 H1. split; [eexists _, _; exact S1|].
    apply wp_label, ref_ok; [lia|reflexivity|exact (stepped_counted _ _ _ _ S1)|]. intros v2 s2 t2 k2 S2 E2 (x & -> & Hne & Hi & ->).
    cbn [ps_env set_env]. rewrite E1, He. unfold act_label. cbn [lookup String.eqb Ascii.eqb Bool.eqb].
    eexists _, _. split; [exact (stepped_trans _ _ _ _ _ _ _ S1 S2)|]. eexists. split; [reflexivity|]. apply item_intro; try assumption.
    destruct S2 as (S2 & _). cbn in S2. rewrite S2 in H1. destruct t2; [exact Logic.I|exact H1].
  Qed.
  Definition choice_item (v : val) (t : text) (k : Z) : Prop :=
    exists o u w x, t = o ++ u /\ word "," o /\ sp_item x u /\ v = VSlice [w; VNode (NString x)].
  Lemma items_loop_ok vs t k : many choice_item vs t k -> forall done,
    exists ss, items_loop done vs = AVal (VNode (NChoice (done ++ ss))) /\ sp_items ss t.
  Proof.
    induction 1 as [|v vs t t' k k' (o & u & w & x & -> & Ho & Hr & ->) _ IHm]; intros done.
    - exists []. rewrite app_nil_r. split; [reflexivity|constructor].
    - cbn [items_loop to_iface_slice abind slice_elems index nth_error as_string_node].
      destruct (IHm (done ++ [x])) as (rs & -> & Hrs). exists (x :: rs). split.
      + rewrite <- app_assoc. reflexivity.
      + rewrite <- app_assoc. constructor; assumption.
  Qed.
  Lemma items_ok s : counted s -> ps_env s = [] -> wpg F (rules ChoiceItems) s (matches s (Post ChoiceItems)).
  Proof.
    intros Hc He. apply wp_action, wp_seq. cbn [seq_wp app]. split; [start|].
    apply wp_label, ref_ok; [lia|reflexivity|exact Hc|]. intros v1 s1 t1 k1 S1 E1 (x & -> & Hx). split; [eexists _, _; exact S1|].
    apply wp_label. eapply (wp_star _ choice_item); [exact (stepped_counted _ _ _ _ S1)| |].
    - intros s2 C2 _. apply wp_seq. cbn [seq_wp app]. split; [start|].
      apply lit_ok; [reflexivity|exact C2|]. intros s3 t3 S3 _ W3. split; [eexists _, _; exact S3|].
      apply ref_ok; [lia|reflexivity|exact (stepped_counted _ _ _ _ S3)|]. intros v4 s4 t4 k4 S4 _ (y & -> & Hy).
      eexists _, _. split; [exact (stepped_trans _ _ _ _ _ _ _ S3 S4)|]. exists t3, t4, (VBytes ","), y. auto.
    - intros vs s2 t2 k2 S2 E2 M2 _. cbn [ps_env set_env]. rewrite He. unfold act_choice_items.
      cbn [lookup String.eqb Ascii.eqb Bool.eqb as_string_node abind to_iface_slice slice_elems].
      destruct (items_loop_ok _ _ _ M2 [x]) as (ss & -> & Hss).
      eexists _, _. split; [exact (stepped_trans _ _ _ _ _ _ _ S1 S2)|]. exists x, ss, t1, t2. auto.
  Qed.
  Lemma choice_rule_ok s : counted s -> ps_env s = [] -> wpg F (rules Choice) s (matches s (Post Choice)).
  Proof.
    intros Hc He. apply wp_action, wp_seq. cbn [seq_wp app]. split; [start|].
    apply lit_i_ok; [exact Hc|]. intros v1 s1 t1 S1 E1 W1. split; [eexists _, _; exact S1|].
    apply wp_label, ref_ok; [lia|reflexivity|exact (stepped_counted _ _ _ _ S1)|]. intros v2 s2 t2 k2 S2 E2 (x & ss & u1 & u2 & -> & -> & Hx & Hss).
    pose proof (stepped_trans _ _ _ _ _ _ _ S1 S2) as S12. split; [eexists _, _; exact S12|].
    assert (forall s3 t3 k3, stepped s2 s3 t3 k3 -> ps_env s3 = ("items"%string, VNode (NChoice (x :: ss))) :: ps_env s1 -> sp_final_comma t3 ->
      (exists t k, stepped s s3 t k) /\ wpg (pred (pred F)) (lit "]") s3 (fun v s' =>
         match act_label "items" (ps_env s') (slice_from (ps_rest s) (ps_rest s')) (ps_st s') with
         | AVal v => matches s (Post Choice) v s' | AErr m => matches s (Post Choice) VNil (add_err s' m) | APanic _ => False end)) as Hend.
    { intros s3 t3 k3 S3 E3 Hf. pose proof (stepped_trans _ _ _ _ _ _ _ S12 S3) as S13. split; [eexists _, _; exact S13|].
      apply lit_ok; [reflexivity|exact (stepped_counted _ _ _ _ S3)|]. intros s4 t4 S4 E4 W4.
      rewrite E4, E3. unfold act_label. cbn [lookup String.eqb Ascii.eqb Bool.eqb].
      eexists _, _. split; [exact (stepped_trans _ _ _ _ _ _ _ S13 S4)|]. exists x, ss. split; [reflexivity|]. rewrite <- !app_assoc. constructor; assumption. }
    apply wp_opt.
    - apply wp_seq. cbn [seq_wp app]. split; [eexists _, _; exact (stepped_refl _ (stepped_counted _ _ _ _ S2))|].
      apply lit_ok; [reflexivity|exact (stepped_counted _ _ _ _ S2)|]. intros s3 t3 S3 E3 W3. split; [eexists _, _; exact S3|].
      apply spaces_ok; [exact (stepped_counted _ _ _ _ S3)|]. intros vs s4 t4 k4 S4 E4 Z4 _.
      destruct (Hend (set_env s4 (ps_env (set_env s2 (("items"%string, VNode (NChoice (x :: ss))) :: ps_env s1)))) (t3 ++ t4) (0 + k4)) as (H1 & H2).
      + exact (stepped_trans _ _ _ _ _ _ _ S3 S4).
      + reflexivity.
      + constructor; [assumption|apply sep_forall; assumption].
      + split; [exact H1|exact H2].
    - intros s3 F3 E3. destruct (Hend s3 [] 0) as (H1 & H2).
      + exact (failed_stepped _ _ (stepped_counted _ _ _ _ S2) F3).
      + exact E3.
      + constructor.
      + split; [exact H1|exact H2].
  Qed.

  Lemma body_ok r s : inner r = true -> counted s -> ps_env s = [] -> wpg F (rules r) s (matches s (Post r)).
  Proof.
    intros Hr Hc He. destruct r; try discriminate Hr.
    - apply choice_rule_ok; assumption.
    - apply items_ok; assumption.
    - apply item_ok; assumption.
    - apply chars_ok; assumption.
    - apply calc_ok; assumption.
    - apply b_list_ok; assumption.
    - eapply wpp_mono; [|apply (compare_ok (NCommand CBRollComp) BRollList s (fun t n k => exists r rs, n = command_tree (BList r rs) /\ spells (BList r rs) t)); [exact Hc|exact He|reflexivity|]].
      + intros v s' (t & k & S1 & n & t1 & t2 & op & g & -> & -> & (r & rs & -> & Hs) & Ht). exists (t1 ++ t2), k. split; [exact S1|].
        exists r, rs, op, g. split; [reflexivity|]. inversion Hs; subst. rewrite <- app_assoc. constructor; assumption.
      + intros t v k (r & rs & -> & Hs). eexists. split; [reflexivity|]. eauto.
    - eapply wpp_mono; [|apply (r_list_ok KR "r" RRoll s); [exact Hc|exact He|reflexivity|auto]].
      intros v s' (t & k & S1 & r & rs & th & t1 & t2 & t3 & -> & -> & H1 & H2 & H3). eexists _, k. split; [exact S1|].
      exists r, rs, th. split; [reflexivity|]. constructor; assumption.
    - eapply wpp_mono; [|apply (compare_ok (NCommand CRRollComp) RRollList s (fun t n k => exists r rs th, n = command_tree (RList r rs th) /\ spells (RList r rs th) t)); [exact Hc|exact He|reflexivity|]].
      + intros v s' (t & k & S1 & n & t1 & t2 & op & g & -> & -> & (r & rs & th & -> & Hs) & Ht). exists (t1 ++ t2), k. split; [exact S1|].
        exists r, rs, th, op, g. split; [reflexivity|]. inversion Hs; subst. rewrite <- !app_assoc. constructor; assumption.
      + intros t v k (r & rs & th & -> & Hs). eexists. split; [reflexivity|]. eauto.
    - eapply wpp_mono; [|apply (compare_ok (NCommand CURollComp) URollExpr s (fun t n k => exists r rs th b, n = command_tree (UExpr r rs th b) /\ spells (UExpr r rs th b) t)); [exact Hc|exact He|reflexivity|]].
      + intros v s' (t & k & S1 & n & t1 & t2 & op & g & -> & -> & (r & rs & th & b & -> & Hs) & Ht). exists (t1 ++ t2), k. split; [exact S1|].
        exists r, rs, th, b, op, g. split; [reflexivity|]. inversion Hs; subst. rewrite <- !app_assoc. constructor; assumption.
      + intros t v k (r & rs & th & b & -> & Hs). eexists. split; [reflexivity|]. eauto 6.
    - apply u_expr_ok; assumption.
    - apply (r_list_ok KU "u" URoll s); [exact Hc|exact He|reflexivity|auto].
    - apply alias_ok; auto.
    - apply (additive_ok sp_number NInt icount); auto.
    - apply (multitive_ok sp_number NInt icount); auto.
    - apply (refs_ok F [Integer; IntExprUnaryPlus; IntExprUnaryMinus; ParenthesizedIntExpr]); [lia|exact Hc|]. repeat constructor; intros t v k P; auto.
      + destruct P as (x & -> & Hx & ->). exists (Leaf x). repeat split. constructor. exact Hx.
      + destruct P as (e & -> & Hx & ->). inversion Hx; subst. exists e. repeat split. constructor; assumption.
    - apply (parenthesized_ok sp_number NInt icount); auto.
    - apply (unary_plus_ok sp_number NInt icount); auto.
    - apply (unary_minus_ok sp_number NInt icount); auto.
    - eapply wpp_mono; [|apply (compare_ok (fun n => n) DRollExprAdditive s (fun t n k => exists e, n = dtree e /\ sp_dexpr e t /\ k = total dcount e)); [exact Hc|exact He|reflexivity|]].
      + intros v s' (t & k & S1 & n & t1 & t2 & op & g & -> & -> & (e & -> & Hs & ->) & Ht). eexists (t1 ++ t2), _. split; [exact S1|].
        exists e, op, g, t1, t2. auto.
      + intros t v k (e & -> & Hs & ->). eexists. split; [reflexivity|]. exists e. auto.
    - apply alias_ok; auto.
    - apply (additive_ok sp_dleaf dleaf_tree dcount); auto.
    - apply (multitive_ok sp_dleaf dleaf_tree dcount); auto.
    - apply (refs_ok F [DRoll; RandomNumber; Integer; DRollExprUnaryPlus; DRollExprUnaryMinus; ParenthesizedDRollExpr]); [lia|exact Hc|]. repeat constructor; intros t v k P; auto.
      + destruct P as (n & m & -> & Hx & ->). exists (Leaf (DDice n m)). repeat split. constructor. exact Hx.
      + destruct P as (lo & hi & -> & Hx & ->). exists (Leaf (DRand lo hi)). repeat split. constructor. exact Hx.
      + destruct P as (x & -> & Hx & ->). exists (Leaf (DInt x)). repeat split. constructor. exact Hx.
      + destruct P as (e & -> & Hx & ->). inversion Hx; subst. exists e. repeat split. constructor; assumption.
    - apply (parenthesized_ok sp_dleaf dleaf_tree dcount); auto.
    - apply (unary_plus_ok sp_dleaf dleaf_tree dcount); auto.
    - apply (unary_minus_ok sp_dleaf dleaf_tree dcount); auto.
    - apply alias_ok; auto.
    - apply (additive_ok sp_rleaf rleaf_tree rcount); auto.
    - apply (multitive_ok sp_rleaf rleaf_tree rcount); auto.
    - apply (refs_ok F [Integer; RandomNumber; IntRandExprUnaryPlus; IntRandExprUnaryMinus; ParenthesizedIntRandExpr]); [lia|exact Hc|]. repeat constructor; intros t v k P; auto.
      + destruct P as (x & -> & Hx & ->). exists (Leaf (RInt x)). repeat split. constructor. exact Hx.
      + destruct P as (lo & hi & -> & Hx & ->). exists (Leaf (RRand lo hi)). repeat split. constructor. exact Hx.
      + destruct P as (e & -> & Hx & ->). inversion Hx; subst. exists e. repeat split. constructor; assumption.
    - apply (parenthesized_ok sp_rleaf rleaf_tree rcount); auto.
    - apply (unary_plus_ok sp_rleaf rleaf_tree rcount); auto.
    - apply (unary_minus_ok sp_rleaf rleaf_tree rcount); auto.
    - apply roll_rule_ok; assumption.
    - apply roll_rule_ok; assumption.
    - apply roll_rule_ok; assumption.
    - apply roll_rule_ok; assumption.
    - apply (refs_ok F [Integer; RandomNumber; ParenthesizedIntRandExpr]); [lia|exact Hc|]. repeat constructor; intros t v k P; auto.
      + destruct P as (x & -> & Hx & ->). exists (Leaf (RInt x)). repeat split. constructor. exact Hx.
      + destruct P as (lo & hi & -> & Hx & ->). exists (Leaf (RRand lo hi)). repeat split. constructor. exact Hx.
      + destruct P as (e & -> & Hx & ->). inversion Hx; subst. exists e. repeat split. constructor; assumption.
    - apply random_ok; assumption.
    - apply (refs_ok F [Integer; ParenthesizedIntExpr]); [lia|exact Hc|]. repeat constructor; intros t v k P; auto.
      + destruct P as (x & -> & Hx & ->). exists (Leaf x). repeat split. constructor. exact Hx.
      + destruct P as (e & -> & Hx & ->). inversion Hx; subst. exists e. repeat split. constructor; assumption.
    - apply inc_ok; assumption.
    - apply integer_ok; assumption.
    - apply compare_op_ok; assumption.
  Qed.
End Rules.

(** Soundness of every inner rule *)
Theorem rule_sound f : forall r s, inner r = true -> counted s -> wpg f (ERef r) s (RP r s).
Proof.
  induction f as [f IHf] using (well_founded_induction lt_wf). intros r s Hr Hc. destruct f as [|f]; [exact I|].
  apply wpp_ref. eapply wpp_mono; [|apply (body_ok f); [|exact Hr|exact Hc|reflexivity]].
  - intros v s' (t & k & H1 & H2). exists t, k. split; [exact H1|]. split; [reflexivity|exact H2].
  - intros f' r' s' Hf' Hr' Hc'. apply IHf; [lia|exact Hr'|exact Hc'].
Qed.
