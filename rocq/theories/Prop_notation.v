(** Properties C34, C35, C46, C56: notation and parsing of calculations. *)
From Verif Require Import Grammar ProofBase SpecText SpecSyntax SpecGrammar TextFacts PegProofs GrammarSound PegTotal PegForward ParseSound ParseComplete ParseLang ParseCmd ParseTop DecodeProofs
  ParseFacts CaseProofs ParseText NumberText Ast Eval Notation NotationProofs SpecArith ArithProofs NotationText Comp CompProofs Command BCDice BCDiceProofs Prop_arith Prop_parse.
Open Scope list_scope.
Open Scope Z_scope.

Lemma atext_decode s : ascii_text s -> decode s = atext s.
Proof. apply decode_ascii. Qed.
Lemma calc_parses e s : ascii_text s -> fits ("C(" ++ s ++ ")") -> sp_add sp_number e (atext s) -> parse_command ("C(" ++ s ++ ")") = Ok (command_tree (Calculation e)).
Proof. intros Ha Hf H. apply calc_text; [exact Hf|apply valid_ascii, Ha|]. rewrite atext_decode by exact Ha. exact H. Qed.
Lemma calc_notation e : infix_notation (command_tree (Calculation e)) true = (s <~ nt e true ;; Ok ("C(" ++ s ++ ")")%string).
Proof. reflexivity. Qed.
Lemma parsed_nonneg input e : parse_command input = Ok (command_tree (Calculation e)) -> nonneg e.
Proof.
  intros H. apply parse_sound in H as (c & t & rest & E & H & _). assert (itree_inj : forall a b, itree a = itree b -> a = b).
  { induction a as [v|a IH|op a IHa b IHb]; intros [v'|a'|op' a' b'] K; try discriminate K; try (injection K as K).
    - congruence.
    - f_equal. apply IH, K.
    - assert (op = op') as <- by (destruct op, op'; cbn in K; congruence). f_equal; [apply IHa|apply IHb]; assumption. }
  destruct H; cbn [command_tree] in E; try discriminate E. injection E as E. apply itree_inj in E as ->.
  match goal with H : sp_int _ _ |- _ => exact (proj2 (proj2 (leaves_ok sp_number (fun v => 0 <= v <= max_int) number_ok)) _ _ H) end.
Qed.

(** * C35, C56 *)
(** C56: the echoed notation of a calculation is itself accepted, and it is a fixed point: its own echo is the same text. *)
Theorem C56_echo_is_stable input e :
  parse_command input = Ok (command_tree (Calculation e)) ->
  exists echo, infix_notation (command_tree (Calculation e)) true = Ok echo /\
    (fits echo -> exists e', parse_command echo = Ok (command_tree (Calculation e')) /\ infix_notation (command_tree (Calculation e')) true = Ok echo).
Proof.
  intros H. apply parsed_nonneg in H. destruct (notation_spells e H) as (K & _). destruct (K true) as (s & e' & H1 & H2 & H3 & _ & H5 & _).
  exists ("C(" ++ s ++ ")")%string. rewrite calc_notation, H1. split; [reflexivity|]. intros Hf. exists e'. rewrite calc_notation, H2. split; [|reflexivity].
  apply calc_parses; [exact H3|exact Hf|]. eapply sp_kind_add. exact H5.
Qed.
Print Assumptions C56_echo_is_stable.
(** C35: if no multiplication has a quotient among the factors of its right operand, executing the echo gives the same result (value, message, error) as
    executing the command, for every game system and feeder. *)
Theorem C35_round_trip input e :
  parse_command input = Ok (command_tree (Calculation e)) -> safe e ->
  exists echo, infix_notation (command_tree (Calculation e)) true = Ok echo /\
    (fits echo -> exists e', parse_command echo = Ok (command_tree (Calculation e')) /\
      (forall mr, eval mr (itree e') = eval mr (itree e)) /\
      forall bot f, execute_basic_command bot echo f = execute_basic_command bot input f).
Proof.
  intros H Hs. pose proof (parsed_nonneg _ _ H) as Hn. destruct (notation_spells e Hn) as (K & _). destruct (K true) as (s & e' & H1 & H2 & H3 & _ & H5 & H6).
  exists ("C(" ++ s ++ ")")%string. split; [rewrite calc_notation, H1; reflexivity|]. intros Hf. exists e'.
  assert (parse_command ("C(" ++ s ++ ")") = Ok (command_tree (Calculation e'))) as Hp. { apply calc_parses; [exact H3|exact Hf|]. eapply sp_kind_add. exact H5. }
  split; [exact Hp|]. split; [intros mr; rewrite !eval_itree, (H6 Hs); reflexivity|]. intros bot f. rewrite !execute_basic_eq. rewrite H, Hp.
  destruct (run_calculation (db_game_id bot) e f) as (x & X1 & X2). destruct (run_calculation (db_game_id bot) e' f) as (y & Y1 & Y2).
  unfold run_command in X2, Y2. unfold with_fresh_env. rewrite X2, Y2, (H6 Hs). rewrite calc_notation, H1 in X1. rewrite calc_notation, H2 in Y1. cbn [obind] in X1, Y1. injection X1 as <-. injection Y1 as <-. reflexivity.
Qed.
Print Assumptions C35_round_trip.
Example C35_example : let e := Bin Plus (Bin Minus (Leaf 10) (Bin Minus (Leaf 3) (Neg (Leaf 2)))) (Bin Plus (Leaf 7) (Bin Times (Bin (Over RoundUp) (Leaf 9) (Leaf 2)) (Bin Times (Leaf 3) (Leaf 4)))) in
  parse_command "c(10-(3--2)+(7+9/2u*(3*4)))" = Ok (command_tree (Calculation e)) /\ safe e /\
  infix_notation (command_tree (Calculation e)) true = Ok "C(10-(3-(-2))+7+9/2U*3*4)"%string.
Proof. cbv zeta. split; [vmc|]. split; [cbn; tauto|vmc]. Qed.

(** * C34 *)
Lemma in_int64_nonneg v : 0 <= v <= max_int -> in_int64 v.
Proof. unfold in_int64, min_int, max_int, two63. lia. Qed.
(** C34: a*(b/c) is echoed as a*b/c, and this text denotes (a*b)/c, for all literals a, b, c. *)
Theorem C34_echo_of_product_with_quotient a b c : 0 <= a <= max_int -> 0 <= b <= max_int -> 0 <= c <= max_int ->
  let echo := ("C(" ++ itoa a ++ "*" ++ itoa b ++ "/" ++ itoa c ++ ")")%string in
  infix_notation (command_tree (Calculation (Bin Times (Leaf a) (Bin (Over RoundDown) (Leaf b) (Leaf c))))) true = Ok echo /\
  parse_command echo = Ok (command_tree (Calculation (Bin (Over RoundDown) (Bin Times (Leaf a) (Leaf b)) (Leaf c)))).
Proof.
  intros Ha Hb Hc echo. assert (forall e, nt e true = Ok (itoa a ++ "*" ++ itoa b ++ "/" ++ itoa c)%string -> infix_notation (command_tree (Calculation e)) true = Ok echo) as He.
  { intros e H. rewrite calc_notation, H. subst echo. cbn [obind]. repeat rewrite append_assoc3. reflexivity. }
  split.
  - apply He. rewrite nt_bin. unfold rtext. cbn [kind_of op_kind]. rewrite nt_bin. cbn. repeat rewrite append_nil_r. reflexivity.
  - replace echo with ("C(" ++ (itoa a ++ "*" ++ itoa b ++ "/" ++ itoa c) ++ ")")%string by (subst echo; repeat rewrite append_assoc3; reflexivity). apply calc_parses.
    + repeat apply ascii_app; try (apply digits_ascii, itoa_digits; lia); repeat constructor.
    + unfold fits. rewrite !length_append. pose proof (itoa_length a (in_int64_nonneg _ Ha)). pose proof (itoa_length b (in_int64_nonneg _ Hb)). pose proof (itoa_length c (in_int64_nonneg _ Hc)). cbn [String.length]. lia.
    + rewrite !atext_app. apply sp_add_mul. replace (atext (itoa a) ++ atext "*" ++ atext (itoa b) ++ atext "/" ++ atext (itoa c)) with
        ((atext (itoa a) ++ atext "*" ++ atext (itoa b)) ++ atext "/" ++ atext (itoa c)) by (rewrite <- !app_assoc; reflexivity).
      apply sp_over; [apply sp_times; [apply sp_mul_prim, sp_leaf, itoa_sp, Ha|reflexivity|apply sp_leaf, itoa_sp, Hb]|reflexivity|apply sp_leaf, itoa_sp, Hc].
Qed.
Print Assumptions C34_echo_of_product_with_quotient.
(** C34: the two values differ, for instance, for c*(b/c) whenever c does not divide b. *)
Theorem C34_values_differ b c : 0 < c -> 0 <= b -> c * b < 2 ^ 63 -> b mod c <> 0 ->
  forall mr, eval mr (itree (Bin Times (Leaf c) (Bin (Over RoundDown) (Leaf b) (Leaf c)))) = CRet (OInt (b - b mod c)) /\
    eval mr (itree (Bin (Over RoundDown) (Bin Times (Leaf c) (Leaf b)) (Leaf c))) = CRet (OInt b).
Proof.
  intros Hc Hb Hlt Hm mr. rewrite !eval_itree. cbn [mach obind mach_op]. change (2 ^ 63) with two63 in Hlt.
  assert (0 <= b / c /\ b = c * (b / c) + b mod c /\ 0 <= b mod c < c) as (H1 & H2 & H3).
  { split; [apply Z.div_pos; lia|]. split; [apply Z.div_mod; lia|apply Z.mod_pos_bound; lia]. }
  assert (0 < b) as Hb' by (destruct (Z.eq_dec b 0) as [E|E]; [subst b; rewrite Zmod_0_l in Hm; congruence|lia]).
  assert (b / c <= b /\ c * (b / c) <= b /\ b <= c * b) as (H4 & H5 & H6) by nia.
  replace (c =? 0) with false by lia. cbn [obind]. rewrite (Z.quot_div_nonneg b c) by lia.
  rewrite (wrap64_id (b / c)), (wrap64_id (c * (b / c))), (wrap64_id (c * b)) by (unfold in_int64, min_int, max_int, two63 in *; lia).
  rewrite Z.quot_div_nonneg by nia. rewrite (Z.mul_comm c b), Z.div_mul by lia. rewrite wrap64_id by (unfold in_int64, min_int, max_int, two63 in *; lia).
  split; [|reflexivity]. unfold oint. cbn [obind clift]. do 2 f_equal. lia.
Qed.
Print Assumptions C34_values_differ.
Example C34_example : execute_basic_command basic_bot "C(2*(3/2))" (FQueue []) = (Ok (Result "DiceBot" ["C(2*3/2)"; "計算結果"; "2"]%string [] Unspecified false), FQueue []) /\
  execute_basic_command basic_bot "C(2*3/2)" (FQueue []) = (Ok (Result "DiceBot" ["C(2*3/2)"; "計算結果"; "3"]%string [] Unspecified false), FQueue []).
Proof. vconj. Qed.

(** * C46 *)
(** A chain of literals: l0 op1 l1 op2 l2 ...; the literals are strings of digits, a division may carry its rounding after its right operand. *)
Definition op_text (op : arith) : string := match op with Plus => "+" | Minus => "-" | Times => "*" | Over _ => "/" end.
Definition suffix_text (op : arith) : string := match op with Over RoundUp => "U" | Over RoundHalf => "R" | _ => "" end.
Fixpoint rest_text (l : list (arith * string)) : string :=
  match l with [] => "" | (op, s) :: l' => op_text op ++ s ++ suffix_text op ++ rest_text l' end.
Definition chain_text (s : string) (l : list (arith * string)) : string := s ++ rest_text l.
Definition literal (s : string) : Z := Z.min (number_value s) max_int.
(** Reading a tree from left to right *)
Inductive reads : iexpr -> Z -> list (arith * Z) -> Prop :=
| reads_leaf v : reads (Leaf v) v []
| reads_bin op a b v l w m : reads a v l -> reads b w m -> reads (Bin op a b) v (l ++ (op, w) :: m).
(** Operands in a tree grouped by precedence, left-associative: a product or quotient has a literal on the right and no sum or difference on the left;
    a sum or difference has no sum or difference on the right. *)
Definition is_sum (e : iexpr) : Prop := match e with Bin Plus _ _ | Bin Minus _ _ => True | _ => False end.
Definition is_literal (e : iexpr) : Prop := match e with Leaf _ => True | _ => False end.
Fixpoint grouped (e : iexpr) : Prop :=
  match e with
  | Leaf _ => True
  | Neg _ => False
  | Bin (Plus | Minus) a b => grouped a /\ grouped b /\ ~ is_sum b
  | Bin (Times | Over _) a b => grouped a /\ ~ is_sum a /\ is_literal b
  end.

(** adding an operator and a literal at the right end of a grouped tree *)
Definition push (e : iexpr) (p : arith * Z) : iexpr :=
  let '(op, v) := p in
  match op_kind op, e with
  | KMul, Bin Plus a b => Bin Plus a (Bin op b (Leaf v))
  | KMul, Bin Minus a b => Bin Minus a (Bin op b (Leaf v))
  | _, _ => Bin op e (Leaf v)
  end.
Definition build (v : Z) (l : list (arith * Z)) : iexpr := fold_left push l (Leaf v).
Lemma push_grouped e p : grouped e -> grouped (push e p).
Proof.
  destruct p as [op v]. intros H. destruct e as [w|e|[| | |m] a b]; destruct op as [| | |m']; cbn in *; tauto.
Qed.
Lemma push_reads e p v l : grouped e -> reads e v l -> reads (push e p) v (l ++ [p]).
Proof.
  destruct p as [op w]. intros Hg H.
  assert (reads (Bin op e (Leaf w)) v (l ++ [(op, w)])) as K by (apply reads_bin; [exact H|constructor]).
  destruct e as [x|e|oe a b]; [destruct op; exact K|destruct op; exact K|].
  unfold push. destruct (op_kind op) eqn:Ek; try exact K. destruct oe; try exact K; inversion H as [|? ? ? ? l1 w1 m1 H1 H2]; subst;
  rewrite <- app_assoc; cbn [app]; apply reads_bin; try assumption; apply (reads_bin op b (Leaf w) w1 m1 w []); try assumption; constructor.
Qed.
Lemma build_ok v l : grouped (build v l) /\ reads (build v l) v l.
Proof.
  unfold build. induction l as [|p l IH] using rev_ind; [split; [exact I|constructor]|]. rewrite fold_left_app. cbn [fold_left]. destruct IH as (H1 & H2).
  split; [apply push_grouped, H1|apply push_reads; assumption].
Qed.
Lemma push_product op v e : ~ is_sum e -> push e (op, v) = Bin op e (Leaf v).
Proof. unfold push. destruct (op_kind op); try reflexivity. destruct e as [|e|[| | |m] a b]; try reflexivity; intros H; exfalso; apply H; exact I. Qed.
Lemma product_ops e v l : grouped e -> ~ is_sum e -> reads e v l -> Forall (fun p => op_kind (fst p) = KMul) l.
Proof.
  intros Hg Hs H. induction H as [v|op a b v l w m Ha IHa Hb IHb]; [constructor|]. apply Forall_app. destruct op as [| | |r]; try (exfalso; apply Hs; exact I).
  - destruct Hg as (G1 & G2 & G3). split; [apply IHa; assumption|]. destruct b; try contradiction. inversion Hb; subst. constructor; [reflexivity|constructor].
  - destruct Hg as (G1 & G2 & G3). split; [apply IHa; assumption|]. destruct b; try contradiction. inversion Hb; subst. constructor; [reflexivity|constructor].
Qed.
Lemma push_products op a l : op_kind op = KAdd -> Forall (fun p => op_kind (fst p) = KMul) l -> forall t, ~ is_sum t ->
  fold_left push l (Bin op a t) = Bin op a (fold_left push l t).
Proof.
  intros Hop. induction l as [|[o v] l IH]; intros Hl t Ht; [reflexivity|]. inversion Hl as [|? ? H1 H2]. subst. cbn [fold_left fst] in *.
  rewrite (push_product o v t Ht). replace (push (Bin op a t) (o, v)) with (Bin op a (Bin o t (Leaf v))).
  - apply IH; [exact H2|]. destruct o; cbn; try discriminate H1; tauto.
  - unfold push. rewrite H1. destruct op; try discriminate Hop; reflexivity.
Qed.
Lemma grouped_build e : forall v l, grouped e -> reads e v l -> e = build v l.
Proof.
  induction e as [x|e IH|op a IHa b IHb]; intros v l Hg H.
  - inversion H; subst. reflexivity.
  - contradiction.
  - inversion H as [|? ? ? ? l1 w m H1 H2]; subst. unfold build. rewrite fold_left_app. cbn [fold_left]. destruct op as [| | |r].
    + destruct Hg as (G1 & G2 & G3). pose proof (IHa _ _ G1 H1) as Ea. unfold build in Ea. rewrite <- Ea. change (push a (Plus, w)) with (Bin Plus a (Leaf w)).
      rewrite push_products; [|reflexivity|eapply product_ops; eassumption|tauto]. f_equal. apply (IHb _ _ G2 H2).
    + destruct Hg as (G1 & G2 & G3). pose proof (IHa _ _ G1 H1) as Ea. unfold build in Ea. rewrite <- Ea. change (push a (Minus, w)) with (Bin Minus a (Leaf w)).
      rewrite push_products; [|reflexivity|eapply product_ops; eassumption|tauto]. f_equal. apply (IHb _ _ G2 H2).
    + destruct Hg as (G1 & G2 & G3). pose proof (IHa _ _ G1 H1) as Ea. unfold build in Ea. rewrite <- Ea. destruct b; try contradiction. inversion H2; subst. rewrite push_product by exact G2. reflexivity.
    + destruct Hg as (G1 & G2 & G3). pose proof (IHa _ _ G1 H1) as Ea. unfold build in Ea. rewrite <- Ea. destruct b; try contradiction. inversion H2; subst. rewrite push_product by exact G2. reflexivity.
Qed.
(** texts of the partial trees *)
Inductive built : iexpr -> text -> Prop :=
| built_product e t : ~ is_sum e -> sp_mul sp_number e t -> built e t
| built_sum op a b s o t : op_kind op = KAdd -> sp_add sp_number a s -> word (op_text op) o -> ~ is_sum b -> sp_mul sp_number b t -> built (Bin op a b) (s ++ o ++ t).
Lemma built_sp e t : built e t -> sp_add sp_number e t.
Proof. intros [e' t' _ H|op a b s o t' Hk Ha Ho Hb Ht]; [apply sp_add_mul, H|]. destruct op; try discriminate Hk; [apply sp_sum|apply sp_diff]; assumption. Qed.
Lemma sp_factor op e t v u : op_kind op = KMul -> sp_mul sp_number e t -> sp_number v u -> sp_mul sp_number (Bin op e (Leaf v)) (t ++ atext (op_text op) ++ u ++ atext (suffix_text op)).
Proof.
  intros Hk H Hv. apply sp_leaf in Hv. destruct op as [| | |[| |]]; try discriminate Hk; cbn [op_text suffix_text].
  - change (atext "") with (@nil gochar). rewrite app_nil_r. apply sp_times; [exact H|reflexivity|exact Hv].
  - change (atext "") with (@nil gochar). rewrite app_nil_r. apply sp_over; [exact H|reflexivity|exact Hv].
  - apply sp_over_half; [exact H|reflexivity|exact Hv|reflexivity].
  - apply sp_over_up; [exact H|reflexivity|exact Hv|reflexivity].
Qed.
Lemma built_push e t op v u : built e t -> sp_number v u -> built (push e (op, v)) (t ++ atext (op_text op) ++ u ++ atext (suffix_text op)).
Proof.
  intros H Hv. destruct (op_kind op) eqn:Ek; try (destruct op; discriminate Ek).
  - destruct H as [e t Hs H|o a b s w t Hk Ha Ho Hb Ht].
    + rewrite push_product by exact Hs. apply built_product; [destruct op; try discriminate Ek; cbn; tauto|]. apply sp_factor; assumption.
    + replace (push (Bin o a b) (op, v)) with (Bin o a (Bin op b (Leaf v))) by (unfold push; rewrite Ek; destruct o; try discriminate Hk; reflexivity).
      rewrite <- !app_assoc. apply built_sum; try assumption; [destruct op; try discriminate Ek; cbn; tauto|apply sp_factor; assumption].
  - replace (push e (op, v)) with (Bin op e (Leaf v)) by (unfold push; rewrite Ek; reflexivity).
    replace (suffix_text op) with ""%string by (destruct op; try discriminate Ek; reflexivity). change (atext "") with (@nil gochar). rewrite app_nil_r.
    apply built_sum; [exact Ek|apply built_sp, H|destruct op; try discriminate Ek; reflexivity|tauto|apply sp_mul_prim, sp_leaf, Hv].
Qed.
Lemma chain_built l : forall e t, Forall (fun p => digits (snd p)) l -> built e t ->
  built (fold_left push (map (fun p => (fst p, literal (snd p))) l) e) (t ++ atext (rest_text l)).
Proof.
  induction l as [|[op s] l IH]; intros e t Hl H; cbn [map fold_left rest_text]; [change (atext "") with (@nil gochar); rewrite app_nil_r; exact H|].
  inversion Hl as [|? ? H1 H2]. subst. cbn [fst snd] in *. rewrite !atext_app.
  replace (t ++ atext (op_text op) ++ atext s ++ atext (suffix_text op) ++ atext (rest_text l)) with ((t ++ atext (op_text op) ++ atext s ++ atext (suffix_text op)) ++ atext (rest_text l)) by (rewrite <- !app_assoc; reflexivity).
  apply IH; [exact H2|]. apply built_push; [exact H|apply digits_sp, H1].
Qed.
Lemma rest_ascii l : Forall (fun p => digits (snd p)) l -> ascii_text (rest_text l).
Proof.
  induction 1 as [|[op s] l H _ IH]; [constructor|]. cbn [rest_text]. repeat apply ascii_app; [|apply digits_ascii, H| |exact IH].
  - destruct op; repeat constructor.
  - destruct op as [| | |[| |]]; repeat constructor.
Qed.
(** C46: a chain of any length is parsed to a tree that reads as the chain and is grouped by precedence and to the left. *)
Theorem C46_chain s l : digits s -> Forall (fun p => digits (snd p)) l -> fits ("C(" ++ chain_text s l ++ ")") ->
  exists e, parse_command ("C(" ++ chain_text s l ++ ")") = Ok (command_tree (Calculation e)) /\
    reads e (literal s) (map (fun p => (fst p, literal (snd p))) l) /\ grouped e.
Proof.
  intros Hs Hl Hf. destruct (build_ok (literal s) (map (fun p => (fst p, literal (snd p))) l)) as (H1 & H2).
  exists (build (literal s) (map (fun p => (fst p, literal (snd p))) l)). split; [|split; assumption]. apply calc_parses.
  - apply ascii_app; [apply digits_ascii, Hs|apply rest_ascii, Hl].
  - exact Hf.
  - unfold chain_text. rewrite atext_app. apply built_sp, chain_built; [exact Hl|]. apply built_product; [tauto|]. apply sp_mul_prim, sp_leaf, digits_sp, Hs.
Qed.
Print Assumptions C46_chain.
(** C46: these requirements determine the tree. *)
Theorem C46_grouping_unique e e' v l : reads e v l -> grouped e -> reads e' v l -> grouped e' -> e = e'.
Proof. intros H1 H2 H3 H4. rewrite (grouped_build e v l H2 H1), (grouped_build e' v l H4 H3). reflexivity. Qed.
Print Assumptions C46_grouping_unique.
Example C46_example : chain_text "1" [(Minus, "20"); (Over RoundUp, "3"); (Times, "4"); (Minus, "5"); (Plus, "6")]%string = "1-20/3U*4-5+6"%string /\
  parse_command "C(1-20/3U*4-5+6)" = Ok (command_tree (Calculation
    (Bin Plus (Bin Minus (Bin Minus (Leaf 1) (Bin Times (Bin (Over RoundUp) (Leaf 20) (Leaf 3)) (Leaf 4))) (Leaf 5)) (Leaf 6)))).
Proof. vconj. Qed.
