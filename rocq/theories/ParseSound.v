(** Soundness of parser.Parse as a whole. *)
From Verif Require Import Grammar ProofBase SpecSyntax SpecGrammar PegProofs GrammarSound PegTotal.
Open Scope list_scope.
Open Scope Z_scope.

Lemma decode_plain s : Forall plain (decode s).
Proof.
  assert (forall n s, (String.length s <= n)%nat -> Forall plain (decode s)) as H.
  { induction n as [|n IH]; intros x Hx; destruct x as [|a x]; cbn [decode String.length] in *; try constructor; try lia.
    assert (forall y, (String.length y <= n)%nat -> Forall plain (decode y)) as Hy by (intros; apply IH; assumption).
    pose proof (Hy x ltac:(lia)) as Hd.
    assert (plain (bad_char a)) as Hbad by (unfold plain, bad_char, rune_error; cbn; lia).
    destruct (byte_val a <? 128) eqn:E1.
    { constructor; [|exact Hd]. unfold plain. cbn. intros _. unfold byte_val, byte_of. rewrite N2Z.id, ascii_N_embedding. reflexivity. }
    unfold in_range in *.
    repeat match goal with
    | |- context [if ?b then _ else _] => let E := fresh "E" in destruct b eqn:E
    | |- context [match ?y with EmptyString => _ | String _ _ => _ end] => is_var y; destruct y; cbn [String.length] in *
    end; constructor; try assumption; try (apply Hy; lia); unfold plain; cbn [gc_rune gc_raw];
    unfold second_ok, cont_ok, in_range, byte_val in *; intros; exfalso; try lia.
    all: repeat match goal with
    | H : context [if ?b then _ else _] |- _ => let E := fresh "E" in destruct b eqn:E
    end; lia. }
  apply (H (String.length s)). lia.
Qed.

(** ** The logic without a condition on failures *)
Definition wq (f : nat) (e : expr rule) (s : pstate) (Q : val -> pstate -> Prop) : Prop :=
  match pexpr rules f e s with
  | Some (PMatch v, s', _) => Q v s'
  | Some (PPanic _, _, _) => False
  | _ => True
  end.
Lemma wq_wpp f e s (Q : val -> pstate -> Prop) : wpg f e s Q -> wq f e s Q.
Proof. unfold wq, wpp, holds. destruct (pexpr rules f e s) as [[[[v| |m] s'] n]|]; auto. Qed.
Lemma wq_mono f e s (Q Q' : val -> pstate -> Prop) : (forall v s', Q v s' -> Q' v s') -> wq f e s Q -> wq f e s Q'.
Proof. intros H. unfold wq. destruct (pexpr rules f e s) as [[[[v| |m] s'] n]|]; auto. Qed.
Lemma wq_action f act e s (Q : val -> pstate -> Prop) :
  wq (pred f) e s (fun _ s' => match act (ps_env s') (slice_from (ps_rest s) (ps_rest s')) (ps_st s') with
                         | AVal v => Q v s' | AErr m => Q VNil (add_err s' m) | APanic _ => False end) ->
  wq f (EAction act e) s Q.
Proof.
  destruct f as [|f]; [intros; exact Logic.I|]. cbn [pred]. unfold wq. cbn [pexpr]. destruct (pexpr rules f e s) as [[[[v| |m] s'] n]|]; auto.
  destruct (act _ _ _); auto.
Qed.
Lemma wq_label f l e s (Q : val -> pstate -> Prop) :
  wq (pred f) e (set_env s []) (fun v s' => Q v (set_env s' ((l, v) :: ps_env s))) -> wq f (ELabel l e) s Q.
Proof. destruct f as [|f]; [intros; exact Logic.I|]. cbn [pred]. unfold wq. cbn [pexpr]. destruct (pexpr rules f e (set_env s [])) as [[[[v| |m] s'] n]|]; auto. Qed.
Lemma wq_ref f r s (Q : val -> pstate -> Prop) : wq (pred f) (rules r) (set_env s []) (fun v s' => Q v (set_env s' (ps_env s))) -> wq f (ERef r) s Q.
Proof. destruct f as [|f]; [intros; exact Logic.I|]. cbn [pred]. unfold wq. cbn [pexpr]. destruct (pexpr rules f (rules r) (set_env s [])) as [[[[v| |m] s'] n]|]; auto. Qed.
Lemma wq_seq2 f a b s (Q : val -> pstate -> Prop) :
  wq (pred f) a s (fun v s1 => wq (pred f) b s1 (fun w s2 => Q (VSlice [v; w]) s2)) -> wq f (ESeq [a; b]) s Q.
Proof.
  destruct f as [|f]; [intros; exact Logic.I|]. cbn [pred]. unfold wq. cbn [pexpr seq_loop]. destruct (pexpr rules f a s) as [[[[v| |m] s'] n]|]; auto.
  destruct (pexpr rules f b s') as [[[[w| |m] s2] n']|]; auto.
Qed.
Lemma wq_choice f alts s (Q : val -> pstate -> Prop) :
  Forall (fun e => forall s1, fail_ok s s1 -> ps_env s1 = ps_env s -> wq (pred f) e (set_env s1 []) (fun v s' => Q v (set_env s' (ps_env s)))) alts ->
  wq f (EChoice alts) s Q.
Proof.
  destruct f as [|f]; [intros; exact Logic.I|]. cbn [pred]. unfold wq at 2. cbn [pexpr]. intros H.
  assert (forall s1 n, fail_ok s s1 -> ps_env s1 = ps_env s -> match choice_loop (pexpr rules f) alts s1 n with
    | Some (PMatch v, s', _) => Q v s' | Some (PPanic _, _, _) => False | _ => True end) as Hl.
  { induction H as [|e alts He _ IH]; intros s1 n H1 H2; cbn [choice_loop]; [exact I|].
    specialize (He s1 H1 H2). unfold wq in He. pose proof (pexpr_ok rules f e (set_env s1 [])) as Hok.
    destruct (pexpr rules f e (set_env s1 [])) as [[[[v| |m] s'] n']|]; auto; [rewrite H2; exact He|].
    apply IH; [|exact H2]. eapply fail_trans; [exact H1|]. destruct Hok as (K1 & K2 & K3). repeat split; [exact K1|exact K3]. }
  apply Hl; [apply fail_refl|reflexivity].
Qed.

(** ** D commands *)
Lemma total_nonneg {L} (lc : L -> Z) (e : ae L) : (forall l, 0 <= lc l) -> 0 <= total lc e.
Proof. intros H. induction e; cbn [total]; [apply H|assumption|lia]. Qed.
Lemma rcount_nonneg l : 0 <= rcount l.
Proof. destruct l; cbn; lia. Qed.
Lemma dcount_random l : (0 <= dcount l /\ (random_leaf l <-> 1 <= dcount l)).
Proof.
  destruct l as [v|lo hi|n s]; cbn; [lia|lia|].
  pose proof (total_nonneg rcount n rcount_nonneg). pose proof (total_nonneg rcount s rcount_nonneg). split; [lia|split; [lia|auto]].
Qed.
Lemma has_random_total e : has_random e <-> 1 <= total dcount e.
Proof.
  unfold has_random. induction e as [l|e IH|op a IHa b IHb]; cbn [total].
  - destruct (dcount_random l) as (_ & <-). split.
    + intros (l' & Hp & Hr). inversion Hp; subst. exact Hr.
    + intros H. exists l. split; [constructor|exact H].
  - rewrite <- IH. split; intros (l & Hp & Hr); exists l; (split; [|exact Hr]); [inversion Hp; assumption|constructor; exact Hp].
  - pose proof (total_nonneg dcount a (fun l => proj1 (dcount_random l))). pose proof (total_nonneg dcount b (fun l => proj1 (dcount_random l))).
    split.
    + intros (l & Hp & Hr). inversion Hp; subst.
      * assert (1 <= total dcount a) by (apply IHa; eauto). lia.
      * assert (1 <= total dcount b) by (apply IHb; eauto). lia.
    + intros H1. assert (1 <= total dcount a \/ 1 <= total dcount b) as [Hd|Hd] by lia.
      * apply IHa in Hd as (l & Hp & Hr). exists l. split; [constructor; exact Hp|exact Hr].
      * apply IHb in Hd as (l & Hp & Hr). exists l. split; [apply part_r; exact Hp|exact Hr].
Qed.

(** What a top-level match means if no error was recorded *)
Definition top_post (s : pstate) (c_ok : command -> Prop) (v : val) (s' : pstate) : Prop :=
  ps_errs s' = [] -> exists c t, c_ok c /\ v = VNode (command_tree c) /\ spells c t /\ ps_rest s = t ++ ps_rest s'.

Definition fresh (s : pstate) : Prop := Forall plain (ps_rest s) /\ ps_st s = Some 0.
Lemma fresh_counted s : fresh s -> counted s.
Proof. intros (H1 & H2). split; [exact H1|]. exists 0. split; [unfold in_int64, min_int, max_int, two63; lia|exact H2]. Qed.
Lemma fresh_fail s s' e : fail_ok s s' -> fresh s -> fresh (set_env s' e).
Proof. intros (H1 & H2 & _) (F1 & F2). split; cbn; congruence. Qed.

Lemma d_expr_command_ok f s : fresh s -> wq f (ERef DRollExprCommand) s (top_post s (fun _ => True)).
Proof.
  intros Hs. apply wq_ref. cbn [rules]. apply wq_action, wq_label, wq_wpp.
  eapply wpp_mono; [|apply rule_sound; [reflexivity|exact (fresh_counted _ Hs)]].
  intros v s' (t & k & S1 & E1 & (e & -> & He & ->)). unfold act_d_command. cbn [ps_env set_env lookup String.eqb Ascii.eqb Bool.eqb ps_st].
  destruct S1 as (R1 & _ & _ & c & C1 & C2 & C3). cbn in C2. destruct Hs as (_ & Hs). rewrite Hs in C2. injection C2 as <-. rewrite C3.
  destruct (_ <? 1) eqn:Ek.
  - intros Herr. cbn in Herr. destruct (ps_errs s'); discriminate.
  - cbn [as_node abind]. intros _. exists (DExpr e), t. repeat split; [|exact R1]. constructor; [exact He|]. apply has_random_total.
    pose proof (total_nonneg dcount e (fun l => proj1 (dcount_random l))). destruct (Z.eq_dec (total dcount e) 0) as [E0|]; [|lia].
    rewrite E0 in Ek. vm_compute in Ek. discriminate.
Qed.
Lemma d_comp_command_ok f s : fresh s -> wq f (ERef DRollCompCommand) s (top_post s (fun _ => True)).
Proof.
  intros Hs. apply wq_ref. cbn [rules]. apply wq_action, wq_label, wq_wpp.
  eapply wpp_mono; [|apply rule_sound; [reflexivity|exact (fresh_counted _ Hs)]].
  intros v s' (t & k & S1 & E1 & (e & op & g & t1 & t2 & -> & -> & He & Hg & ->)). unfold act_d_command. cbn [ps_env set_env lookup String.eqb Ascii.eqb Bool.eqb ps_st].
  destruct S1 as (R1 & _ & _ & c & C1 & C2 & C3). cbn in C2. destruct Hs as (_ & Hs). rewrite Hs in C2. injection C2 as <-. rewrite C3.
  destruct (_ <? 1) eqn:Ek.
  - intros Herr. cbn in Herr. destruct (ps_errs s'); discriminate.
  - cbn [as_node abind]. intros _. exists (DComp e op g), (t1 ++ t2). repeat split; [|exact R1]. constructor; [exact He| |exact Hg]. apply has_random_total.
    pose proof (total_nonneg dcount e (fun l => proj1 (dcount_random l))). destruct (Z.eq_dec (total dcount e) 0) as [E0|]; [|lia].
    rewrite E0 in Ek. vm_compute in Ek. discriminate.
Qed.

Lemma inner_top f r s : inner r = true -> fresh s ->
  (forall t v k, Post r t v k -> exists c, v = VNode (command_tree c) /\ spells c t) ->
  wq f (ERef r) s (top_post s (fun _ => True)).
Proof.
  intros Hr Hs HP. apply wq_wpp. eapply wpp_mono; [|apply rule_sound; [exact Hr|exact (fresh_counted _ Hs)]].
  intros v s' (t & k & S1 & E1 & P1) _. destruct (HP _ _ _ P1) as (c & -> & Hc). exists c, t. repeat split; [exact Hc|apply S1].
Qed.
Lemma eot_ok f s (Q : val -> pstate -> Prop) : (ps_rest s = [] -> forall s', ps_rest s' = [] -> ps_env s' = ps_env s -> (ps_errs s' = [] -> ps_errs s = []) -> Q VNil s') -> wq f (ERef EOT) s Q.
Proof.
  intros H. destruct f as [|[|[|f]]]; try exact Logic.I. unfold wq. cbn [pexpr rules set_env ps_rest]. destruct (ps_rest s) as [|c l] eqn:E; cbn; [|exact Logic.I].
  apply H; cbn; auto.
Qed.

Definition full_post (s : pstate) (v : val) (s' : pstate) : Prop :=
  ps_errs s' = [] -> exists c t, v = VNode (command_tree c) /\ spells c t /\ ps_rest s = t ++ ps_rest s' /\ (may_be_followed c \/ ps_rest s' = []).

Lemma with_expression_ok f s : fresh s -> wq f (ERef CommandWithExpression) s (full_post s).
Proof.
  intros Hs. apply wq_ref. cbn [rules]. apply wq_action, wq_seq2, wq_label.
  eapply wq_mono with (Q := top_post s (fun _ => True)).
  - intros v s1 H1. apply eot_ok. intros Hr s2 R2 E2 Herr. unfold act_label. rewrite E2. cbn [ps_env set_env lookup String.eqb Ascii.eqb Bool.eqb].
    intros He. destruct (H1 (Herr He)) as (c & t & _ & -> & Hc & Ht). exists c, t. cbn in *. repeat split; [exact Hc| |right; exact R2].
    rewrite R2, Ht, Hr. reflexivity.
  - apply wq_choice.
    assert (forall r, (forall f s1, fresh s1 -> wq f (ERef r) s1 (top_post s1 (fun _ => True))) -> forall s1, fail_ok (set_env (set_env s []) []) s1 -> ps_env s1 = ps_env (set_env (set_env s []) []) ->
      wq (pred (pred (pred (pred (pred f))))) (ERef r) (set_env s1 []) (fun v s' => top_post s (fun _ => True) v (set_env s' (ps_env (set_env (set_env s []) []))))) as Hgen.
    { intros r Hr s1 H1 H2. eapply wq_mono; [|apply Hr; eapply fresh_fail; [exact H1|exact Hs]].
      intros v s' H He. destruct (H He) as (c & t & H3 & H4 & H5 & H6). exists c, t. repeat split; [exact H4|exact H5|]. cbn in H6. destruct H1 as (H1 & _). cbn in H1. rewrite H1 in H6. exact H6. }
    repeat constructor; apply Hgen; intros f1 s1 F1; try (apply d_expr_command_ok || apply d_comp_command_ok; assumption); (apply inner_top; [reflexivity|exact F1|]); intros t v k P.
    + destruct P as (r & rs & op & g & -> & H). eauto.
    + destruct P as (r & rs & -> & H). eauto.
    + destruct P as (r & rs & th & op & g & -> & H). eauto.
    + destruct P as (r & rs & th & -> & H). eauto.
    + destruct P as (r & rs & th & b & op & g & -> & H). eauto.
    + destruct P as (r & rs & th & b & -> & H). eauto.
Qed.
Lemma command_top f s : Forall plain (ps_rest s) -> wq f (rules Command) s (full_post s).
Proof.
  intros Hp. cbn [rules]. apply wq_action, wq_seq2, wq_ref, wq_wpp, wp_state. unfold st_reset.
  apply wq_label. eapply wq_mono with (Q := full_post s).
  - intros v s1 H1. unfold act_label. cbn [ps_env set_env lookup String.eqb Ascii.eqb Bool.eqb]. exact H1.
  - set (s0 := set_st _ _). assert (fresh s0) as Hs by (split; [exact Hp|reflexivity]).
    apply wq_choice. 
    assert (forall f r, (forall f s1, fresh s1 -> wq f (ERef r) s1 (full_post s1)) -> forall s1, fail_ok (set_env (set_env s0 (ps_env s)) []) s1 -> ps_env s1 = ps_env (set_env (set_env s0 (ps_env s)) []) ->
      wq f (ERef r) (set_env s1 []) (fun v s' => full_post s v (set_env s' (ps_env (set_env (set_env s0 (ps_env s)) []))))) as Hgen.
    { intros f0 r Hr s1 H1 H2. eapply wq_mono; [|apply Hr; eapply fresh_fail; [exact H1|exact Hs]].
      intros v s' H He. destruct (H He) as (c & t & H3 & H4 & H5 & H6). exists c, t. repeat split; [exact H3|exact H4| |exact H6]. cbn in *. destruct H1 as (H1 & _). cbn in H1. rewrite H1 in H5. exact H5. }
    repeat constructor; apply Hgen; intros f1 s1 F1; [| |apply with_expression_ok, F1].
    + apply wq_wpp. eapply wpp_mono; [|apply rule_sound; [reflexivity|exact (fresh_counted _ F1)]].
      intros v s' (t & k & S1 & E1 & (x & ss & -> & Hc)) _. exists (Choose (x :: ss)), t. repeat split; [exact Hc|apply S1|left; exact I].
    + apply wq_wpp. eapply wpp_mono; [|apply rule_sound; [reflexivity|exact (fresh_counted _ F1)]].
      intros v s' (t & k & S1 & E1 & (e & -> & Hc)) _. exists (Calculation e), t. repeat split; [exact Hc|apply S1|left; exact I].
Qed.

Lemma arrive_rest s : ps_rest (arrive s) = ps_rest s.
Proof. unfold arrive. destruct (ps_rest s) eqn:E; [exact E|]. destruct (gc_bad g); exact E. Qed.
Lemma arrive_head s : ps_errs (arrive s) = [] -> valid_head (ps_rest s).
Proof. unfold arrive. destruct (ps_rest s) as [|c l]; [intros; exact I|]. cbn. destruct (gc_bad c); [|reflexivity]. cbn. destruct (ps_errs s); discriminate. Qed.

(** Everything the parser accepts is a command of the language, read from the beginning of the input. *)
Theorem parse_sound input n : parse_command input = Ok n ->
  exists c t rest, n = command_tree c /\ spells c t /\ decode input = t ++ rest /\ valid t /\ valid_head rest /\ (may_be_followed c \/ rest = []).
Proof.
  unfold parse_command, parse_val, parse. set (s0 := arrive _). intros H.
  assert (ps_rest s0 = decode input) as Hr by apply arrive_rest.
  pose proof (command_top (parse_fuel input) s0) as Ht. rewrite Hr in Ht. specialize (Ht (decode_plain input)). unfold wq in Ht.
  pose proof (pexpr_ok rules (parse_fuel input) (rules Command) s0) as Hok.
  destruct (pexpr rules (parse_fuel input) (rules Command) s0) as [[[[v| |m] s'] k]|]; try discriminate H.
  destruct (ps_errs s') as [|e es] eqn:Ee; [|discriminate H]. destruct (Ht Ee) as (c & t & -> & Hc & Hd & Hf). injection H as <-.
  rewrite Hr in Hd. destruct Hok as (t' & a & T1 & T2 & T3). rewrite Ee in T2. symmetry in T2. apply app_eq_nil in T2 as (E0 & ->).
  rewrite Hr in T1, T3. assert (t' = t) as -> by (apply (app_inv_tail (ps_rest s')); congruence).
  apply arrive_head in E0. cbn in E0. destruct (T3 eq_refl E0) as (V1 & V2).
  exists c, t, (ps_rest s'). repeat split; assumption.
Qed.
(** The parser never panics (in Go: never returns a value of another dynamic type, never hits a failed type assertion). *)
Theorem parse_no_panic input p : parse_command input <> Panic p.
Proof.
  pose proof (parse_enough input) as Hf. unfold parse_command, parse_val, parse in *. set (s0 := arrive _) in *.
  assert (ps_rest s0 = decode input) as Hr by apply arrive_rest.
  pose proof (command_top (parse_fuel input) s0) as Ht. rewrite Hr in Ht. specialize (Ht (decode_plain input)). unfold wq in Ht.
  destruct (pexpr rules (parse_fuel input) (rules Command) s0) as [[[[v| |m] s'] k]|]; try discriminate; try contradiction.
  destruct (ps_errs s') as [|e es] eqn:Ee; [|discriminate]. destruct (Ht Ee) as (c & t & -> & _). discriminate.
Qed.
