(** The parser never runs out of fuel: [parse_fuel] is enough for every input. *)
From Verif Require Import Grammar ProofBase SpecSyntax SpecGrammar PegProofs.
Open Scope list_scope.
Open Scope nat_scope.

Section Total.
  Context {R : Type}.
  Variable rules : R -> expr R.
  Variable crule : R -> bool.      (* rules that consume at least one character when they match *)
  Variable rank : R -> nat.        (* depth before a character is consumed *)
  Variable K : nat.

  Fixpoint consumes (e : expr R) : bool :=
    match e with
    | EAction _ e => consumes e
    | ELabel _ e => consumes e
    | EChoice alts => (fix all l := match l with [] => true | e :: l => consumes e && all l end) alts
    | ESeq es => (fix any l := match l with [] => false | e :: l => consumes e || any l end) es
    | ELit lit _ => match lit with [] => false | _ => true end
    | EClass _ | EAny => true
    | ERef r => crule r
    | EPlus e => consumes e
    | EStar _ | EOpt _ | ENot _ | EState _ => false
    end.
  Definition all_consume (l : list (expr R)) : bool := forallb consumes l.
  Definition any_consumes (l : list (expr R)) : bool := existsb consumes l.
  Lemma consumes_choice alts : consumes (EChoice alts) = forallb consumes alts.
  Proof. cbn. induction alts; cbn; congruence. Qed.
  Lemma consumes_seq es : consumes (ESeq es) = existsb consumes es.
  Proof. cbn. induction es; cbn; congruence. Qed.

  Fixpoint lneed (e : expr R) : nat :=
    S match e with
      | EAction _ e | ELabel _ e | EStar e | EPlus e | EOpt e | ENot e => lneed e
      | EChoice alts => (fix go l := match l with [] => 0 | e :: l => Nat.max (lneed e) (go l) end) alts
      | ESeq es => (fix go l := match l with [] => 0 | e :: l => Nat.max (lneed e) (if consumes e then 0 else go l) end) es
      | ERef r => rank r
      | ELit _ _ | EClass _ | EAny | EState _ => 0
      end.
  Fixpoint lneeds (l : list (expr R)) : nat :=
    match l with [] => 0 | e :: l => Nat.max (lneed e) (if consumes e then 0 else lneeds l) end.
  Fixpoint lneeds_choice (l : list (expr R)) : nat :=
    match l with [] => 0 | e :: l => Nat.max (lneed e) (lneeds_choice l) end.
  Lemma lneed_seq es : lneed (ESeq es) = S (lneeds es).
  Proof. reflexivity. Qed.
  Lemma lneed_choice es : lneed (EChoice es) = S (lneeds_choice es).
  Proof. reflexivity. Qed.

  (** repetitions consume; no subexpression needs K or more *)
  Fixpoint fine (e : expr R) : bool :=
    (lneed e <=? K) &&
    match e with
    | EAction _ e | ELabel _ e | EOpt e | ENot e => fine e
    | EStar e | EPlus e => consumes e && fine e
    | EChoice alts => (fix go l := match l with [] => true | e :: l => fine e && go l end) alts
    | ESeq es => (fix go l := match l with [] => true | e :: l => fine e && go l end) es
    | ERef r => true
    | ELit _ _ | EClass _ | EAny | EState _ => true
    end.
  Lemma fine_seq es : fine (ESeq es) = true -> forallb fine es = true.
  Proof. cbn [fine]. intros H. apply andb_prop in H as (_ & H). induction es as [|e es IH]; cbn; [reflexivity|]. apply andb_prop in H as (-> & H). apply IH, H. Qed.
  Lemma fine_choice es : fine (EChoice es) = true -> forallb fine es = true.
  Proof. cbn [fine]. intros H. apply andb_prop in H as (_ & H). induction es as [|e es IH]; cbn; [reflexivity|]. apply andb_prop in H as (-> & H). apply IH, H. Qed.
  Lemma fine_lneed e : fine e = true -> lneed e <= K.
  Proof. destruct e; cbn [fine]; intros H; apply andb_prop in H as (H & _); apply Nat.leb_le, H. Qed.

  Hypothesis Hcrule : forall r, crule r = true -> consumes (rules r) = true.
  Hypothesis Hrank : forall r, lneed (rules r) <= rank r.
  Hypothesis Hfine : forall r, fine (rules r) = true.
  Hypothesis HK : K >= 1.

  Notation len s := (length (ps_rest s)).
  Lemma trace_len s s' : trace_ok s s' -> len s' <= len s.
  Proof. intros (t & a & H & _). rewrite H, app_length. lia. Qed.

  Lemma lit_loop_consumes ic lit : forall s s', lit_loop lit ic s = (true, s') -> lit <> [] -> len s' < len s.
  Proof.
    intros s s' H Hne. destruct lit as [|w lit]; [congruence|]. cbn [lit_loop] in H. destruct (ps_rest s) as [|c l] eqn:E; [discriminate|].
    destruct (_ =? w)%Z; [|discriminate]. pose proof (lit_loop_trace ic lit (read s)) as Ht. rewrite H in Ht. destruct Ht as (Ht & _).
    apply trace_len in Ht. destruct (read_trace s c l E) as (_ & R2 & _). rewrite R2 in Ht. cbn. lia.
  Qed.

  Lemma consumes_ok f : forall e s v s' n, consumes e = true -> pexpr rules f e s = Some (PMatch v, s', n) -> len s' < len s.
  Proof.
    induction f as [|f IH]; intros e s v s' n Hc H; [discriminate|].
    destruct e as [act e|l e|alts|es|lit ic|c| |r|e|e|e|e|g]; cbn [pexpr] in H; try discriminate Hc.
    - cbn [consumes] in Hc. destruct (pexpr rules f e s) as [[[[v1| |m] s1] n1]|] eqn:E; try discriminate. apply (IH _ _ _ _ _ Hc) in E.
      destruct (act _ _ _); inversion H; subst; exact E.
    - cbn [consumes] in Hc. destruct (pexpr rules f e (set_env s [])) as [[[[v1| |m] s1] n1]|] eqn:E; try discriminate. apply (IH _ _ _ _ _ Hc) in E. inversion H; subst. exact E.
    - rewrite consumes_choice in Hc. revert H Hc. assert (exists s0, s0 = s /\ len s <= len s0) as (s0 & Hs0 & Hlen) by eauto. rewrite <- Hs0 at 2. clear Hs0. generalize 1%N as m.
      revert s Hlen. induction alts as [|e alts IHa]; intros s Hlen m H Hc; [discriminate|]. cbn [choice_loop forallb] in H, Hc. apply andb_prop in Hc as (Hc1 & Hc2).
      pose proof (pexpr_ok rules f e (set_env s [])) as Hok.
      destruct (pexpr rules f e (set_env s [])) as [[[[v1| |mm] s1] n1]|] eqn:E; try discriminate.
      + apply (IH _ _ _ _ _ Hc1) in E. inversion H; subst. cbn in *. lia.
      + refine (IHa _ _ _ H Hc2). cbn. destruct Hok as (Hr & _). cbn in Hr. rewrite Hr. exact Hlen.
    - rewrite consumes_seq in Hc.
      assert (forall es s1 vals m, seq_loop (pexpr rules f) es s s1 vals m = Some (PMatch v, s', n) -> len s1 <= len s ->
        len s1 < len s \/ existsb consumes es = true -> len s' < len s) as Hl.
      { clear H Hc. intros es0. induction es0 as [|e es0 IHe]; intros s1 vals m H Hle Hd; cbn [seq_loop existsb] in H, Hd.
        - inversion H; subst. destruct Hd as [Hd|Hd]; [exact Hd|discriminate].
        - pose proof (pexpr_ok rules f e s1) as Hok. destruct (pexpr rules f e s1) as [[[[v1| |mm] s2] n2]|] eqn:E; try discriminate.
          apply trace_len in Hok. apply IHe in H; [exact H|lia|].
          destruct Hd as [Hd|Hd]; [left; lia|]. destruct (consumes e) eqn:Ec; [|right; exact Hd]. left. apply (IH _ _ _ _ _ Ec) in E. lia. }
      exact (Hl _ _ _ _ H (Nat.le_refl _) (or_intror Hc)).
    - destruct lit as [|w lit]; [discriminate|]. destruct (lit_loop (w :: lit) ic s) as ([|], s1) eqn:E; [|discriminate]. inversion H; subst. eapply lit_loop_consumes; [exact E|discriminate].
    - destruct (ps_rest s) as [|ch l] eqn:E; [discriminate|]. destruct (class_match _ _); [|discriminate]. inversion H; subst.
      destruct (read_trace s ch l E) as (_ & R2 & _). rewrite R2. cbn. lia.
    - destruct (ps_rest s) as [|ch l] eqn:E; [discriminate|]. inversion H; subst. destruct (read_trace s ch l E) as (_ & R2 & _). rewrite R2. cbn. lia.
    - destruct (pexpr rules f (rules r) (set_env s [])) as [[[[v1| |m] s1] n1]|] eqn:E; try discriminate. apply IH in E; [|apply Hcrule, Hc]. inversion H; subst. exact E.
    - cbn [consumes] in Hc. assert (forall k s1 vals m, star_loop k (pexpr rules f e) true s1 vals m = Some (PMatch v, s', n) -> len s1 <= len s ->
        len s1 < len s \/ vals = [] -> len s' < len s) as Hl.
      { clear H. induction k as [|k IHk]; intros s1 vals m H Hle Hd; cbn [star_loop] in H; [discriminate|].
        pose proof (pexpr_ok rules f e (set_env s1 [])) as Hok. destruct (pexpr rules f e (set_env s1 [])) as [[[[v1| |mm] s2] n2]|] eqn:E; try discriminate.
        - apply (IH _ _ _ _ _ Hc) in E. cbn in E. apply IHk in H; [exact H|cbn; lia|left; cbn; lia].
        - destruct Hok as (Hr & _). cbn in Hr. destruct Hd as [Hd| ->]; [|discriminate].
          destruct vals; inversion H; subst; cbn; rewrite Hr; exact Hd. }
      exact (Hl _ _ _ _ H (Nat.le_refl _) (or_intror eq_refl)).
  Qed.

  Lemma enough f : forall e s, fine e = true -> K * len s + lneed e <= f -> pexpr rules f e s <> None.
  Proof.
    induction f as [|f IH]; intros e s Hf Hn; [destruct e; cbn [lneed] in Hn; lia|].
    destruct e as [act e|l e|alts|es|lit ic|c| |r|e|e|e|e|g]; cbn [pexpr].
    - cbn [fine lneed] in *. apply andb_prop in Hf as (_ & Hf). pose proof (IH e s Hf ltac:(lia)) as H.
      destruct (pexpr rules f e s) as [[[[v1| |m] s1] n1]|]; try discriminate; [|congruence]. destruct (act _ _ _); discriminate.
    - cbn [fine lneed] in *. apply andb_prop in Hf as (_ & Hf). pose proof (IH e (set_env s []) Hf ltac:(cbn; lia)) as H.
      destruct (pexpr rules f e (set_env s [])) as [[[[v1| |m] s1] n1]|]; try discriminate; congruence.
    - rewrite lneed_choice in Hn. apply fine_choice in Hf. revert s Hn. generalize 1%N as m. induction alts as [|e alts IHa]; intros m s Hn; [discriminate|].
      cbn [choice_loop lneeds_choice forallb] in *. apply andb_prop in Hf as (Hf1 & Hf2). pose proof (IH e (set_env s []) Hf1 ltac:(cbn; lia)) as H.
      pose proof (pexpr_ok rules f e (set_env s [])) as Hok.
      destruct (pexpr rules f e (set_env s [])) as [[[[v1| |mm] s1] n1]|]; try discriminate; [|congruence].
      apply IHa; [exact Hf2|]. cbn. destruct Hok as (Hr & _). cbn in Hr. rewrite Hr. lia.
    - rewrite lneed_seq in Hn. apply fine_seq in Hf.
      assert (forall es s1 vals m, forallb fine es = true -> K * len s1 + lneeds es <= f \/ K * len s1 + K <= f ->
        seq_loop (pexpr rules f) es s s1 vals m <> None) as Hl.
      { clear Hf Hn. intros es0. induction es0 as [|e es0 IHe]; intros s1 vals m Hf Hd; [discriminate|]. cbn [seq_loop lneeds forallb] in *.
        apply andb_prop in Hf as (Hf1 & Hf2). pose proof (fine_lneed e Hf1) as HeK. pose proof (IH e s1 Hf1 ltac:(lia)) as H.
        pose proof (pexpr_ok rules f e s1) as Hok. pose proof (consumes_ok f e s1) as Hcs.
        destruct (pexpr rules f e s1) as [[[[v1| |mm] s2] n2]|]; try discriminate; [|congruence].
        apply trace_len in Hok. apply IHe; [exact Hf2|]. destruct (consumes e) eqn:Ec.
        - specialize (Hcs _ _ _ eq_refl eq_refl). right. nia.
        - destruct Hd as [Hd|Hd]; [left|right]; nia. }
      apply Hl; [exact Hf|left; lia].
    - destruct (lit_loop lit ic s) as ([|], s1); discriminate.
    - destruct (ps_rest s); [discriminate|]. destruct (class_match _ _); discriminate.
    - destruct (ps_rest s); discriminate.
    - cbn [lneed] in Hn. pose proof (IH (rules r) (set_env s []) (Hfine r)) as H. pose proof (Hrank r). specialize (H ltac:(cbn; lia)).
      destruct (pexpr rules f (rules r) (set_env s [])) as [[[[v1| |m] s1] n1]|]; try discriminate; congruence.
    - cbn [fine lneed] in *. apply andb_prop in Hf as (_ & Hf). apply andb_prop in Hf as (Hc & Hf).
      assert (forall k s1 vals m, len s1 <= len s -> len s1 + 1 <= k -> star_loop k (pexpr rules f e) false s1 vals m <> None) as Hl.
      { induction k as [|k IHk]; intros s1 vals m Hle Hk; [lia|]. cbn [star_loop].
        assert (K * len s1 <= K * len s) by nia.
        pose proof (IH e (set_env s1 []) Hf ltac:(cbn; lia)) as H0. pose proof (consumes_ok f e (set_env s1 [])) as Hcs.
        destruct (pexpr rules f e (set_env s1 [])) as [[[[v1| |mm] s2] n2]|]; try discriminate; [| |congruence].
        - specialize (Hcs _ _ _ Hc eq_refl). cbn in Hcs. apply IHk; cbn; lia.
        - destruct vals; discriminate. }
      apply Hl; [lia|]. assert (lneed e >= 1) by (destruct e; cbn [lneed]; lia). nia.
    - cbn [fine lneed] in *. apply andb_prop in Hf as (_ & Hf). apply andb_prop in Hf as (Hc & Hf).
      assert (forall k s1 vals m, len s1 <= len s -> len s1 + 1 <= k -> star_loop k (pexpr rules f e) true s1 vals m <> None) as Hl.
      { induction k as [|k IHk]; intros s1 vals m Hle Hk; [lia|]. cbn [star_loop].
        assert (K * len s1 <= K * len s) by nia.
        pose proof (IH e (set_env s1 []) Hf ltac:(cbn; lia)) as H0. pose proof (consumes_ok f e (set_env s1 [])) as Hcs.
        destruct (pexpr rules f e (set_env s1 [])) as [[[[v1| |mm] s2] n2]|]; try discriminate; [| |congruence].
        - specialize (Hcs _ _ _ Hc eq_refl). cbn in Hcs. apply IHk; cbn; lia.
        - destruct vals; discriminate. }
      apply Hl; [lia|]. assert (lneed e >= 1) by (destruct e; cbn [lneed]; lia). nia.
    - cbn [fine lneed] in *. apply andb_prop in Hf as (_ & Hf). pose proof (IH e (set_env s []) Hf ltac:(cbn; lia)) as H.
      destruct (pexpr rules f e (set_env s [])) as [[[[v1| |m] s1] n1]|]; try discriminate; congruence.
    - cbn [fine lneed] in *. apply andb_prop in Hf as (_ & Hf). pose proof (IH e (set_env s []) Hf ltac:(cbn; lia)) as H.
      destruct (pexpr rules f e (set_env s [])) as [[[[v1| |m] s1] n1]|]; try discriminate; congruence.
    - destruct (g (ps_st s)) as ([v|m|m], st'); discriminate.
  Qed.
End Total.

(** ** The grammar *)
Definition consuming (r : rule) : bool := match r with ResetRandCount | IncRandCount | EOT => false | _ => true end.
Fixpoint rank_upto (d : nat) (r : rule) : nat := match d with O => 0 | S d => lneed consuming (rank_upto d) (rules r) end.
(** the ranks, tabulated *)
Definition all_rules : list rule :=
  [Command; CommandWithExpression; Choice; ChoiceItems; ChoiceItem; ChoiceItemChars; Calc;
   DRollExprCommand; DRollCompCommand; BRollList; BRollComp; RRollList; RRollComp; URollComp;
   URollExpr; URollList; IntExpr; IntExprAdditive; IntExprMultitive; IntExprPrimary;
   ParenthesizedIntExpr; IntExprUnaryPlus; IntExprUnaryMinus; DRollComp; DRollExpr;
   DRollExprAdditive; DRollExprMultitive; DRollExprPrimary; ParenthesizedDRollExpr;
   DRollExprUnaryPlus; DRollExprUnaryMinus; IntRandExpr; IntRandExprAdditive;
   IntRandExprMultitive; IntRandExprPrimary; ParenthesizedIntRandExpr; IntRandExprUnaryPlus;
   IntRandExprUnaryMinus; DRoll; BRoll; RRoll; URoll; RollOperand; RandomNumber;
   RandomNumberOperand; ResetRandCount; IncRandCount; Integer; CompareOp; EOT].
Definition rank_of (r : rule) : nat := rank_upto 14 r.
Lemma rank_ok r : lneed consuming rank_of (rules r) <= rank_of r.
Proof. apply Nat.leb_le. destruct r; vm_compute; reflexivity. Qed.
Lemma consuming_ok r : consuming r = true -> consumes consuming (rules r) = true.
Proof. destruct r; vm_compute; auto. Qed.
Lemma fine_ok r : fine consuming rank_of 100 (rules r) = true.
Proof. destruct r; vm_compute; reflexivity. Qed.
Lemma decode_length s : length (decode s) <= String.length s.
Proof.
  assert (forall n s, String.length s <= n -> length (decode s) <= String.length s) as H.
  { induction n as [|n IH]; intros x Hx; destruct x as [|a x]; cbn [decode String.length length] in *; try lia.
    assert (forall y, String.length y <= String.length x -> length (decode y) <= String.length x) as Hy by (intros y Hy; pose proof (IH y ltac:(lia)); lia).
    pose proof (Hy x (Nat.le_refl _)).
    repeat match goal with
    | |- context [if ?b then _ else _] => destruct b
    | |- context [match ?y with EmptyString => _ | String _ _ => _ end] => is_var y; destruct y; cbn [String.length] in *
    end; cbn [length]; try lia; match goal with |- S (length (decode ?y)) <= _ => pose proof (IH y ltac:(lia)); lia end. }
  apply (H (String.length s)). lia.
Qed.
Theorem parse_enough input : parse_val input <> None.
Proof.
  unfold parse_val, parse. set (s0 := arrive _).
  pose proof (enough rules consuming rank_of 100 consuming_ok rank_ok fine_ok ltac:(lia) (parse_fuel input) (rules Command) s0 (fine_ok Command)) as H.
  assert (length (ps_rest s0) <= String.length input) as Hl.
  { unfold s0, arrive. cbn [ps_rest]. pose proof (decode_length input). destruct (decode input) as [|c l] eqn:E; [cbn; lia|].
    destruct (gc_bad c); unfold add_err; cbn [ps_rest]; exact H0. }
  assert (lneed consuming rank_of (rules Command) <= 100) as Hc by (apply Nat.leb_le; vm_compute; reflexivity).
  specialize (H ltac:(unfold parse_fuel; lia)).
  destruct (pexpr rules (parse_fuel input) (rules Command) s0) as [[[[v| |m] s1] n]|]; try discriminate; congruence.
Qed.
