(** The parsing engine: fuel does not matter, errors only grow, failures restore the position; a small program logic. *)
From Verif Require Import Peg ProofBase SpecSyntax SpecGrammar.
Open Scope list_scope.
Open Scope Z_scope.

(** ** Fuel monotonicity *)
Section Mono.
  Context {R : Type}.
  Implicit Types p q : expr R -> pstate -> pout.
  Definition le_p p q := forall e s x, p e s = Some x -> q e s = Some x.
  Lemma seq_loop_mono p q es : le_p p q -> forall s0 s vals n x,
    seq_loop p es s0 s vals n = Some x -> seq_loop q es s0 s vals n = Some x.
  Proof.
    intros Hpq. induction es as [|e es IH]; intros s0 s vals n x H; cbn [seq_loop] in *; [exact H|].
    destruct (p e s) as [[[[v| |m] s'] n']|] eqn:E; [| | |discriminate]; rewrite (Hpq _ _ _ E); try exact H. apply IH, H.
  Qed.
  Lemma choice_loop_mono p q es : le_p p q -> forall s n x,
    choice_loop p es s n = Some x -> choice_loop q es s n = Some x.
  Proof.
    intros Hpq. induction es as [|e es IH]; intros s n x H; cbn [choice_loop] in *; [exact H|].
    destruct (p e (set_env s [])) as [[[[v| |m] s'] n']|] eqn:E; [| | |discriminate]; rewrite (Hpq _ _ _ E); try exact H. apply IH, H.
  Qed.
  Lemma star_loop_mono (p q : pstate -> pout) need k : (forall s x, p s = Some x -> q s = Some x) ->
    forall k' s vals n x, (k <= k')%nat ->
    star_loop k p need s vals n = Some x -> star_loop k' q need s vals n = Some x.
  Proof.
    intros Hpq. induction k as [|k IH]; intros k' s vals n x Hk H; [discriminate|].
    destruct k' as [|k']; [lia|]. cbn [star_loop] in *.
    destruct (p (set_env s [])) as [[[[v| |m] s'] n']|] eqn:E; [| | |discriminate]; rewrite (Hpq _ _ E); try exact H. apply IH; [lia|exact H].
  Qed.
  Variable rules : R -> expr R.
  Lemma pexpr_mono f : forall f' e s x, (f <= f')%nat -> pexpr rules f e s = Some x -> pexpr rules f' e s = Some x.
  Proof.
    induction f as [|f IH]; intros f' e s x Hf H; [discriminate|]. destruct f' as [|f']; [lia|].
    assert (le_p (pexpr rules f) (pexpr rules f')) as Hle by (intros e1 s1 x1; apply IH; lia).
    destruct e as [act e|l e|alts|es|lit ic|c| |r|e|e|e|e|g]; cbn [pexpr] in *; try exact H.
    - destruct (pexpr rules f e s) as [[[res s'] n]|] eqn:E; [|discriminate]. rewrite (Hle _ _ _ E). exact H.
    - destruct (pexpr rules f e (set_env s [])) as [[[res s'] n]|] eqn:E; [|discriminate]. rewrite (Hle _ _ _ E). exact H.
    - apply (choice_loop_mono _ _ _ Hle), H.
    - apply (seq_loop_mono _ _ _ Hle), H.
    - destruct (pexpr rules f (rules r) (set_env s [])) as [[[res s'] n]|] eqn:E; [|discriminate]. rewrite (Hle _ _ _ E). exact H.
    - eapply star_loop_mono; [|  |exact H]; [intros; apply Hle; assumption|lia].
    - eapply star_loop_mono; [|  |exact H]; [intros; apply Hle; assumption|lia].
    - destruct (pexpr rules f e (set_env s [])) as [[[res s'] n]|] eqn:E; [|discriminate]. rewrite (Hle _ _ _ E). exact H.
    - destruct (pexpr rules f e (set_env s [])) as [[[res s'] n]|] eqn:E; [|discriminate]. rewrite (Hle _ _ _ E). exact H.
  Qed.
  Lemma pexpr_det f f' e s x y : pexpr rules f e s = Some x -> pexpr rules f' e s = Some y -> x = y.
  Proof.
    intros H1 H2. destruct (Nat.le_ge_cases f f') as [H|H];
      [rewrite (pexpr_mono _ _ _ _ _ H H1) in H2|rewrite (pexpr_mono _ _ _ _ _ H H2) in H1]; congruence.
  Qed.
End Mono.

(** ** What every expression does to the position and the errors *)
(** On a match: a prefix [t] was read; if no error was recorded all characters that became current are valid. *)
Definition trace_ok (s s' : pstate) : Prop :=
  exists t added, ps_rest s = t ++ ps_rest s' /\ ps_errs s' = ps_errs s ++ added /\
    (added = [] -> valid_head (ps_rest s) -> valid t /\ valid_head (ps_rest s')).
Definition fail_ok (s s' : pstate) : Prop :=
  ps_rest s' = ps_rest s /\ ps_st s' = ps_st s /\ exists added, ps_errs s' = ps_errs s ++ added.
Definition result_ok (s : pstate) (o : pout) : Prop :=
  match o with
  | Some (PMatch _, s', _) => trace_ok s s'
  | Some (PFail, s', _) => fail_ok s s'
  | _ => True
  end.
Lemma valid_app a b : valid (a ++ b) <-> valid a /\ valid b.
Proof. apply Forall_app. Qed.
Lemma valid_valid_head t : valid t -> valid_head t.
Proof. destruct t; [reflexivity|]. inversion 1. assumption. Qed.

Lemma trace_refl s : trace_ok s s.
Proof. exists [], []. rewrite app_nil_r. repeat split; [constructor|assumption]. Qed.
Lemma trace_refl_err s m : trace_ok s (add_err s m).
Proof. exists [], [m]. repeat split; discriminate. Qed.
Lemma trace_trans s1 s2 s3 : trace_ok s1 s2 -> trace_ok s2 s3 -> trace_ok s1 s3.
Proof.
  intros (t & a & H1 & H2 & H3) (t' & a' & H1' & H2' & H3'). exists (t ++ t'), (a ++ a').
  split; [rewrite H1, H1', <- app_assoc; reflexivity|]. split; [rewrite H2', H2, <- app_assoc; reflexivity|].
  intros E Hv. apply app_eq_nil in E as (-> & ->). destruct (H3 eq_refl Hv) as (V1 & V2). destruct (H3' eq_refl V2) as (V3 & V4).
  split; [apply valid_app; split; assumption|exact V4].
Qed.
Lemma trace_fail s1 s2 s3 : trace_ok s1 s2 -> fail_ok s2 s3 -> exists a, ps_errs s3 = ps_errs s1 ++ a.
Proof. intros (t & a & H1 & H2 & H3) (_ & _ & a' & H). exists (a ++ a'). rewrite H, H2, app_assoc. reflexivity. Qed.
Lemma fail_trace s s2 s3 : fail_ok s s2 -> trace_ok s2 s3 -> trace_ok s s3.
Proof.
  intros (H1 & H2 & a & H3) (t & b & G1 & G2 & G3). exists t, (a ++ b). rewrite <- H1, G2, H3, app_assoc.
  split; [exact G1|]. split; [reflexivity|]. intros E. apply app_eq_nil in E as (-> & ->). apply G3. reflexivity.
Qed.
Lemma read_trace s c l : ps_rest s = c :: l -> trace_ok s (read s) /\ ps_rest (read s) = l /\ ps_st (read s) = ps_st s /\ ps_env (read s) = ps_env s.
Proof.
  intros E. unfold read, arrive, set_rest. rewrite E. cbn [tl ps_rest]. destruct l as [|d l].
  - repeat split. exists [c], []. cbn. rewrite app_nil_r, E. repeat split. constructor; [assumption|constructor].
  - destruct (gc_bad d) eqn:Hd; repeat split.
    + exists [c], ["invalid encoding"%string]. cbn. rewrite E. repeat split; discriminate.
    + exists [c], []. cbn. rewrite app_nil_r, E. repeat split; [|exact Hd]. constructor; [assumption|constructor].
Qed.
Lemma read_errs_valid s : valid (ps_rest s) -> ps_errs (read s) = ps_errs s /\ valid (ps_rest (read s)).
Proof.
  unfold read, arrive, set_rest. destruct s as [[|c [|d l]] st er en]; cbn; intros H.
  - split; [reflexivity|constructor].
  - split; [reflexivity|constructor].
  - inversion H as [|? ? Hc Hl]; subst. inversion Hl as [|? ? Hd Hl']; subst. rewrite Hd. cbn. split; [reflexivity|constructor; assumption].
Qed.
Lemma lit_loop_trace ic lit : forall s, let '(b, s') := lit_loop lit ic s in trace_ok s s' /\ ps_st s' = ps_st s /\ ps_env s' = ps_env s.
Proof.
  induction lit as [|w lit IH]; intros s; cbn [lit_loop]; [repeat split; apply trace_refl|].
  destruct (ps_rest s) as [|c l] eqn:E; [repeat split; apply trace_refl|].
  destruct (_ =? w); [|repeat split; apply trace_refl].
  destruct (read_trace s c l E) as (H1 & H2 & H3 & H4). specialize (IH (read s)). destruct (lit_loop lit ic (read s)) as (b, s').
  destruct IH as (I1 & I2 & I3). split; [eapply trace_trans; eassumption|]. split; congruence.
Qed.

Lemma trace_ext s1 s1' s2 s2' : ps_rest s1 = ps_rest s1' -> ps_errs s1 = ps_errs s1' -> ps_rest s2 = ps_rest s2' -> ps_errs s2 = ps_errs s2' ->
  trace_ok s1 s2 -> trace_ok s1' s2'.
Proof. unfold trace_ok. intros -> -> -> ->. exact (fun H => H). Qed.
Lemma fail_ext s1 s1' s2 s2' : ps_rest s1 = ps_rest s1' -> ps_errs s1 = ps_errs s1' -> ps_st s1 = ps_st s1' ->
  ps_rest s2 = ps_rest s2' -> ps_errs s2 = ps_errs s2' -> ps_st s2 = ps_st s2' -> fail_ok s1 s2 -> fail_ok s1' s2'.
Proof. unfold fail_ok. intros -> -> -> -> -> ->. exact (fun H => H). Qed.

Section Generic.
  Context {R : Type}.
  Variable rules : R -> expr R.
  Definition good_p (p : expr R -> pstate -> pout) := forall e s, result_ok s (p e s).

  Lemma seq_loop_ok p es : good_p p -> forall s0 s vals n, trace_ok s0 s -> result_ok s0 (seq_loop p es s0 s vals n).
  Proof.
    intros Hp. induction es as [|e es IH]; intros s0 s vals n Hs; cbn [seq_loop]; [exact Hs|].
    pose proof (Hp e s) as H. destruct (p e s) as [[[[v| |m] s'] n']|]; cbn in H; [| |exact I|exact I].
    - apply IH. eapply trace_trans; eassumption.
    - cbn. repeat split. destruct (trace_fail _ _ _ Hs H) as (a & Ha). exists a. exact Ha.
  Qed.
  Lemma fail_refl s : fail_ok s s.
  Proof. repeat split. exists []. symmetry. apply app_nil_r. Qed.
  Lemma fail_trans s1 s2 s3 : fail_ok s1 s2 -> fail_ok s2 s3 -> fail_ok s1 s3.
  Proof. intros (H1 & H2 & a & H3) (H1' & H2' & a' & H3'). repeat split; [congruence|congruence|]. exists (a ++ a'). rewrite H3', H3, app_assoc. reflexivity. Qed.
  Lemma choice_loop_ok p es : good_p p -> forall s0 s n, fail_ok s0 s -> result_ok s0 (choice_loop p es s n).
  Proof.
    intros Hp. induction es as [|e es IH]; intros s0 s n Hs; cbn [choice_loop]; [exact Hs|].
    pose proof (Hp e (set_env s [])) as H. destruct (p e (set_env s [])) as [[[[v| |m] s'] n']|]; cbn in H; [| |exact I|exact I].
    - cbn. eapply fail_trace; [exact Hs|]. eapply trace_ext; [..|exact H]; reflexivity.
    - apply IH. eapply fail_trans; [exact Hs|]. destruct H as (H1 & H2 & a & H3). repeat split; [exact H1|]. exists a. exact H3.
  Qed.
  Lemma star_loop_ok k p need : (forall s, result_ok s (p s)) -> forall s0 s vals n, trace_ok s0 s ->
    (vals = [] -> s0 = s) -> result_ok s0 (star_loop k p need s vals n).
  Proof.
    intros Hp. induction k as [|k IH]; intros s0 s vals n Hs Hv; cbn [star_loop]; [exact I|].
    pose proof (Hp (set_env s [])) as H. destruct (p (set_env s [])) as [[[[v| |m] s'] n']|]; cbn in H; [| |exact I|exact I].
    - apply IH; [|intros E; destruct vals; discriminate]. eapply trace_trans; [exact Hs|]. eapply trace_ext; [..|exact H]; reflexivity.
    - destruct H as (H1 & H2 & a & H3). cbn in H1, H2, H3.
      assert (trace_ok s0 (set_env s' (ps_env s))) as Ht.
      { eapply trace_trans; [exact Hs|]. exists [], a. cbn. rewrite H1. repeat split; [exact H3|constructor|assumption]. }
      destruct vals as [|v vals]; [|exact Ht]. destruct need; [|exact Ht].
      rewrite (Hv eq_refl) in *. repeat split; [exact H1|exact H2|]. exists a. exact H3.
  Qed.
  Lemma pexpr_ok f : good_p (pexpr rules f).
  Proof.
    induction f as [|f IH]; intros e s; [exact I|].
    destruct e as [act e|l e|alts|es|lit ic|c| |r|e|e|e|e|g]; cbn [pexpr].
    - pose proof (IH e s) as H. destruct (pexpr rules f e s) as [[[[v| |m] s'] n]|]; [|exact H|exact I|exact I].
      destruct (act _ _ _); [exact H| |exact I]. cbn in *. eapply trace_trans; [exact H|apply trace_refl_err].
    - pose proof (IH e (set_env s [])) as H. destruct (pexpr rules f e (set_env s [])) as [[[[v| |m] s'] n]|]; [| |exact I|exact I]; exact H.
    - apply choice_loop_ok; [exact IH|apply fail_refl].
    - apply seq_loop_ok; [exact IH|apply trace_refl].
    - pose proof (lit_loop_trace ic lit s) as H. destruct (lit_loop lit ic s) as ([|], s'); cbn; [apply H|].
      destruct H as ((t & a & H1 & H2 & _) & H3 & _). repeat split; [exact H3|]. exists a. exact H2.
    - destruct (ps_rest s) as [|ch l] eqn:E; [apply fail_refl|]. destruct (class_match _ _); [|apply fail_refl].
      eapply read_trace. exact E.
    - destruct (ps_rest s) as [|ch l] eqn:E; [apply fail_refl|]. eapply read_trace. exact E.
    - pose proof (IH (rules r) (set_env s [])) as H. destruct (pexpr rules f (rules r) (set_env s [])) as [[[[v| |m] s'] n]|]; exact H.
    - apply star_loop_ok; [apply IH|apply trace_refl|reflexivity].
    - apply star_loop_ok; [apply IH|apply trace_refl|reflexivity].
    - pose proof (IH e (set_env s [])) as H. destruct (pexpr rules f e (set_env s [])) as [[[[v| |m] s'] n]|]; [exact H| |exact I|exact I].
      destruct H as (H1 & H2 & a & H3). cbn in *. exists [], a. cbn. rewrite H1. repeat split; [exact H3|constructor|assumption].
    - pose proof (IH e (set_env s [])) as H. destruct (pexpr rules f e (set_env s [])) as [[[[v| |m] s'] n]|]; [| |exact I|exact I]; cbn in *.
      + destruct H as (t & a & H1 & H2 & _). repeat split. exists a. exact H2.
      + destruct H as (H1 & H2 & a & H3). exists [], a. repeat split; [exact H3|constructor|assumption].
    - destruct (g (ps_st s)) as ([v|m|m], st'); cbn; [|eapply trace_ext; [..|apply (trace_refl_err s m)]; reflexivity|exact I]. eapply trace_ext; [..|apply (trace_refl s)]; reflexivity.
  Qed.
End Generic.

(** ** A program logic for matches *)
(** Decoded characters: an ASCII rune was read from that one byte (see decode_plain). *)
Definition plain (c : gochar) : Prop := 0 <= gc_rune c < 128 -> gc_raw c = String (byte_of (gc_rune c)) EmptyString.
(** [stepped s s' t k]: from s to s' the text t was read and the counter of random elements grew by k. *)
Definition stepped (s s' : pstate) (t : text) (k : Z) : Prop :=
  ps_rest s = t ++ ps_rest s' /\ Forall plain (ps_rest s) /\ (valid (ps_rest s) -> ps_errs s' = ps_errs s) /\
  exists c, in_int64 c /\ ps_st s = Some c /\ ps_st s' = Some (wrap64 (c + k)).
Definition counted (s : pstate) : Prop := Forall plain (ps_rest s) /\ exists c, in_int64 c /\ ps_st s = Some c.
Lemma stepped_refl s : counted s -> stepped s s [] 0.
Proof. intros (H & c & H1 & H2). repeat split; [exact H|]. exists c. rewrite Z.add_0_r, wrap64_id by exact H1. auto. Qed.
Lemma stepped_trans s1 s2 s3 t u k l : stepped s1 s2 t k -> stepped s2 s3 u l -> stepped s1 s3 (t ++ u) (k + l).
Proof.
  intros (H1 & P & H2 & c & H3 & H4 & H5) (G1 & _ & G2 & d & G3 & G4 & G5). split; [rewrite H1, G1, app_assoc; reflexivity|]. split; [exact P|]. split.
  - intros V. rewrite G2, H2; [reflexivity|exact V|]. rewrite H1 in V. apply valid_app in V. apply V.
  - exists c. repeat split; [apply H3..|exact H4|]. rewrite G5. assert (d = wrap64 (c + k)) as -> by congruence. rewrite wrap64_add_l. do 2 f_equal. lia.
Qed.
Lemma stepped_counted s s' t k : stepped s s' t k -> counted s'.
Proof. intros (H & P & _ & c & _ & _ & H1). rewrite H in P. apply Forall_app in P as (_ & P). split; [exact P|]. exists (wrap64 (c + k)). split; [apply wrap64_range|exact H1]. Qed.
Lemma stepped_counted_l s s' t k : stepped s s' t k -> counted s.
Proof. intros (_ & P & _ & c & H1 & H2 & _). split; [exact P|]. exists c. split; assumption. Qed.
Lemma stepped_valid s s' t k : stepped s s' t k -> valid (ps_rest s) -> valid (ps_rest s').
Proof. intros (H & _) V. rewrite H in V. apply valid_app in V. apply V. Qed.
Lemma stepped_plain s s' t k : stepped s s' t k -> Forall plain t.
Proof. intros (H & P & _). rewrite H in P. apply Forall_app in P. apply P. Qed.
Lemma stepped_env s s' t k e e' : stepped s s' t k <-> stepped (set_env s e) (set_env s' e') t k.
Proof. reflexivity. Qed.

Definition failed (s s' : pstate) : Prop :=
  ps_rest s' = ps_rest s /\ ps_st s' = ps_st s /\ (valid (ps_rest s) -> ps_errs s' = ps_errs s).

Section Wp.
  Context {R : Type}.
  Variable rules : R -> expr R.
  Definition holds (s : pstate) (o : pout) (Q : val -> pstate -> Prop) : Prop :=
    match o with
    | None => True
    | Some (PMatch v, s', _) => Q v s'
    | Some (PFail, s', _) => failed s s'
    | Some (PPanic _, _, _) => False
    end.
  Definition wpp (f : nat) (e : expr R) (s : pstate) (Q : val -> pstate -> Prop) : Prop := holds s (pexpr rules f e s) Q.

  Lemma wpp_mono f e s (Q Q' : val -> pstate -> Prop) : (forall v s', Q v s' -> Q' v s') -> wpp f e s Q -> wpp f e s Q'.
  Proof. intros H. unfold wpp, holds. destruct (pexpr rules f e s) as [[[[v| |m] s'] n]|]; auto. Qed.

  Lemma failed_env s s' e e' : failed (set_env s e) s' -> failed s (set_env s' e').
  Proof. exact (fun H => H). Qed.
  Lemma wpp_action f act e s (Q : val -> pstate -> Prop) :
    wpp f e s (fun _ s' => match act (ps_env s') (slice_from (ps_rest s) (ps_rest s')) (ps_st s') with
                           | AVal v => Q v s' | AErr m => Q VNil (add_err s' m) | APanic _ => False end) ->
    wpp (S f) (EAction act e) s Q.
  Proof.
    unfold wpp, holds. cbn [pexpr]. destruct (pexpr rules f e s) as [[[[v| |m] s'] n]|]; auto.
    destruct (act _ _ _); auto.
  Qed.
  Lemma wpp_label f l e s (Q : val -> pstate -> Prop) :
    wpp f e (set_env s []) (fun v s' => Q v (set_env s' ((l, v) :: ps_env s))) -> wpp (S f) (ELabel l e) s Q.
  Proof. unfold wpp, holds. cbn [pexpr]. destruct (pexpr rules f e (set_env s [])) as [[[[v| |m] s'] n]|]; auto. Qed.
  Lemma wpp_ref f r s (Q : val -> pstate -> Prop) : wpp f (rules r) (set_env s []) (fun v s' => Q v (set_env s' (ps_env s))) -> wpp (S f) (ERef r) s Q.
  Proof. unfold wpp, holds. cbn [pexpr]. destruct (pexpr rules f (rules r) (set_env s [])) as [[[[v| |m] s'] n]|]; auto. Qed.

  Fixpoint seq_wp (f : nat) (es : list (expr R)) (s0 s : pstate) (vals : list val) (Q : val -> pstate -> Prop) : Prop :=
    match es with
    | [] => Q (VSlice vals) s
    | e :: es' => (exists t k, stepped s0 s t k) /\ wpp f e s (fun v s' => seq_wp f es' s0 s' (vals ++ [v]) Q)
    end.
  Lemma seq_loop_holds f es : forall s0 s vals n Q, seq_wp f es s0 s vals Q ->
    holds s0 (seq_loop (pexpr rules f) es s0 s vals n) Q.
  Proof.
    induction es as [|e es IH]; intros s0 s vals n Q H; cbn [seq_loop seq_wp] in *; [exact H|].
    destruct H as ((t & k & Hs) & H). unfold wpp, holds in H. destruct (pexpr rules f e s) as [[[[v| |m] s'] n']|]; cbn; [| |exact H|exact I].
    - apply IH. exact H.
    - destruct H as (H1 & H2 & H3). repeat split. intros V. cbn. rewrite H3 by (eapply stepped_valid; eassumption). apply Hs. exact V.
  Qed.
  Lemma wpp_seq f es s (Q : val -> pstate -> Prop) : seq_wp f es s s [] Q -> wpp (S f) (ESeq es) s Q.
  Proof. intros H. unfold wpp. cbn [pexpr]. apply seq_loop_holds. exact H. Qed.

  Lemma choice_loop_holds f alts : forall s0 s n Q, failed s0 s -> ps_env s = ps_env s0 ->
    Forall (fun e => forall s, failed s0 s -> ps_env s = ps_env s0 -> wpp f e (set_env s []) (fun v s' => Q v (set_env s' (ps_env s)))) alts ->
    holds s0 (choice_loop (pexpr rules f) alts s n) Q.
  Proof.
    induction alts as [|e alts IH]; intros s0 s n Q Hs He H; cbn [choice_loop]; [exact Hs|].
    inversion H as [|? ? H1 H2]; subst. specialize (H1 s Hs He). unfold wpp, holds in H1.
    destruct (pexpr rules f e (set_env s [])) as [[[[v| |m] s'] n']|]; cbn; [exact H1| |exact H1|exact I].
    apply IH; [|exact He|exact H2]. destruct Hs as (S1 & S2 & S3), H1 as (F1 & F2 & F3). cbn in *. repeat split; cbn; [congruence|congruence|].
    intros V. rewrite F3, S3; [reflexivity|exact V|]. rewrite S1. exact V.
  Qed.
  Lemma wpp_choice f alts s (Q : val -> pstate -> Prop) :
    Forall (fun e => forall s1, failed s s1 -> ps_env s1 = ps_env s -> wpp f e (set_env s1 []) (fun v s' => Q v (set_env s' (ps_env s)))) alts ->
    wpp (S f) (EChoice alts) s Q.
  Proof.
    intros H. unfold wpp. cbn [pexpr]. apply choice_loop_holds; [repeat split|reflexivity|].
    eapply Forall_impl; [|exact H]. cbn. intros e He s1 H1 H2. rewrite H2. apply He; assumption.
  Qed.

  (** the values of a repetition, the text they were read from, and their counts *)
  Inductive many (I : val -> text -> Z -> Prop) : list val -> text -> Z -> Prop :=
  | many_nil : many I [] [] 0
  | many_cons v vs t u k l : I v t k -> many I vs u l -> many I (v :: vs) (t ++ u) (k + l).
  Lemma many_app I vs t k : many I vs t k -> forall v u l, I v u l -> many I (vs ++ [v]) (t ++ u) (k + l).
  Proof.
    induction 1 as [|v vs t u k l H1 H2 IH]; intros w x j Hw.
    - cbn. rewrite <- (app_nil_r x). replace (0 + j) with (j + 0) by lia. constructor; [exact Hw|constructor].
    - cbn. rewrite <- app_assoc, <- Z.add_assoc. constructor; [exact H1|apply IH, Hw].
  Qed.
  Lemma star_loop_holds I need p k : (forall s, counted s -> ps_env s = [] -> holds s (p s) (fun v s' => exists t k, stepped s s' t k /\ I v t k)) ->
    forall s0 s vals n (Q : val -> pstate -> Prop) t j, stepped s0 s t j -> ps_env s = ps_env s0 -> many I vals t j -> (vals = [] -> s = s0) ->
    (forall vs s' t k, stepped s0 s' t k -> ps_env s' = ps_env s0 -> many I vs t k -> (need = true -> vs <> []) ->
       (exists s1 s2 n, p s1 = Some (PFail, s2, n) /\ ps_rest s1 = ps_rest s') -> Q (VSlice vs) s') ->
    holds s0 (star_loop k p need s vals n) Q.
  Proof.
    intros Hp. induction k as [|k IH]; intros s0 s vals n Q t j Hs He Hm Hv HQ; [exact Logic.I|]. cbn [star_loop].
    assert (counted (set_env s [])) as Hc by (eapply stepped_counted in Hs; exact Hs).
    specialize (Hp _ Hc eq_refl). destruct (p (set_env s [])) as [[[[v| |m] s'] n']|] eqn:Ep; cbn in Hp; [| |contradiction|exact Logic.I].
    - destruct Hp as (u & l & H1 & H2). eapply IH; [|exact He|eapply many_app; eassumption|intros E; destruct vals; discriminate|exact HQ].
      eapply stepped_trans; [exact Hs|exact H1].
    - destruct Hp as (H1 & H2 & H3). cbn in H1, H2, H3.
      assert (stepped s0 (set_env s' (ps_env s)) t j) as Hs'.
      { destruct Hs as (S1 & P & S2 & c & S3 & S4 & S5). split; [cbn; rewrite H1; exact S1|]. split; [exact P|]. split.
        - intros V. cbn. rewrite H3; [apply S2, V|]. rewrite S1 in V. apply valid_app in V. apply V.
        - exists c. cbn. rewrite H2. auto. }
      assert (failed s0 (set_env s' (ps_env s)) \/ vals <> []) as Hd.
      { destruct vals; [left|right; discriminate]. rewrite (Hv eq_refl) in *. repeat split; assumption. }
      destruct vals as [|v vals].
      + destruct need; [destruct Hd as [Hd|Hd]; [exact Hd|congruence]|]. eapply HQ; [exact Hs'|exact He|exact Hm|discriminate|exists (set_env s []), s', n'; split; [exact Ep|symmetry; exact H1]].
      + eapply HQ; [exact Hs'|exact He|exact Hm|discriminate|exists (set_env s []), s', n'; split; [exact Ep|symmetry; exact H1]].
  Qed.
  Lemma wpp_star I f e s (Q : val -> pstate -> Prop) : counted s ->
    (forall s, counted s -> ps_env s = [] -> wpp f e s (fun v s' => exists t k, stepped s s' t k /\ I v t k)) ->
    (forall vs s' t k, stepped s s' t k -> ps_env s' = ps_env s -> many I vs t k ->
       (exists s1 s2 n, pexpr rules f e s1 = Some (PFail, s2, n) /\ ps_rest s1 = ps_rest s') -> Q (VSlice vs) s') ->
    wpp (S f) (EStar e) s Q.
  Proof.
    intros Hc H HQ. unfold wpp. cbn [pexpr]. eapply star_loop_holds; [exact H|apply stepped_refl, Hc|reflexivity|constructor|reflexivity|]. eauto.
  Qed.
  Lemma wpp_plus I f e s (Q : val -> pstate -> Prop) : counted s ->
    (forall s, counted s -> ps_env s = [] -> wpp f e s (fun v s' => exists t k, stepped s s' t k /\ I v t k)) ->
    (forall vs s' t k, stepped s s' t k -> ps_env s' = ps_env s -> many I vs t k -> vs <> [] -> Q (VSlice vs) s') ->
    wpp (S f) (EPlus e) s Q.
  Proof.
    intros Hc H HQ. unfold wpp. cbn [pexpr]. eapply star_loop_holds; [exact H|apply stepped_refl, Hc|reflexivity|constructor|reflexivity|]. eauto.
  Qed.
  Lemma wpp_opt f e s (Q : val -> pstate -> Prop) :
    wpp f e (set_env s []) (fun v s' => Q v (set_env s' (ps_env s))) ->
    (forall s', failed s s' -> ps_env s' = ps_env s -> Q VNil s') ->
    wpp (S f) (EOpt e) s Q.
  Proof.
    unfold wpp, holds. cbn [pexpr]. destruct (pexpr rules f e (set_env s [])) as [[[[v| |m] s'] n]|]; cbn; auto.
  Qed.
  Lemma wpp_not f e s (Q : val -> pstate -> Prop) :
    wpp f e (set_env s []) (fun v s' => valid (ps_rest s) -> ps_errs s' = ps_errs s) ->
    (forall s', failed s s' -> ps_env s' = ps_env s ->
       (exists n s1, pexpr rules f e (set_env s []) = Some (PFail, s1, n)) -> Q VNil s') ->
    wpp (S f) (ENot e) s Q.
  Proof.
    unfold wpp, holds. cbn [pexpr]. destruct (pexpr rules f e (set_env s [])) as [[[[v| |m] s'] n]|] eqn:E; cbn; auto.
    - intros H _. repeat split. exact H.
    - intros H HQ. apply HQ; [|reflexivity|eauto]. destruct H as (H1 & H2 & H3). repeat split. exact H3.
  Qed.

  Lemma lit_loop_spec ic lit : forall s, counted s ->
    match lit_loop lit ic s with
    | (true, s') => exists t, stepped s s' t 0 /\ ps_env s' = ps_env s /\ map (fun c => if ic then to_lower (gc_rune c) else gc_rune c) t = lit
    | (false, s') => ps_st s' = ps_st s /\ (valid (ps_rest s) -> ps_errs s' = ps_errs s)
    end.
  Proof.
    induction lit as [|w lit IH]; intros s Hc; cbn [lit_loop].
    { exists []. split; [apply stepped_refl, Hc|]. split; reflexivity. }
    destruct (ps_rest s) as [|c l] eqn:E; [auto|]. destruct (_ =? w) eqn:Ew; [|auto].
    destruct (read_trace s c l E) as (_ & R2 & R3 & R4).
    assert (stepped s (read s) [c] 0) as Hs.
    { destruct Hc as (P & x & X1 & X2). split; [rewrite E, R2; reflexivity|]. split; [exact P|]. split; [apply read_errs_valid|].
      exists x. rewrite Z.add_0_r, wrap64_id, R3 by exact X1. auto. }
    specialize (IH (read s) (stepped_counted _ _ _ _ Hs)). destruct (lit_loop lit ic (read s)) as ([|], s').
    - destruct IH as (t & I1 & I2 & I3). exists (c :: t). split; [exact (stepped_trans _ _ _ _ _ _ _ Hs I1)|]. split; [congruence|]. cbn. f_equal; [|exact I3]. lia.
    - destruct IH as (I1 & I2). split; [congruence|]. intros V. rewrite <- E in V. rewrite I2; [apply read_errs_valid, V|apply read_errs_valid, V].
  Qed.
  Lemma slice_from_app t l : slice_from (t ++ l) l = t.
  Proof. unfold slice_from. rewrite app_length. replace (length t + length l - length l)%nat with (length t) by lia. rewrite firstn_app, Nat.sub_diag, firstn_all. apply app_nil_r. Qed.
  Lemma wpp_lit f lit (ic : bool) s (Q : val -> pstate -> Prop) : counted s ->
    (forall s' t, stepped s s' t 0 -> ps_env s' = ps_env s -> map (fun c => if ic then to_lower (gc_rune c) else gc_rune c) t = lit ->
       Q (VBytes (raw_text t)) s') ->
    wpp (S f) (ELit lit ic) s Q.
  Proof.
    intros Hc HQ. unfold wpp. cbn [pexpr]. pose proof (lit_loop_spec ic lit s Hc) as H. destruct (lit_loop lit ic s) as ([|], s'); cbn.
    - destruct H as (t & H1 & H2 & H3). replace (slice_from _ _) with t; [apply HQ; assumption|].
      destruct H1 as (-> & _). rewrite slice_from_app. reflexivity.
    - destruct H as (H1 & H2). repeat split; assumption.
  Qed.
  Lemma stepped_read s c l : counted s -> ps_rest s = c :: l -> stepped s (read s) [c] 0 /\ ps_env (read s) = ps_env s.
  Proof.
    intros (P & x & X1 & X2) E. destruct (read_trace s c l E) as (_ & R2 & R3 & R4). split; [|exact R4].
    split; [rewrite E, R2; reflexivity|]. split; [exact P|]. split; [apply read_errs_valid|]. exists x. rewrite Z.add_0_r, wrap64_id, R3 by exact X1. auto.
  Qed.
  Lemma wpp_class f cc s (Q : val -> pstate -> Prop) : counted s ->
    (forall s' c, stepped s s' [c] 0 -> ps_env s' = ps_env s -> class_match cc (gc_rune c) = true -> Q (VBytes (gc_raw c)) s') ->
    wpp (S f) (EClass cc) s Q.
  Proof.
    intros Hc HQ. unfold wpp. cbn [pexpr]. destruct (ps_rest s) as [|c l] eqn:E; [repeat split|].
    destruct (class_match cc (gc_rune c)) eqn:Ec; [|repeat split]. destruct (stepped_read s c l Hc E). apply HQ; assumption.
  Qed.
  Lemma wpp_any f s (Q : val -> pstate -> Prop) : counted s ->
    (forall s' c, stepped s s' [c] 0 -> ps_env s' = ps_env s -> Q (VBytes (gc_raw c)) s') -> wpp (S f) EAny s Q.
  Proof.
    intros Hc HQ. unfold wpp. cbn [pexpr]. destruct (ps_rest s) as [|c l] eqn:E; [repeat split|].
    destruct (stepped_read s c l Hc E). apply HQ; assumption.
  Qed.
  Lemma wpp_state f g s (Q : val -> pstate -> Prop) :
    match g (ps_st s) with
    | (AVal _, st') => Q VNil (set_st s st')
    | (AErr m, st') => Q VNil (add_err (set_st s st') m)
    | (APanic _, _) => False
    end -> wpp (S f) (EState g) s Q.
  Proof. unfold wpp. cbn [pexpr]. destruct (g (ps_st s)) as ([v|m|m], st'); exact (fun H => H). Qed.
  Lemma wpp_0 e s (Q : val -> pstate -> Prop) : wpp 0 e s Q.
  Proof. exact Logic.I. Qed.
  Lemma failed_stepped s s' : counted s -> failed s s' -> stepped s s' [] 0.
  Proof.
    intros (P & c & C1 & C2) (H1 & H2 & H3). split; [rewrite H1; reflexivity|]. split; [exact P|]. split; [exact H3|].
    exists c. rewrite Z.add_0_r, wrap64_id, H2 by exact C1. auto.
  Qed.

  (** The same with [pred f] (fuel 0 is trivial) *)
  Lemma wp_action f act e s (Q : val -> pstate -> Prop) :
    wpp (pred f) e s (fun _ s' => match act (ps_env s') (slice_from (ps_rest s) (ps_rest s')) (ps_st s') with
                           | AVal v => Q v s' | AErr m => Q VNil (add_err s' m) | APanic _ => False end) ->
    wpp f (EAction act e) s Q.
  Proof. destruct f as [|f]; [intros; exact Logic.I|exact (wpp_action f act e s Q)]. Qed.
  Lemma wp_label f l e s (Q : val -> pstate -> Prop) :
    wpp (pred f) e (set_env s []) (fun v s' => Q v (set_env s' ((l, v) :: ps_env s))) -> wpp f (ELabel l e) s Q.
  Proof. destruct f as [|f]; [intros; exact Logic.I|exact (wpp_label f l e s Q)]. Qed.
  Lemma wp_ref f r s (Q : val -> pstate -> Prop) : wpp (pred f) (rules r) (set_env s []) (fun v s' => Q v (set_env s' (ps_env s))) -> wpp f (ERef r) s Q.
  Proof. destruct f as [|f]; [intros; exact Logic.I|exact (wpp_ref f r s Q)]. Qed.
  Lemma wp_seq f es s (Q : val -> pstate -> Prop) : seq_wp (pred f) es s s [] Q -> wpp f (ESeq es) s Q.
  Proof. destruct f as [|f]; [intros; exact Logic.I|exact (wpp_seq f es s Q)]. Qed.
  Lemma wp_choice f alts s (Q : val -> pstate -> Prop) :
    Forall (fun e => forall s1, failed s s1 -> ps_env s1 = ps_env s -> wpp (pred f) e (set_env s1 []) (fun v s' => Q v (set_env s' (ps_env s)))) alts ->
    wpp f (EChoice alts) s Q.
  Proof. destruct f as [|f]; [intros; exact Logic.I|exact (wpp_choice f alts s Q)]. Qed.
  Lemma wp_star I f e s (Q : val -> pstate -> Prop) : counted s ->
    (forall s, counted s -> ps_env s = [] -> wpp (pred f) e s (fun v s' => exists t k, stepped s s' t k /\ I v t k)) ->
    (forall vs s' t k, stepped s s' t k -> ps_env s' = ps_env s -> many I vs t k ->
       (exists s1 s2 n, pexpr rules (pred f) e s1 = Some (PFail, s2, n) /\ ps_rest s1 = ps_rest s') -> Q (VSlice vs) s') ->
    wpp f (EStar e) s Q.
  Proof. destruct f as [|f]; [intros; exact Logic.I|exact (wpp_star I f e s Q)]. Qed.
  Lemma wp_plus I f e s (Q : val -> pstate -> Prop) : counted s ->
    (forall s, counted s -> ps_env s = [] -> wpp (pred f) e s (fun v s' => exists t k, stepped s s' t k /\ I v t k)) ->
    (forall vs s' t k, stepped s s' t k -> ps_env s' = ps_env s -> many I vs t k -> vs <> [] -> Q (VSlice vs) s') ->
    wpp f (EPlus e) s Q.
  Proof. destruct f as [|f]; [intros; exact Logic.I|exact (wpp_plus I f e s Q)]. Qed.
  Lemma wp_opt f e s (Q : val -> pstate -> Prop) :
    wpp (pred f) e (set_env s []) (fun v s' => Q v (set_env s' (ps_env s))) ->
    (forall s', failed s s' -> ps_env s' = ps_env s -> Q VNil s') ->
    wpp f (EOpt e) s Q.
  Proof. destruct f as [|f]; [intros; exact Logic.I|exact (wpp_opt f e s Q)]. Qed.
  Lemma wp_not f e s (Q : val -> pstate -> Prop) :
    wpp (pred f) e (set_env s []) (fun v s' => valid (ps_rest s) -> ps_errs s' = ps_errs s) ->
    (forall s', failed s s' -> ps_env s' = ps_env s ->
       (exists n s1, pexpr rules (pred f) e (set_env s []) = Some (PFail, s1, n)) -> Q VNil s') ->
    wpp f (ENot e) s Q.
  Proof. destruct f as [|f]; [intros; exact Logic.I|exact (wpp_not f e s Q)]. Qed.
  Lemma wp_lit f lit (ic : bool) s (Q : val -> pstate -> Prop) : counted s ->
    (forall s' t, stepped s s' t 0 -> ps_env s' = ps_env s -> map (fun c => if ic then to_lower (gc_rune c) else gc_rune c) t = lit ->
       Q (VBytes (raw_text t)) s') ->
    wpp f (ELit lit ic) s Q.
  Proof. destruct f as [|f]; [intros; exact Logic.I|exact (wpp_lit f lit ic s Q)]. Qed.
  Lemma wp_class f cc s (Q : val -> pstate -> Prop) : counted s ->
    (forall s' c, stepped s s' [c] 0 -> ps_env s' = ps_env s -> class_match cc (gc_rune c) = true -> Q (VBytes (gc_raw c)) s') ->
    wpp f (EClass cc) s Q.
  Proof. destruct f as [|f]; [intros; exact Logic.I|exact (wpp_class f cc s Q)]. Qed.
  Lemma wp_any f s (Q : val -> pstate -> Prop) : counted s ->
    (forall s' c, stepped s s' [c] 0 -> ps_env s' = ps_env s -> Q (VBytes (gc_raw c)) s') -> wpp f EAny s Q.
  Proof. destruct f as [|f]; [intros; exact Logic.I|exact (wpp_any f s Q)]. Qed.
  Lemma wp_state f g s (Q : val -> pstate -> Prop) :
    match g (ps_st s) with
    | (AVal _, st') => Q VNil (set_st s st')
    | (AErr m, st') => Q VNil (add_err (set_st s st') m)
    | (APanic _, _) => False
    end -> wpp f (EState g) s Q.
  Proof. destruct f as [|f]; [intros; exact Logic.I|exact (wpp_state f g s Q)]. Qed.
End Wp.
