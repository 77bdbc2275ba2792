(** The engine with options against the engine without. *)
From Verif Require Import Grammar ProofBase PegOptions.
Open Scope list_scope.
Open Scope Z_scope.

(** without the errors about broken bytes *)
Definition about_bytes (m : string) : bool := String.eqb m "invalid encoding".
Definition without_bytes (l : list string) : list string := filter (fun m => negb (about_bytes m)) l.
Lemma without_app a b : without_bytes (a ++ b) = without_bytes a ++ without_bytes b.
Proof. apply filter_app. Qed.
(** Actions and states whose own errors are about something else *)
Inductive clean {R} : expr R -> Prop :=
| c_action a e : (forall v t st m, a v t st = AErr m -> about_bytes m = false) -> clean e -> clean (EAction a e)
| c_label l e : clean e -> clean (ELabel l e)
| c_choice es : Forall clean es -> clean (EChoice es)
| c_seq es : Forall clean es -> clean (ESeq es)
| c_lit lt ic : clean (ELit lt ic)
| c_class c : clean (EClass c)
| c_any : clean EAny
| c_ref r : clean (ERef r)
| c_star e : clean e -> clean (EStar e)
| c_plus e : clean e -> clean (EPlus e)
| c_opt e : clean e -> clean (EOpt e)
| c_not e : clean e -> clean (ENot e)
| c_state g : (forall st m, fst (g st) = AErr m -> about_bytes m = false) -> clean (Peg.EState g).

Section Sim.
  Context {R : Type}.
  Variable same_rule : R -> R -> bool.
  Variable rules : R -> expr R.
  Variable o : options R.
  Hypothesis no_memo : o_memoize o = false.
  Hypothesis rules_clean : forall r, clean (rules r).

  Definition same_errs (a b : list string) : Prop := if o_allow o then b = without_bytes a else a = b.
  Lemma same_errs_snoc a b m : about_bytes m = false -> same_errs a b -> same_errs (a ++ [m]) (b ++ [m]).
  Proof. intros Hm. unfold same_errs. destruct (o_allow o); intros ->; [|reflexivity]. rewrite without_app. unfold without_bytes at 3. cbn [filter]. rewrite Hm. reflexivity. Qed.
  Definition alike (p q : pstate) : Prop := ps_rest p = ps_rest q /\ ps_st p = ps_st q /\ ps_env p = ps_env q /\ same_errs (ps_errs p) (ps_errs q).
  Lemma alike_rest p q r : alike p q -> alike (set_rest p r) (set_rest q r).
  Proof. intros (H1 & H2 & H3 & H4). repeat split; assumption. Qed.
  Lemma alike_st p q r : alike p q -> alike (set_st p r) (set_st q r).
  Proof. intros (H1 & H2 & H3 & H4). repeat split; assumption. Qed.
  Lemma alike_env p q r : alike p q -> alike (set_env p r) (set_env q r).
  Proof. intros (H1 & H2 & H3 & H4). repeat split; assumption. Qed.
  Lemma alike_err p q m : about_bytes m = false -> alike p q -> alike (add_err p m) (add_err q m).
  Proof. intros Hm (H1 & H2 & H3 & H4). split; [exact H1|split; [exact H2|split; [exact H3|]]]. apply same_errs_snoc; assumption. Qed.
  Lemma alike_arrive p q : alike p q -> alike (arrive p) (o_arrive o q).
  Proof.
    intros H. pose proof H as (H1 & H2 & H3 & H4). unfold o_arrive, arrive. rewrite <- H1. unfold alike, same_errs in *. destruct (o_allow o).
    - destruct (ps_rest p) as [|c l] eqn:E; [repeat split; congruence|]. destruct (gc_bad c); [|repeat split; congruence].
      unfold add_err. cbn [ps_rest ps_st ps_errs ps_env]. repeat split; [congruence..|]. rewrite without_app. cbn. rewrite app_nil_r. exact H4.
    - destruct (ps_rest p) as [|c l] eqn:E; [repeat split; congruence|]. destruct (gc_bad c); [|repeat split; congruence].
      unfold add_err. cbn [ps_rest ps_st ps_errs ps_env]. rewrite H4. repeat split; congruence.
  Qed.
  Lemma alike_read p q : alike p q -> alike (read p) (o_read o q).
  Proof. intros H. unfold read, o_read. apply alike_arrive. pose proof H as (-> & _). apply alike_rest, H. Qed.
  Lemma alike_lit l ic : forall p q, alike p q -> fst (lit_loop l ic p) = fst (o_lit_loop o l ic q) /\ alike (snd (lit_loop l ic p)) (snd (o_lit_loop o l ic q)).
  Proof.
    induction l as [|w l IH]; intros p q H; cbn [lit_loop o_lit_loop]; [split; [reflexivity|exact H]|]. pose proof H as (<- & _). destruct (ps_rest p) as [|c t]; [split; [reflexivity|exact H]|].
    destruct (_ =? w); [apply IH, alike_read, H|split; [reflexivity|exact H]].
  Qed.

  Definition within (k : N) : Prop := (o_max o = 0 \/ k <= o_max o)%N.
  (** Outcome of the plain engine, started with [c] expressions behind, and of the engine with options *)
  Definition tied (c : N) (m : memo R) (x : pout) (y : option (pres * ostate R)) : Prop :=
    match x with
    | None => True
    | Some (r, p', n) =>
        (within (c + n) -> exists q', y = Some (r, OState q' (c + n) m) /\ alike p' q') /\
        (~ within (c + n) -> exists q', y = Some (PPanic max_message, OState q' (o_max o + 1) m))
    end.
  Definition runs_tied (pl : pstate -> pout) (op : ostate R -> option (pres * ostate R)) : Prop :=
    forall c m p q, within c -> alike p q -> tied c m (pl p) (op (OState q c m)).
  Lemma within_dec k : within k \/ ~ within k.
  Proof. unfold within. lia. Qed.
  Lemma within_le a b : (a <= b)%N -> within b -> within a.
  Proof. unfold within. intros H [K|K]; [left; exact K|right; lia]. Qed.

  Lemma seq_mono (pl : expr R -> pstate -> pout) es s0 : forall s vals cnt r s' n, seq_loop pl es s0 s vals cnt = Some (r, s', n) -> (cnt <= n)%N.
  Proof.
    induction es as [|e es IH]; intros s vals cnt r s' n; cbn [seq_loop]; [intros [= _ _ <-]; lia|]. destruct (pl e s) as [[[[v| |m] s1] k]|]; [|intros [= _ _ <-]; lia|intros [= _ _ <-]; lia|discriminate].
    intros H. apply IH in H. lia.
  Qed.
  Lemma choice_mono (pl : expr R -> pstate -> pout) es : forall s cnt r s' n, choice_loop pl es s cnt = Some (r, s', n) -> (cnt <= n)%N.
  Proof.
    induction es as [|e es IH]; intros s cnt r s' n; cbn [choice_loop]; [intros [= _ _ <-]; lia|]. destruct (pl e (set_env s [])) as [[[[v| |m] s1] k]|]; [intros [= _ _ <-]; lia| |intros [= _ _ <-]; lia|discriminate].
    intros H. apply IH in H. lia.
  Qed.
  Lemma star_mono (pl : pstate -> pout) need k : forall s vals cnt r s' n, star_loop k pl need s vals cnt = Some (r, s', n) -> (cnt <= n)%N.
  Proof.
    induction k as [|k IH]; intros s vals cnt r s' n; cbn [star_loop]; [discriminate|]. destruct (pl (set_env s [])) as [[[[v| |m] s1] j]|]; [| |intros [= _ _ <-]; lia|discriminate].
    - intros H. apply IH in H. lia.
    - destruct vals; [destruct need|]; intros [= _ _ <-]; lia.
  Qed.
  Ltac eqN := match goal with |- context [OState _ ?a _] => idtac end; repeat f_equal; lia.
  Lemma seq_tied (pl : expr R -> pstate -> pout) (op : nat -> expr R -> ostate R -> option (pres * ostate R)) es p0 q0 :
    (forall i e, clean e -> runs_tied (pl e) (op i e)) -> Forall clean es -> alike p0 q0 -> forall i c m p q vals cnt, within (c + cnt) -> alike p q ->
    tied c m (seq_loop pl es p0 p vals cnt) (o_seq op i es q0 (OState q (c + cnt) m) vals).
  Proof.
    intros Hp Hes H0. induction Hes as [|e es He _ IH]; intros i c m p q vals cnt Hw Ha; cbn [seq_loop o_seq].
    - cbn [tied ret]. split; [intros _; exists q; split; [reflexivity|exact Ha]|intros K; contradiction].
    - pose proof (Hp i e He (c + cnt)%N m p q Hw Ha) as T. unfold tied in T. destruct (pl e p) as [[[r p1] k]|] eqn:E; [|exact I]. destruct T as (T1 & T2). destruct (within_dec (c + cnt + k)) as [W|W].
      + destruct (T1 W) as (q1 & -> & A1). clear T1 T2. replace (c + cnt + k)%N with (c + (cnt + k))%N in * by lia. destruct r as [v| |msg].
        * apply IH; assumption.
        * cbn [tied ret]. split; [|intros K; contradiction]. intros _. eexists. split; [reflexivity|]. pose proof H0 as (E1 & E2 & _). cbn [os_p]. rewrite <- E1, <- E2. apply alike_rest, alike_st, A1.
        * cbn [tied ret]. split; [|intros K; contradiction]. intros _. eexists. split; [reflexivity|exact A1].
      + destruct (T2 W) as (q1 & ->). clear T1 T2. unfold tied. destruct r as [v| |msg].
        * destruct (seq_loop pl es p0 p1 (vals ++ [v]) (cnt + k)) as [[[r' p2] n]|] eqn:E2; [|exact I]. apply seq_mono in E2. split; [intros K; exfalso; apply W; eapply within_le; [|exact K]; lia|intros _; exists q1; reflexivity].
        * cbn [ret]. split; [intros K; exfalso; apply W; eapply within_le; [|exact K]; lia|intros _; exists q1; reflexivity].
        * cbn [ret]. split; [intros K; exfalso; apply W; eapply within_le; [|exact K]; lia|intros _; exists q1; reflexivity].
  Qed.
  Lemma choice_tied (pl : expr R -> pstate -> pout) (op : nat -> expr R -> ostate R -> option (pres * ostate R)) es :
    (forall i e, clean e -> runs_tied (pl e) (op i e)) -> Forall clean es -> forall i c m p q cnt, within (c + cnt) -> alike p q ->
    tied c m (choice_loop pl es p cnt) (o_choice op i es (OState q (c + cnt) m)).
  Proof.
    intros Hp Hes. induction Hes as [|e es He _ IH]; intros i c m p q cnt Hw Ha; cbn [choice_loop o_choice].
    - cbn [tied ret]. split; [intros _; exists q; split; [reflexivity|exact Ha]|intros K; contradiction].
    - unfold with_p at 1. cbn [os_p os_cnt os_memo]. pose proof (Hp i e He (c + cnt)%N m _ _ Hw (alike_env _ _ [] Ha)) as T. unfold tied in T. destruct (pl e (set_env p [])) as [[[r p1] k]|] eqn:E; [|exact I]. destruct T as (T1 & T2). pose proof Ha as (_ & Es & Ee & _).
      destruct (within_dec (c + cnt + k)) as [W|W].
      + destruct (T1 W) as (q1 & -> & A1). clear T1 T2. replace (c + cnt + k)%N with (c + (cnt + k))%N in * by lia. destruct r as [v| |msg].
        * cbn [tied ret]. split; [|intros K; contradiction]. intros _. eexists. split; [reflexivity|]. cbn [os_p]. rewrite <- Ee. apply alike_env, A1.
        * unfold with_p. cbn [os_p os_cnt os_memo]. apply IH; [assumption|]. rewrite <- Es, <- Ee. apply alike_env, alike_st, A1.
        * cbn [tied ret]. split; [|intros K; contradiction]. intros _. eexists. split; [reflexivity|exact A1].
      + destruct (T2 W) as (q1 & ->). clear T1 T2. unfold tied. destruct r as [v| |msg].
        * cbn [ret]. split; [intros K; exfalso; apply W; eapply within_le; [|exact K]; lia|intros _; exists q1; reflexivity].
        * destruct (choice_loop pl es _ (cnt + k)) as [[[r' p2] n]|] eqn:E2; [|exact I]. apply choice_mono in E2. split; [intros K; exfalso; apply W; eapply within_le; [|exact K]; lia|intros _; exists q1; reflexivity].
        * cbn [ret]. split; [intros K; exfalso; apply W; eapply within_le; [|exact K]; lia|intros _; exists q1; reflexivity].
  Qed.
  Lemma star_tied (pl : pstate -> pout) (op : ostate R -> option (pres * ostate R)) need : runs_tied pl op ->
    forall k c m p q vals cnt, within (c + cnt) -> alike p q -> tied c m (star_loop k pl need p vals cnt) (o_star k op need (OState q (c + cnt) m) vals).
  Proof.
    intros Hp. induction k as [|k IH]; intros c m p q vals cnt Hw Ha; cbn [star_loop o_star]; [exact I|].
    unfold with_p at 1. cbn [os_p os_cnt os_memo]. pose proof (Hp (c + cnt)%N m _ _ Hw (alike_env _ _ [] Ha)) as T. unfold tied in T. destruct (pl (set_env p [])) as [[[r p1] j]|] eqn:E; [|exact I]. destruct T as (T1 & T2). pose proof Ha as (_ & Es & Ee & _).
    destruct (within_dec (c + cnt + j)) as [W|W].
    - destruct (T1 W) as (q1 & -> & A1). clear T1 T2. replace (c + cnt + j)%N with (c + (cnt + j))%N in * by lia. destruct r as [v| |msg].
      + unfold with_p. cbn [os_p os_cnt os_memo]. apply IH; [assumption|]. rewrite <- Ee. apply alike_env, A1.
      + destruct vals as [|v vals]; [destruct need|]; cbn [tied ret]; (split; [|intros K; contradiction]; intros _; eexists; split; [reflexivity|]; cbn [os_p]; rewrite <- Ee; apply alike_env, A1).
      + cbn [tied ret]. split; [|intros K; contradiction]. intros _. eexists. split; [reflexivity|exact A1].
    - destruct (T2 W) as (q1 & ->). clear T1 T2. unfold tied. destruct r as [v| |msg].
      + destruct (star_loop k pl need _ (vals ++ [v]) (cnt + j)) as [[[r' p2] n]|] eqn:E2; [|exact I]. apply star_mono in E2. split; [intros K; exfalso; apply W; eapply within_le; [|exact K]; lia|intros _; exists q1; reflexivity].
      + destruct vals as [|v vals]; [destruct need|]; cbn [ret]; (split; [intros K; exfalso; apply W; eapply within_le; [|exact K]; lia|intros _; exists q1; reflexivity]).
      + cbn [ret]. split; [intros K; exfalso; apply W; eapply within_le; [|exact K]; lia|intros _; exists q1; reflexivity].
  Qed.
  Lemma remember_id p n x : remember o p n x = x.
  Proof. unfold remember. rewrite no_memo. destruct x as [[[v| |m] s]|]; reflexivity. Qed.
  Lemma hit_none s n : hit same_rule o s n = None.
  Proof. unfold hit. rewrite no_memo. reflexivity. Qed.
  Lemma tied_one c m r p q : within (c + 1) -> alike p q -> tied c m (ret r p 1) (Some (r, OState q (c + 1) m)).
  Proof. intros Hw Ha. cbn [tied ret]. split; [intros _; exists q; split; [reflexivity|exact Ha]|intros K; contradiction]. Qed.

  Theorem engine_tied f : forall e r path, clean e -> runs_tied (pexpr rules f e) (oexpr same_rule rules o f r path e).
  Proof.
    induction f as [|f IH]; intros e r path He c m p q Hc Ha; [exact I|]. cbn [oexpr]. rewrite hit_none. cbn [os_p os_cnt os_memo].
    destruct (within_dec (c + 1)) as [W1|W1].
    2: { assert (negb (o_max o =? 0)%N && (o_max o <? c + 1)%N = true) as ->. { unfold within in *. apply andb_true_iff. split; [apply negb_true_iff, N.eqb_neq; tauto|apply N.ltb_lt; lia]. }
      assert (c = o_max o) as Hcm by (unfold within in *; lia). assert (forall x, (forall rr pp n, x = Some (rr, pp, n) -> (1 <= n)%N) -> tied c m x (Some (PPanic max_message, OState q (c + 1) m))) as K.
      { intros [[[rr pp] n]|] Hx; [|exact I]. specialize (Hx _ _ _ eq_refl). cbn [tied]. split; [intros K; exfalso; apply W1; eapply within_le; [|exact K]; lia|intros _; exists q; rewrite Hcm; reflexivity]. }
      apply K. clear K. intros rr pp n. destruct e as [act e'|l e'|alts|es|lt ic|cl| |r'|e'|e'|e'|e'|g]; cbn [pexpr].
      - destruct (pexpr rules f e' p) as [[[[v| |msg] p1] k]|]; [|intros [= _ _ <-]; lia..|discriminate]. destruct (act _ _ _); intros [= _ _ <-]; lia.
      - destruct (pexpr rules f e' _) as [[[[v| |msg] p1] k]|]; [intros [= _ _ <-]; lia..|discriminate].
      - apply choice_mono.
      - apply seq_mono.
      - destruct (lit_loop lt ic p) as [[|] p1]; intros [= _ _ <-]; lia.
      - destruct (ps_rest p) as [|ch t]; [intros [= _ _ <-]; lia|]. destruct (class_match cl _); intros [= _ _ <-]; lia.
      - destruct (ps_rest p) as [|ch t]; intros [= _ _ <-]; lia.
      - destruct (pexpr rules f (rules r') _) as [[[x p1] k]|]; [intros [= _ _ <-]; lia|discriminate].
      - apply star_mono.
      - apply star_mono.
      - destruct (pexpr rules f e' _) as [[[[v| |msg] p1] k]|]; [intros [= _ _ <-]; lia..|discriminate].
      - destruct (pexpr rules f e' _) as [[[[v| |msg] p1] k]|]; [intros [= _ _ <-]; lia..|discriminate].
      - destruct (g (ps_st p)) as [[v|msg|msg] st']; intros [= _ _ <-]; lia. }
    assert (negb (o_max o =? 0)%N && (o_max o <? c + 1)%N = false) as ->. { unfold within in *. apply andb_false_iff. destruct W1 as [W1|W1]; [left; rewrite W1; reflexivity|right; apply N.ltb_ge; lia]. }
    rewrite remember_id. pose proof Ha as (Er & Es & Ee & Eg).
    assert (forall n, (c + 1 + n = c + (1 + n))%N) as Hn by (intros; lia).
    inversion He as [act e' Hact He' E0|l e' He' E0|alts Hes E0|es Hes E0|lt ic E0|cl E0|E0|r' E0|e' He' E0|e' He' E0|e' He' E0|e' He' E0|g Hg E0]; subst e; cbn [pexpr].
    - pose proof (IH e' r (0%nat :: path) He' (c + 1)%N m p q W1 Ha) as T. unfold tied in T. destruct (pexpr rules f e' p) as [[[x p1] n]|]; [|exact I]. destruct T as (T1 & T2). rewrite Hn in T1, T2. destruct (within_dec (c + (1 + n))) as [W|W].
      + destruct (T1 W) as (q1 & -> & A1). destruct x as [v| |msg]; [|cbn [tied ret]; split; [intros _; exists q1; split; [reflexivity|exact A1]|intros K; contradiction]..].
        cbn [os_p]. pose proof A1 as (B1 & B2 & B3 & _). rewrite <- B1, <- B2, <- B3, <- Er.
        destruct (act _ _ _) as [w|msg|msg] eqn:Ea; cbn [tied ret]; (split; [|intros K; contradiction]); intros _; eexists; (split; [reflexivity|]); [exact A1|apply alike_err; [eapply Hact, Ea|exact A1]|exact A1].
      + destruct (T2 W) as (q1 & ->). destruct x as [v| |msg]; [destruct (act _ _ _) as [w|msg|msg]|..]; cbn [tied ret]; (split; [intros K; contradiction|intros _; exists q1; reflexivity]).
    - unfold with_p at 1. cbn [os_p os_cnt os_memo]. pose proof (IH e' r (0%nat :: path) He' (c + 1)%N m _ _ W1 (alike_env _ _ [] Ha)) as T. unfold tied in T. destruct (pexpr rules f e' (set_env p [])) as [[[x p1] n]|]; [|exact I]. destruct T as (T1 & T2). rewrite Hn in T1, T2. destruct (within_dec (c + (1 + n))) as [W|W].
      + destruct (T1 W) as (q1 & -> & A1). rewrite <- Ee. destruct x as [v| |msg]; cbn [tied ret]; (split; [|intros K; contradiction]); intros _; eexists; (split; [reflexivity|]); apply alike_env, A1.
      + destruct (T2 W) as (q1 & ->). destruct x as [v| |msg]; cbn [tied ret]; (split; [intros K; contradiction|intros _; eexists; reflexivity]).
    - apply (choice_tied (pexpr rules f) (fun i => oexpr same_rule rules o f r (i :: path))); [intros i e; apply IH|exact Hes|exact W1|exact Ha].
    - apply (seq_tied (pexpr rules f) (fun i => oexpr same_rule rules o f r (i :: path))); [intros i e; apply IH|exact Hes|exact Ha|exact W1|exact Ha].
    - pose proof (alike_lit lt ic p q Ha) as (L1 & L2). destruct (lit_loop lt ic p) as [b p1], (o_lit_loop o lt ic q) as [b' q1]. cbn [fst snd] in *. subst b'. pose proof L2 as (B1 & _). rewrite <- B1, <- Er. destruct b; apply tied_one; try exact W1; [exact L2|apply alike_rest, L2].
    - rewrite <- Er. destruct (ps_rest p) as [|ch t]; [apply tied_one; assumption|]. destruct (class_match cl (gc_rune ch)); apply tied_one; try assumption. apply alike_read, Ha.
    - rewrite <- Er. destruct (ps_rest p) as [|ch t]; apply tied_one; try assumption. apply alike_read, Ha.
    - rewrite hit_none, remember_id. unfold with_p at 1. cbn [os_p os_cnt os_memo]. pose proof (IH (rules r') r' [] (rules_clean r') (c + 1)%N m _ _ W1 (alike_env _ _ [] Ha)) as T. unfold tied in T. destruct (pexpr rules f (rules r') (set_env p [])) as [[[x p1] n]|]; [|exact I]. destruct T as (T1 & T2). rewrite Hn in T1, T2. destruct (within_dec (c + (1 + n))) as [W|W].
      + destruct (T1 W) as (q1 & -> & A1). rewrite <- Ee. cbn [tied ret]. split; [|intros K; contradiction]. intros _. eexists. split; [reflexivity|]. apply alike_env, A1.
      + destruct (T2 W) as (q1 & ->). cbn [tied ret]. split; [intros K; contradiction|intros _; eexists; reflexivity].
    - apply star_tied; [apply IH, He'|exact W1|exact Ha].
    - apply star_tied; [apply IH, He'|exact W1|exact Ha].
    - unfold with_p at 1. cbn [os_p os_cnt os_memo]. pose proof (IH e' r (0%nat :: path) He' (c + 1)%N m _ _ W1 (alike_env _ _ [] Ha)) as T. unfold tied in T. destruct (pexpr rules f e' (set_env p [])) as [[[x p1] n]|]; [|exact I]. destruct T as (T1 & T2). rewrite Hn in T1, T2. destruct (within_dec (c + (1 + n))) as [W|W].
      + destruct (T1 W) as (q1 & -> & A1). rewrite <- Ee. destruct x as [v| |msg]; cbn [tied ret]; (split; [|intros K; contradiction]); intros _; eexists; (split; [reflexivity|]); try apply alike_env; exact A1.
      + destruct (T2 W) as (q1 & ->). destruct x as [v| |msg]; cbn [tied ret]; (split; [intros K; contradiction|intros _; eexists; reflexivity]).
    - unfold with_p at 1. cbn [os_p os_cnt os_memo]. pose proof (IH e' r (0%nat :: path) He' (c + 1)%N m _ _ W1 (alike_env _ _ [] Ha)) as T. unfold tied in T. destruct (pexpr rules f e' (set_env p [])) as [[[x p1] n]|]; [|exact I]. destruct T as (T1 & T2). rewrite Hn in T1, T2. destruct (within_dec (c + (1 + n))) as [W|W].
      + destruct (T1 W) as (q1 & -> & A1). rewrite <- Ee, <- Er, <- Es. destruct x as [v| |msg]; cbn [tied ret]; (split; [|intros K; contradiction]); intros _; eexists; (split; [reflexivity|]); try apply alike_rest, alike_st, alike_env; exact A1.
      + destruct (T2 W) as (q1 & ->). destruct x as [v| |msg]; cbn [tied ret]; (split; [intros K; contradiction|intros _; eexists; reflexivity]).
    - rewrite <- Es. pose proof (Hg (ps_st p)) as Hg'. destruct (g (ps_st p)) as [[v|msg|msg] st']; apply tied_one; try exact W1; [apply alike_st, Ha|apply alike_err; [apply Hg'; reflexivity|apply alike_st, Ha]|exact Ha].
  Qed.
End Sim.
