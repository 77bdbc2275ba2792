(** Where the errors about broken bytes are placed, and which broken bytes are reported. *)
From Verif Require Import Grammar ProofBase Peg PegText PegProofs SpecGrammar SpecErrors SpecBroken ErrInv MendSim Utf8.
From Coq Require Import Lia.
Open Scope list_scope.
Open Scope Z_scope.

Fixpoint vsim_refl (v : val) : vsim v v :=
  match v with
  | VNil => vsim_nil
  | VBytes s => vsim_bytes s s (smend_refl s)
  | VSlice l => vsim_slice l l ((fix go l : Forall2 vsim l l := match l with [] => Forall2_nil _ | x :: l' => Forall2_cons _ _ (vsim_refl x) (go l') end) l)
  | VNode n => vsim_node n n eq_refl
  end.
Lemma esim_refl e : esim e e.
Proof. induction e as [|(k, v) e IH]; constructor; [split; [reflexivity|apply vsim_refl]|exact IH]. Qed.
Lemma act_err a e t st m : acts_sim a -> a e t st = AErr m -> encoding m = false.
Proof. intros H E. pose proof (H e e t _ st (esim_refl e) eq_refl) as X. rewrite E in X. destruct (a e (mc t) st); try (destruct X; fail). destruct X as (_ & X). exact X. Qed.
Lemma bonus_err e t st m : act_u_roll_expr e t st = AErr m -> encoding m = false.
Proof.
  unfold act_u_roll_expr, abind. destruct (to_iface_slice (lookup "bonus" e)) as [[l|]|]; try discriminate; cbv zeta.
  - destruct (Grammar.index l 0) as [o|]; [|discriminate]. destruct (as_bytes o) as [op|]; [|discriminate]. destruct (Grammar.index l 1) as [v|]; [|discriminate]. destruct (as_node v) as [r|]; [|discriminate].
    destruct (String.eqb op "+"); [destruct (lookup "uRollList" e) as [| | |[]]; discriminate|]. destruct (String.eqb op "-"); [destruct (lookup "uRollList" e) as [| | |[]]; discriminate|].
    intros H. injection H as <-. reflexivity.
  - destruct (lookup "uRollList" e) as [| | |[]]; discriminate.
Qed.

Section Spots.
  Variable all : text.
  Definition enc_ok (e : perr rule) : Prop := encoding (e_text e) = true -> exists k, broken all k /\ e_pos e = spot all k.
  Definition covered (er : list (perr rule)) (n : nat) : Prop :=
    forall k, (k <= n)%nat -> broken all k -> exists e, In e er /\ encoding (e_text e) = true /\ e_pos e = spot all k.
  Lemma covered_mono er er' n : incl er er' -> covered er n -> covered er' n.
  Proof. intros Hi H k Hk Hb. destruct (H k Hk Hb) as (e & He & H2). exists e. split; [apply Hi, He|exact H2]. Qed.
  Definition point (er : list (perr rule)) (p : position) (r : text) : Prop := exists i, (i <= length all)%nat /\ r = skipn i all /\ p = spot all i /\ covered er i.
  Definition far (er : list (perr rule)) (p : position) : Prop := exists j, (j <= length all)%nat /\ p = fspot all j /\ covered er j.
  Definition inv (d : dstate rule) : Prop := point (d_errs d) (d_pt d) (d_rest d) /\ far (d_errs d) (d_fail d) /\ Forall enc_ok (d_errs d).
  Lemma point_mono er er' p r : incl er er' -> point er p r -> point er' p r.
  Proof. intros Hi (i & H1 & H2 & H3 & H4). exists i. repeat split; try assumption. eapply covered_mono; eassumption. Qed.
  Lemma far_mono er er' p : incl er er' -> far er p -> far er' p.
  Proof. intros Hi (i & H1 & H2 & H4). exists i. repeat split; try assumption. eapply covered_mono; eassumption. Qed.
  Lemma spot_next i c l : skipn i all = c :: l ->
    match l with
    | [] => Position (p_line (spot all i)) (p_col (spot all i) + 1) (p_offset (spot all i) + Z.of_nat (String.length (gc_raw c)))
    | x :: _ => if gc_rune x =? 10 then Position (p_line (spot all i) + 1) 0 (p_offset (spot all i) + Z.of_nat (String.length (gc_raw c)))
                else Position (p_line (spot all i)) (p_col (spot all i) + 1) (p_offset (spot all i) + Z.of_nat (String.length (gc_raw c))) end = spot all (S i).
  Proof.
    intros E. destruct (step_split _ _ _ _ E) as (Hf & Hs & Hi).
    assert (p_offset (spot all i) + Z.of_nat (String.length (gc_raw c)) = off all (S i)) as Ho by (rewrite spot_off; symmetry; apply (off_step _ _ _ _ E)).
    assert (p_line (spot all i) = 1 + Z.of_nat (length (filter newline (firstn (S i) all)))) as Hl.
    { unfold spot. rewrite E, Hf, filter_app, app_length. cbn [filter]. destruct (newline c); cbn [p_line length]; lia. }
    assert (p_col (spot all i) + 1 = 1 + Z.of_nat (length (line_tail (rev (firstn (S i) all))))) as Hc.
    { unfold spot. rewrite E, Hf, rev_app_distr. cbn [rev app line_tail]. destruct (newline c); cbn [p_col length]; lia. }
    rewrite Ho, Hl, Hc. unfold spot. rewrite Hs. destruct l as [|x l']; [reflexivity|]. unfold newline. destruct (gc_rune x =? 10); reflexivity.
  Qed.
  Lemma skip_nth i c l : skipn i all = c :: l -> nth_error all i = Some c.
  Proof. revert i. clear. induction all as [|x t IH]; intros [|i] H; cbn in *; try discriminate; [injection H as -> _; reflexivity|apply IH, H]. Qed.
  Lemma skip_all i : skipn i all = [] -> (length all <= i)%nat.
  Proof. intros H. apply (f_equal (@length _)) in H. rewrite skipn_length in H. cbn in H. lia. Qed.
  (** coming to character [i]: position and coverage *)
  Lemma arrive_inv d i : (i <= length all)%nat -> d_rest d = skipn i all -> (forall k, (k < i)%nat -> broken all k -> exists e, In e (d_errs d) /\ encoding (e_text e) = true /\ e_pos e = spot all k) ->
    match d_rest d with
    | [] => Position (p_line (d_pt d)) (p_col (d_pt d) + 1) (p_offset (d_pt d))
    | x :: _ => if gc_rune x =? 10 then Position (p_line (d_pt d) + 1) 0 (p_offset (d_pt d)) else Position (p_line (d_pt d)) (p_col (d_pt d) + 1) (p_offset (d_pt d)) end = spot all i ->
    far (d_errs d) (d_fail d) -> Forall enc_ok (d_errs d) -> inv (d_arrive d) /\ incl (d_errs d) (d_errs (d_arrive d)).
  Proof.
    intros Hi Hr Hc Hp Hf He. unfold d_arrive. destruct (d_rest d) as [|c r] eqn:E.
    - rewrite Hp. split; [|intros x Hx; exact Hx]. split; [|split; [exact Hf|exact He]]. exists i. cbn. split; [exact Hi|]. split; [exact Hr|]. split; [reflexivity|].
      intros k Hk Hb. apply Hc; [|exact Hb]. symmetry in Hr. apply skip_all in Hr. destruct Hb as (c & Hn & _). assert (k < length all)%nat by (apply nth_error_Some; congruence). lia.
    - cbv zeta. rewrite Hp. symmetry in Hr. pose proof (skip_nth _ _ _ Hr) as Hn. destruct (gc_bad c) eqn:Eb.
      + assert (incl (d_errs d) (d_errs d ++ [PErr (spot all i) (hd_error (d_rstack d)) "invalid encoding"%string])) as Hin by (intros x Hx; apply in_or_app; left; exact Hx).
        split; [|exact Hin]. split; [|split; [eapply far_mono; [exact Hin|exact Hf]|]].
        * exists i. cbn. split; [exact Hi|]. split; [symmetry; exact Hr|]. split; [reflexivity|]. intros k Hk Hb. destruct (Nat.eq_dec k i) as [->|Hne].
          -- eexists. split; [apply in_or_app; right; left; reflexivity|]. split; reflexivity.
          -- destruct (Hc k ltac:(lia) Hb) as (e & He1 & He2). exists e. split; [apply in_or_app; left; exact He1|exact He2].
        * cbn. apply Forall_app. split; [exact He|]. constructor; [|constructor]. intros _. exists i. split; [exists c; split; assumption|reflexivity].
      + split; [|intros x Hx; exact Hx]. split; [|split; [exact Hf|exact He]]. exists i. cbn. split; [exact Hi|]. split; [symmetry; exact Hr|]. split; [reflexivity|].
        intros k Hk Hb. apply Hc; [|exact Hb]. destruct (Nat.eq_dec k i) as [->|Hne]; [|lia]. exfalso. destruct Hb as (c' & Hn' & Hb). rewrite Hn in Hn'. injection Hn' as <-. congruence.
  Qed.
  Lemma read_inv d c l : inv d -> d_rest d = c :: l -> inv (d_read d) /\ incl (d_errs d) (d_errs (d_read d)).
  Proof.
    intros ((i & Hi & Hr & Hp & Hc) & Hf & He) E. unfold d_read. rewrite E. cbn [tl]. rewrite E in Hr. symmetry in Hr. destruct (step_split _ _ _ _ Hr) as (_ & Hs & Hlt).
    match goal with |- inv (d_arrive ?x) /\ _ => change (d_errs d) with (d_errs x) end. apply (arrive_inv _ (S i)).
    - lia.
    - cbn. symmetry. exact Hs.
    - intros k Hk Hb. apply Hc; [lia|exact Hb].
    - cbn [d_rest d_pt d_set_point p_line p_col p_offset]. rewrite Hp. apply (spot_next _ _ _ Hr).
    - exact Hf.
    - exact He.
  Qed.
  Lemma spot_fspot i : 0 < p_offset (spot all i) -> spot all i = fspot all i.
  Proof. destruct i as [|i]; [|reflexivity]. rewrite spot_off. unfold off. cbn. lia. Qed.
  Lemma off_nonneg j : 0 <= p_offset (fspot all j).
  Proof. rewrite fspot_off. unfold off. lia. Qed.
  Lemma fail_inv d b p r w : inv d -> point (d_errs d) p r -> inv (fail_at d b p w) /\ incl (d_errs d) (d_errs (fail_at d b p w)).
  Proof.
    intros (Hp & Hf & He) (i & Hi & _ & Hq & Hc). unfold fail_at. destruct (Bool.eqb b (d_invert d)); [|split; [split; [|split]; assumption|apply incl_refl]].
    destruct (p_offset p <? p_offset (d_fail d)); [split; [split; [|split]; assumption|apply incl_refl]|]. split; [|apply incl_refl]. split; [exact Hp|]. split; [|exact He]. cbn [d_errs d_fail].
    destruct (p_offset (d_fail d) <? p_offset p) eqn:E; [|exact Hf]. destruct Hf as (j & _ & Hj & _). exists i. split; [exact Hi|]. split; [|exact Hc]. rewrite Hq. apply spot_fspot. rewrite <- Hq. apply Z.ltb_lt in E. rewrite Hj in E. pose proof (off_nonneg j). lia.
  Qed.
  Lemma lit_inv lt ic : forall d, inv d -> inv (snd (d_lit_loop lt ic d)) /\ incl (d_errs d) (d_errs (snd (d_lit_loop lt ic d))).
  Proof.
    induction lt as [|w lt IH]; intros d H; cbn [d_lit_loop]; [split; [exact H|apply incl_refl]|]. destruct (d_rest d) as [|c l] eqn:E; [split; [exact H|apply incl_refl]|].
    destruct (_ =? w); [|split; [exact H|apply incl_refl]]. destruct (read_inv d c l H E) as (H1 & H2). destruct (IH _ H1) as (H3 & H4). split; [exact H3|]. eapply incl_tran; eassumption.
  Qed.
  Definition out_inv (d : dstate rule) (o : @dout rule) : Prop := match o with Some (_, d', _) => inv d' /\ incl (d_errs d) (d_errs d') | None => True end.
  Definition pinv (p : expr rule -> dstate rule -> @dout rule) : Prop := forall e d, good e -> inv d -> out_inv d (p e d).
  Lemma back_inv d x : inv d -> inv x -> incl (d_errs x) (d_errs d) -> inv (d_set_point d (d_pt x) (d_rest x)).
  Proof. intros (_ & H2 & H3) (H1 & _) Hi. split; [eapply point_mono; [exact Hi|exact H1]|]. split; assumption. Qed.
  Lemma seq_inv p : pinv p -> forall es, Forall good es -> forall d0 d vs n, inv d0 -> inv d -> incl (d_errs d0) (d_errs d) -> out_inv d0 (d_seq_loop p es d0 d vs n).
  Proof.
    intros Hp. induction 1 as [|e es He _ IH]; intros d0 d vs n H0 H Hi; cbn [d_seq_loop]; [split; assumption|].
    pose proof (Hp e d He H) as X. destruct (p e d) as [(([v| |m], x), k)|]; [| | |exact I]; destruct X as (X1 & X2); assert (incl (d_errs d0) (d_errs x)) as X3 by (eapply incl_tran; eassumption).
    - apply IH; assumption.
    - split; [|exact X3]. exact (back_inv (d_set_st x (d_st d0)) d0 X1 H0 X3).
    - split; assumption.
  Qed.
  Lemma choice_inv p : pinv p -> forall es, Forall good es -> forall d n, inv d -> out_inv d (d_choice_loop p es d n).
  Proof.
    intros Hp. induction 1 as [|e es He _ IH]; intros d n H; cbn [d_choice_loop]; [split; [exact H|apply incl_refl]|].
    pose proof (Hp e (d_set_env d []) He H) as X. destruct (p e (d_set_env d [])) as [(([v| |m], x), k)|]; [| | |exact I]; destruct X as (X1 & X2); [split; assumption| |split; assumption].
    specialize (IH (d_set_env (d_set_st x (d_st d)) (d_env d)) (n + k)%N X1). destruct (d_choice_loop p es _ _) as [((r, y), k')|]; [|exact I]. destruct IH as (Y1 & Y2). split; [exact Y1|]. eapply incl_tran; [exact X2|exact Y2].
  Qed.
  Lemma star_inv p : (forall d, inv d -> out_inv d (p d)) -> forall need k d vs n, inv d -> out_inv d (d_star_loop k p need d vs n).
  Proof.
    intros Hp need. induction k as [|k IH]; intros d vs n H; cbn [d_star_loop]; [exact I|].
    pose proof (Hp (d_set_env d []) H) as X. destruct (p (d_set_env d [])) as [(([v| |m], x), j)|]; [| | |exact I]; destruct X as (X1 & X2); [|destruct vs; [destruct need|]; split; assumption|split; assumption].
    specialize (IH (d_set_env x (d_env d)) (vs ++ [v]) (n + j)%N X1). destruct (d_star_loop k p need _ _ _) as [((r, y), k')|]; [|exact I]. destruct IH as (Y1 & Y2). split; [exact Y1|]. eapply incl_tran; [exact X2|exact Y2].
  Qed.
  Lemma err_inv d m p : encoding m = false -> inv d -> inv (d_err_at d m p) /\ incl (d_errs d) (d_errs (d_err_at d m p)).
  Proof.
    intros Hm (H1 & H2 & H3). assert (incl (d_errs d) (d_errs (d_err_at d m p))) as Hi by (intros x Hx; apply in_or_app; left; exact Hx). split; [|exact Hi].
    split; [eapply point_mono; [exact Hi|exact H1]|]. split; [eapply far_mono; [exact Hi|exact H2]|]. apply Forall_app. split; [exact H3|]. constructor; [|constructor]. unfold enc_ok. cbn [e_text]. rewrite Hm. discriminate.
  Qed.
  Lemma action_inv f e d a : (forall d' v n, dexpr rules f e d = Some (PMatch v, d', n) -> forall m, a (d_env d') (slice_from (d_rest d) (d_rest d')) (d_st d') = AErr m -> encoding m = false) ->
    out_inv d (dexpr rules f e d) -> out_inv d (dexpr rules (S f) (EAction a e) d).
  Proof.
    intros Ha X. cbn [dexpr]. destruct (dexpr rules f e d) as [(([v| |m], x), k)|]; [|exact X|exact X|exact I]. specialize (Ha x v k eq_refl).
    destruct (a (d_env x) _ _) as [v'|m|m]; [exact X| |exact X]. destruct X as (X1 & X2). destruct (err_inv x m (d_pt d) (Ha m eq_refl) X1) as (Y1 & Y2). split; [exact Y1|]. eapply incl_tran; eassumption.
  Qed.
  Theorem dexpr_inv f : pinv (dexpr rules f).
  Proof.
    induction f as [|f IH]; intros e d He H; [exact I|]. destruct He as [a e Ha He|e _ He|l e He|es He|es He|lt ic _|c _| |r|e He|e He|e He|e He|g Hg].
    - apply action_inv; [|apply IH; assumption]. intros d' v n _ m Hm. eapply act_err; eassumption.
    - apply action_inv; [|apply IH; assumption]. intros d' v n _ m Hm. eapply bonus_err; eassumption.
    - cbn [dexpr]. pose proof (IH e (d_set_env d []) He H) as X. destruct (dexpr rules f e (d_set_env d [])) as [(([v| |m], x), k)|]; [exact X|exact X|exact X|exact I].
    - apply choice_inv; assumption.
    - apply seq_inv; try assumption. apply incl_refl.
    - cbn [dexpr]. pose proof (lit_inv lt ic d H) as X. destruct (d_lit_loop lt ic d) as (b, x). cbn [snd] in X. destruct X as (X1 & X2).
      assert (point (d_errs x) (d_pt d) (d_rest d)) as Hq by (eapply point_mono; [exact X2|apply H]).
      assert (forall b', inv (fail_at x b' (d_pt d) (WLit lt ic)) /\ incl (d_errs d) (d_errs (fail_at x b' (d_pt d) (WLit lt ic)))) as Hf.
      { intros b'. destruct (fail_inv x b' _ _ (WLit lt ic) X1 Hq) as (Y1 & Y2). split; [exact Y1|]. eapply incl_tran; eassumption. }
      destruct b; [apply Hf|]. destruct (Hf false) as (Y1 & Y2). split; [|exact Y2]. apply back_inv; assumption.
    - cbn [dexpr]. assert (forall b', inv (fail_at d b' (d_pt d) (WClass c)) /\ incl (d_errs d) (d_errs (fail_at d b' (d_pt d) (WClass c)))) as Hf by (intros b'; eapply fail_inv; [exact H|apply H]).
      destruct (d_rest d) as [|ch r] eqn:E; [apply Hf|]. destruct (class_match c (gc_rune ch)); [|apply Hf].
      destruct (read_inv d ch r H E) as (X1 & X2). destruct (fail_inv (d_read d) true (d_pt d) (d_rest d) (WClass c) X1) as (Y1 & Y2); [eapply point_mono; [exact X2|apply H]|]. split; [exact Y1|]. eapply incl_tran; eassumption.
    - cbn [dexpr]. assert (forall b', inv (fail_at d b' (d_pt d) WAny) /\ incl (d_errs d) (d_errs (fail_at d b' (d_pt d) WAny))) as Hf by (intros b'; eapply fail_inv; [exact H|apply H]).
      destruct (d_rest d) as [|ch r] eqn:E; [apply Hf|].
      destruct (read_inv d ch r H E) as (X1 & X2). destruct (fail_inv (d_read d) true (d_pt d) (d_rest d) WAny X1) as (Y1 & Y2); [eapply point_mono; [exact X2|apply H]|]. split; [exact Y1|]. eapply incl_tran; eassumption.
    - cbn [dexpr]. pose proof (IH (rules r) (d_set_rstack (d_set_env d []) (r :: d_rstack d)) (rules_good r) H) as X. destruct (dexpr rules f (rules r) _) as [(([v| |m], x), k)|]; [exact X|exact X|exact X|exact I].
    - apply star_inv; [|exact H]. intros x Hx. apply IH; assumption.
    - apply star_inv; [|exact H]. intros x Hx. apply IH; assumption.
    - cbn [dexpr]. pose proof (IH e (d_set_env d []) He H) as X. destruct (dexpr rules f e (d_set_env d [])) as [(([v| |m], x), k)|]; [exact X|exact X|exact X|exact I].
    - cbn [dexpr]. pose proof (IH e (d_set_invert (d_set_env d []) (negb (d_invert d))) He H) as X. destruct (dexpr rules f e _) as [(([v| |m], x), k)|]; [| |exact X|exact I]; destruct X as (X1 & X2);
        (split; [|exact X2]; exact (back_inv (d_set_st (d_set_env (d_set_invert x (d_invert d)) (d_env d)) (d_st d)) d X1 H X2)).
    - cbn [dexpr]. specialize (Hg (d_st d)). destruct (g (d_st d)) as ([v|m|m], st'); [|destruct Hg|]; (split; [exact H|apply incl_refl]).
  Qed.
End Spots.
