(** The farthest failure only moves forward, and as long as it stays where it is, the list of what was expected there only grows. *)
From Verif Require Import Grammar PegText ProofBase.
Open Scope list_scope.
Open Scope Z_scope.

Definition farther (d d' : dstate rule) : Prop :=
  p_offset (d_fail d) <= p_offset (d_fail d') /\ (p_offset (d_fail d) = p_offset (d_fail d') -> incl (d_expected d) (d_expected d')).
Lemma farther_same d d' : d_fail d' = d_fail d -> d_expected d' = d_expected d -> farther d d'.
Proof. intros H1 H2. unfold farther. rewrite H1, H2. split; [lia|intros _; apply incl_refl]. Qed.
Lemma farther_trans d d' d'' : farther d d' -> farther d' d'' -> farther d d''.
Proof. intros (H1 & H2) (G1 & G2). split; [lia|]. intros E. eapply incl_tran; [apply H2|apply G2]; lia. Qed.
Definition fart (d : dstate rule) (o : @dout rule) : Prop := match o with Some (_, d', _) => farther d d' | None => True end.
Lemma farther_fail_at d b p w : farther d (fail_at d b p w).
Proof.
  unfold fail_at. destruct (Bool.eqb b (d_invert d)); [|apply farther_same; reflexivity].
  destruct (Z.ltb_spec (p_offset p) (p_offset (d_fail d))) as [H|H]; [apply farther_same; reflexivity|].
  destruct (Z.ltb_spec (p_offset (d_fail d)) (p_offset p)) as [H'|H']; unfold farther; cbn.
  - split; [lia|lia].
  - split; [lia|]. intros _. apply incl_appl, incl_refl.
Qed.
Lemma read_same d : d_fail (d_read (R := rule) d) = d_fail d /\ d_expected (d_read d) = d_expected d.
Proof. unfold d_read, d_arrive. cbn [d_rest d_set_point d_pt]. destruct (tl (d_rest d)) as [|c l]; [split; reflexivity|]. destruct (gc_bad c); split; reflexivity. Qed.
Lemma lit_same lit ic : forall d b d', d_lit_loop (R := rule) lit ic d = (b, d') -> d_fail d' = d_fail d /\ d_expected d' = d_expected d.
Proof.
  induction lit as [|w lit IH]; intros d b d' H; cbn [d_lit_loop] in H; [injection H as <- <-; split; reflexivity|].
  destruct (d_rest d) as [|c l]; [injection H as <- <-; split; reflexivity|]. destruct (_ =? w); [|injection H as <- <-; split; reflexivity].
  apply IH in H as (H1 & H2). destruct (read_same d) as (R1 & R2). split; congruence.
Qed.
Lemma fart_via d d1 o : farther d d1 -> fart d1 o -> fart d o.
Proof. destruct o as [[[r d'] n]|]; [apply farther_trans|auto]. Qed.
Lemma same_env d e : farther d (d_set_env d e). Proof. apply farther_same; reflexivity. Qed.
Section Loops.
  Variable p : expr rule -> dstate rule -> @dout rule.
  Hypothesis Hp : forall e d, fart d (p e d).
  Lemma seq_fart es : forall d0 d vals n, fart d (d_seq_loop p es d0 d vals n).
  Proof.
    induction es as [|e es IH]; intros d0 d vals n; cbn [d_seq_loop]; [apply farther_same; reflexivity|].
    pose proof (Hp e d) as H. destruct (p e d) as [[[[v| |m] d'] n']|]; [|exact H|exact H|exact I]. eapply fart_via; [exact H|apply IH].
  Qed.
  Lemma choice_fart es : forall d n, fart d (d_choice_loop p es d n).
  Proof.
    induction es as [|e es IH]; intros d n; cbn [d_choice_loop]; [apply farther_same; reflexivity|].
    pose proof (Hp e (d_set_env d [])) as H. destruct (p e (d_set_env d [])) as [[[[v| |m] d'] n']|]; [exact H| |exact H|exact I].
    eapply fart_via; [|apply IH]. exact H.
  Qed.
End Loops.
Lemma star_fart p need : (forall d, fart d (p d)) -> forall k d vals n, fart d (d_star_loop (R := rule) k p need d vals n).
Proof.
  intros Hp k. induction k as [|k IH]; intros d vals n; cbn [d_star_loop]; [exact I|].
  pose proof (Hp (d_set_env d [])) as H. destruct (p (d_set_env d [])) as [[[[v| |m] d'] n']|]; [| |exact H|exact I].
  - eapply fart_via; [|apply IH]. exact H.
  - destruct vals as [|v vals]; [destruct need|]; exact H.
Qed.
Lemma dexpr_fart f : forall e d, fart d (dexpr rules f e d).
Proof.
  induction f as [|f IH]; intros e d; [exact I|]. destruct e as [act e|l e|alts|es|lt ic|c| |r|e|e|e|e|g]; cbn [dexpr].
  - pose proof (IH e d) as H. destruct (dexpr rules f e d) as [[[[v| |m] d'] n]|]; [|exact H|exact H|exact I]. destruct (act _ _ _); exact H.
  - pose proof (IH e (d_set_env d [])) as H. destruct (dexpr rules f e (d_set_env d [])) as [[[[v| |m] d'] n]|]; exact H.
  - apply choice_fart, IH.
  - apply seq_fart, IH.
  - destruct (d_lit_loop lt ic d) as (b, d') eqn:E. apply lit_same in E as (E1 & E2). destruct b; cbn [fart dret].
    + eapply farther_trans; [apply (farther_same d d' E1 E2)|apply farther_fail_at].
    + eapply farther_trans; [apply (farther_same d d' E1 E2)|]. eapply farther_trans; [apply farther_fail_at|apply farther_same; reflexivity].
  - destruct (d_rest d) as [|ch l]; [apply farther_fail_at|]. destruct (class_match c (gc_rune ch)); [|apply farther_fail_at].
    cbn [fart dret]. eapply farther_trans; [apply (farther_same d (d_read d)); apply read_same|apply farther_fail_at].
  - destruct (d_rest d) as [|ch l]; [apply farther_fail_at|]. cbn [fart dret]. eapply farther_trans; [apply (farther_same d (d_read d)); apply read_same|apply farther_fail_at].
  - pose proof (IH (rules r) (d_set_rstack (d_set_env d []) (r :: d_rstack d))) as H. destruct (dexpr rules f (rules r) _) as [[[[v| |m] d'] n]|]; exact H.
  - apply star_fart. intros d'. apply IH.
  - apply star_fart. intros d'. apply IH.
  - pose proof (IH e (d_set_env d [])) as H. destruct (dexpr rules f e (d_set_env d [])) as [[[[v| |m] d'] n]|]; exact H.
  - pose proof (IH e (d_set_invert (d_set_env d []) (negb (d_invert d)))) as H. destruct (dexpr rules f e _) as [[[[v| |m] d'] n]|]; exact H.
  - destruct (g (d_st d)) as ([v|m|m], st'); apply farther_same; reflexivity.
Qed.
