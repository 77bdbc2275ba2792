(** Upper bounds for the number of expressions the parser tries. *)
From Coq Require Import NArith Nnat.
From Verif Require Import Grammar ProofBase.
Open Scope list_scope.
Open Scope N_scope.

(** ** What is matched, and how many expressions are tried, without values, states and errors *)
Notation rest := (list gochar).
Fixpoint lit_rest (l : list Z) (ic : bool) (t : rest) : option rest :=
  match l with
  | [] => Some t
  | w :: l' => match t with [] => None | c :: t' => if ((if ic then to_lower (gc_rune c) else gc_rune c) =? w)%Z then lit_rest l' ic t' else None end
  end.
Inductive st : expr rule -> rest -> bool -> rest -> N -> Prop :=
| st_action a e l ok l' n : st e l ok l' n -> st (EAction a e) l ok l' (1 + n)
| st_label x e l ok l' n : st e l ok l' n -> st (ELabel x e) l ok l' (1 + n)
| st_choice es l ok l' n : sc es l ok l' n -> st (EChoice es) l ok l' (1 + n)
| st_seq_ok es l l' n : ss es l true l' n -> st (ESeq es) l true l' (1 + n)
| st_seq_no es l l' n : ss es l false l' n -> st (ESeq es) l false l (1 + n)
| st_lit_ok w ic l l' : lit_rest w ic l = Some l' -> st (ELit w ic) l true l' 1
| st_lit_no w ic l : lit_rest w ic l = None -> st (ELit w ic) l false l 1
| st_class_ok c ch l : class_match c (gc_rune ch) = true -> st (EClass c) (ch :: l) true l 1
| st_class_no c ch l : class_match c (gc_rune ch) = false -> st (EClass c) (ch :: l) false (ch :: l) 1
| st_class_end c : st (EClass c) [] false [] 1
| st_any_ok ch l : st EAny (ch :: l) true l 1
| st_any_end : st EAny [] false [] 1
| st_ref r l ok l' n : st (rules r) l ok l' n -> st (ERef r) l ok l' (1 + n)
| st_star e l l' k n : sk e l l' k n -> st (EStar e) l true l' (1 + n)
| st_plus_ok e l l' k n : sk e l l' (S k) n -> st (EPlus e) l true l' (1 + n)
| st_plus_no e l l' n : sk e l l' 0 n -> st (EPlus e) l false l' (1 + n)
| st_opt e l ok l' n : st e l ok l' n -> st (EOpt e) l true l' (1 + n)
| st_not e l ok l' n : st e l ok l' n -> st (ENot e) l (negb ok) l (1 + n)
| st_state g l : st (Peg.EState g) l true l 1
with ss : list (expr rule) -> rest -> bool -> rest -> N -> Prop :=
| ss_nil l : ss [] l true l 0
| ss_no e es l l' n : st e l false l' n -> ss (e :: es) l false l' n
| ss_ok e es l l1 ok l' n1 n2 : st e l true l1 n1 -> ss es l1 ok l' n2 -> ss (e :: es) l ok l' (n1 + n2)
with sc : list (expr rule) -> rest -> bool -> rest -> N -> Prop :=
| sc_nil l : sc [] l false l 0
| sc_ok e es l l' n : st e l true l' n -> sc (e :: es) l true l' n
| sc_no e es l l1 ok l' n1 n2 : st e l false l1 n1 -> sc es l1 ok l' n2 -> sc (e :: es) l ok l' (n1 + n2)
with sk : expr rule -> rest -> rest -> nat -> N -> Prop :=
| sk_no e l l' n : st e l false l' n -> sk e l l' 0 n
| sk_ok e l l1 l' k n1 n2 : st e l true l1 n1 -> sk e l1 l' k n2 -> sk e l l' (S k) (n1 + n2).

Scheme st_ind' := Minimality for st Sort Prop with ss_ind' := Minimality for ss Sort Prop with sc_ind' := Minimality for sc Sort Prop with sk_ind' := Minimality for sk Sort Prop.
Combined Scheme st_all from st_ind', ss_ind', sc_ind', sk_ind'.

(** a failure consumes nothing *)
Lemma fail_all :
  (forall e l ok l' n, st e l ok l' n -> ok = false -> l' = l) /\ (forall es l ok l' n, ss es l ok l' n -> True) /\
  (forall es l ok l' n, sc es l ok l' n -> ok = false -> l' = l) /\ (forall e l l' k n, sk e l l' k n -> k = 0%nat -> l' = l).
Proof.
  apply st_all; intros; subst; try discriminate; try reflexivity; auto.
  - specialize (H0 eq_refl). subst. auto.
Qed.
Lemma st_fail e l l' n : st e l false l' n -> l' = l.
Proof. intros H. exact (proj1 fail_all _ _ _ _ _ H eq_refl). Qed.
(** what is left is the end of what was there *)
Definition ends (l' l : rest) : Prop := exists x, l = x ++ l'.
Lemma ends_refl l : ends l l. Proof. exists []. reflexivity. Qed.
Lemma ends_trans l1 l2 l3 : ends l1 l2 -> ends l2 l3 -> ends l1 l3.
Proof. intros (x & ->) (y & ->). exists (y ++ x). apply app_assoc. Qed.
Lemma ends_cons c l : ends l (c :: l). Proof. exists [c]. reflexivity. Qed.
Lemma lit_ends w ic : forall l l', lit_rest w ic l = Some l' -> ends l' l.
Proof.
  induction w as [|x w IH]; intros l l'; cbn [lit_rest]; [intros [= <-]; apply ends_refl|]. destruct l as [|c l]; [discriminate|].
  destruct ((if ic then to_lower (gc_rune c) else gc_rune c) =? x)%Z; [|discriminate]. intros H. eapply ends_trans; [apply IH, H|apply ends_cons].
Qed.
Lemma ends_all :
  (forall e l ok l' n, st e l ok l' n -> ends l' l) /\ (forall es l ok l' n, ss es l ok l' n -> ends l' l) /\
  (forall es l ok l' n, sc es l ok l' n -> ends l' l) /\ (forall e l l' k n, sk e l l' k n -> ends l' l).
Proof. apply st_all; intros; eauto using ends_refl, ends_trans, ends_cons, lit_ends. Qed.
Lemma st_ends e l ok l' n : st e l ok l' n -> ends l' l. Proof. apply ends_all. Qed.
(** the same text, the same outcome *)
Lemma det_all :
  (forall e l ok l' n, st e l ok l' n -> forall ok2 l2 n2, st e l ok2 l2 n2 -> ok2 = ok /\ l2 = l' /\ n2 = n) /\
  (forall es l ok l' n, ss es l ok l' n -> forall ok2 l2 n2, ss es l ok2 l2 n2 -> ok2 = ok /\ l2 = l' /\ n2 = n) /\
  (forall es l ok l' n, sc es l ok l' n -> forall ok2 l2 n2, sc es l ok2 l2 n2 -> ok2 = ok /\ l2 = l' /\ n2 = n) /\
  (forall e l l' k n, sk e l l' k n -> forall k2 l2 n2, sk e l l2 k2 n2 -> k2 = k /\ l2 = l' /\ n2 = n).
Proof.
  apply st_all; intros;
  match goal with H : st _ _ ?o ?x ?y |- _ = _ /\ ?x = _ /\ ?y = _ => inversion H; subst; clear H | H : ss _ _ ?o ?x ?y |- _ = _ /\ ?x = _ /\ ?y = _ => inversion H; subst; clear H
    | H : sc _ _ ?o ?x ?y |- _ = _ /\ ?x = _ /\ ?y = _ => inversion H; subst; clear H | H : sk _ _ ?x ?o ?y |- _ = _ /\ ?x = _ /\ ?y = _ => inversion H; subst; clear H end;
  repeat match goal with
    | IH : (forall ok2 l2 n2, st ?e ?l ok2 l2 n2 -> _), H : st ?e ?l _ _ _ |- _ => destruct (IH _ _ _ H) as (? & ? & ?); clear H; subst
    | IH : (forall ok2 l2 n2, ss ?e ?l ok2 l2 n2 -> _), H : ss ?e ?l _ _ _ |- _ => destruct (IH _ _ _ H) as (? & ? & ?); clear H; subst
    | IH : (forall ok2 l2 n2, sc ?e ?l ok2 l2 n2 -> _), H : sc ?e ?l _ _ _ |- _ => destruct (IH _ _ _ H) as (? & ? & ?); clear H; subst
    | IH : (forall ok2 l2 n2, sk ?e ?l l2 ok2 n2 -> _), H : sk ?e ?l _ _ _ |- _ => destruct (IH _ _ _ H) as (? & ? & ?); clear H; subst
    end; try discriminate; repeat split; congruence.
Qed.
Lemma st_det e l ok l' n ok2 l2 n2 : st e l ok l' n -> st e l ok2 l2 n2 -> ok2 = ok /\ l2 = l' /\ n2 = n.
Proof. intros H. apply (proj1 det_all _ _ _ _ _ H). Qed.

(** ** The parser of the model does just that *)
Definition is_match (r : pres) : bool := match r with PMatch _ => true | _ => false end.
Definition calm (r : pres) : Prop := forall m, r <> PPanic m.
Lemma arrive_same s : ps_rest (arrive s) = ps_rest s.
Proof. unfold arrive. destruct (ps_rest s) eqn:E; [exact E|]. destruct (gc_bad g); exact E. Qed.
Lemma lit_refine w ic : forall s b s', lit_loop w ic s = (b, s') -> if b then lit_rest w ic (ps_rest s) = Some (ps_rest s') else lit_rest w ic (ps_rest s) = None.
Proof.
  induction w as [|x w IH]; intros s b s'; cbn [lit_loop lit_rest]; [intros [= <- <-]; reflexivity|]. destruct (ps_rest s) as [|c t] eqn:E; [intros [= <- <-]; reflexivity|].
  destruct ((if ic then to_lower (gc_rune c) else gc_rune c) =? x)%Z; [|intros [= <- <-]; reflexivity]. intros H. apply IH in H. unfold read in H. rewrite arrive_same in H. cbn [set_rest ps_rest] in H. rewrite E in H. exact H.
Qed.
Lemma seq_refine (p : expr rule -> pstate -> pout) (Hp : forall e s r s' n, p e s = Some (r, s', n) -> calm r -> st e (ps_rest s) (is_match r) (ps_rest s') n) s0 :
  forall es s vals cnt r s' n, seq_loop p es s0 s vals cnt = Some (r, s', n) -> calm r ->
  exists m, n = cnt + m /\ (if is_match r then ss es (ps_rest s) true (ps_rest s') m else ps_rest s' = ps_rest s0 /\ exists l', ss es (ps_rest s) false l' m).
Proof.
  induction es as [|e es IH]; intros s vals cnt r s' n; cbn [seq_loop]; unfold ret.
  - intros [= <- <- <-] _. exists 0. split; [lia|]. cbn. constructor.
  - destruct (p e s) as [[[[v| |m] s1] n1]|] eqn:E; try discriminate; intros H Hc.
    + destruct (IH _ _ _ _ _ _ H Hc) as (k & -> & Hk). apply Hp in E; [|intros m Hm; discriminate Hm]. exists (n1 + k). split; [lia|]. destruct (is_match r).
      * econstructor; eassumption.
      * destruct Hk as (Hs & l' & Hl). split; [exact Hs|]. exists l'. econstructor; eassumption.
    + injection H as <- <- <-. apply Hp in E; [|intros m Hm; discriminate Hm]. exists n1. split; [reflexivity|]. cbn. split; [reflexivity|]. eexists. apply ss_no, E.
    + injection H as <- <- <-. destruct (Hc m eq_refl).
Qed.
Lemma choice_refine (p : expr rule -> pstate -> pout) (Hp : forall e s r s' n, p e s = Some (r, s', n) -> calm r -> st e (ps_rest s) (is_match r) (ps_rest s') n) :
  forall es s cnt r s' n, choice_loop p es s cnt = Some (r, s', n) -> calm r -> exists m, n = cnt + m /\ sc es (ps_rest s) (is_match r) (ps_rest s') m.
Proof.
  induction es as [|e es IH]; intros s cnt r s' n; cbn [choice_loop]; unfold ret.
  - intros [= <- <- <-] _. exists 0. split; [lia|]. constructor.
  - destruct (p e (set_env s [])) as [[[[v| |m] s1] n1]|] eqn:E; try discriminate; intros H Hc.
    + injection H as <- <- <-. apply Hp in E; [|intros m Hm; discriminate Hm]. exists n1. split; [reflexivity|]. apply sc_ok, E.
    + destruct (IH _ _ _ _ _ H Hc) as (k & -> & Hk). apply Hp in E; [|intros m Hm; discriminate Hm]. exists (n1 + k). split; [lia|]. econstructor; eassumption.
    + injection H as <- <- <-. destruct (Hc m eq_refl).
Qed.
Lemma star_refine e (p : pstate -> pout) (Hp : forall s r s' n, p s = Some (r, s', n) -> calm r -> st e (ps_rest s) (is_match r) (ps_rest s') n) need :
  forall k s vals cnt r s' n, star_loop k p need s vals cnt = Some (r, s', n) -> calm r ->
  exists j m, n = cnt + m /\ sk e (ps_rest s) (ps_rest s') j m /\ is_match r = match vals, j with [], O => negb need | _, _ => true end.
Proof.
  induction k as [|k IH]; intros s vals cnt r s' n; cbn [star_loop]; unfold ret; [discriminate|].
  destruct (p (set_env s [])) as [[[[v| |m] s1] n1]|] eqn:E; try discriminate; intros H Hc.
  - destruct (IH _ _ _ _ _ _ H Hc) as (j & m & -> & Hk & Hm). apply Hp in E; [|intros x Hx; discriminate Hx]. exists (S j), (n1 + m). split; [lia|]. split; [econstructor; eassumption|].
    rewrite Hm. destruct vals; reflexivity.
  - apply Hp in E; [|intros x Hx; discriminate Hx]. exists 0%nat, n1. destruct vals; [destruct need|]; injection H as <- <- <-; (split; [reflexivity|split; [apply sk_no, E|reflexivity]]).
  - injection H as <- <- <-. destruct (Hc m eq_refl).
Qed.
Lemma refine f : forall e s r s' n, pexpr rules f e s = Some (r, s', n) -> calm r -> st e (ps_rest s) (is_match r) (ps_rest s') n.
Proof.
  induction f as [|f IH]; intros e s r s' n; [discriminate|]. destruct e; cbn [pexpr]; unfold ret; intros H Hc.
  - destruct (pexpr rules f e s) as [[[[v| |m] s1] n1]|] eqn:E; try discriminate.
    + apply IH in E; [|intros x Hx; discriminate Hx]. destruct (act _ _ _); injection H as <- <- <-; try exact (st_action _ _ _ _ _ _ E). destruct (Hc _ eq_refl).
    + injection H as <- <- <-. apply IH in E; [|exact Hc]. constructor. exact E.
    + injection H as <- <- <-. destruct (Hc _ eq_refl).
  - destruct (pexpr rules f e (set_env s [])) as [[[[v| |m] s1] n1]|] eqn:E; try discriminate; injection H as <- <- <-.
    + apply IH in E; [|intros x Hx; discriminate Hx]. constructor. exact E.
    + apply IH in E; [|exact Hc]. constructor. exact E.
    + destruct (Hc _ eq_refl).
  - apply (choice_refine _ IH) in H; [|exact Hc]. destruct H as (m & -> & H). constructor. exact H.
  - apply (seq_refine _ IH) in H; [|exact Hc]. destruct H as (m & -> & H). destruct (is_match r); [constructor; exact H|]. destruct H as (-> & l' & H). econstructor. exact H.
  - destruct (lit_loop lit ignore_case s) as [b s1] eqn:E. apply lit_refine in E. destruct b; injection H as <- <- <-; [apply st_lit_ok, E|]. cbn [is_match set_rest ps_rest]. apply st_lit_no, E.
  - destruct (ps_rest s) as [|ch t] eqn:E; [injection H as <- <- <-; rewrite E; constructor|]. destruct (class_match c (gc_rune ch)) eqn:Em; injection H as <- <- <-.
    + unfold read. rewrite arrive_same. cbn [set_rest ps_rest]. rewrite E. apply st_class_ok, Em.
    + rewrite E. apply st_class_no, Em.
  - destruct (ps_rest s) as [|ch t] eqn:E; injection H as <- <- <-; [rewrite E; constructor|]. unfold read. rewrite arrive_same. cbn [set_rest ps_rest]. rewrite E. constructor.
  - destruct (pexpr rules f (rules r0) (set_env s [])) as [[[r1 s1] n1]|] eqn:E; try discriminate; injection H as <- <- <-. apply IH in E; [|exact Hc]. constructor. exact E.
  - apply (star_refine e _ (IH e)) in H; [|exact Hc]. destruct H as (j & m & -> & H & ->). destruct j; econstructor; exact H.
  - apply (star_refine e _ (IH e)) in H; [|exact Hc]. destruct H as (j & m & -> & H & ->). destruct j; cbn; econstructor; exact H.
  - destruct (pexpr rules f e (set_env s [])) as [[[[v| |m] s1] n1]|] eqn:E; try discriminate; injection H as <- <- <-.
    + apply IH in E; [|intros x Hx; discriminate Hx]. econstructor. exact E.
    + apply IH in E; [|intros x Hx; discriminate Hx]. econstructor. exact E.
    + destruct (Hc _ eq_refl).
  - destruct (pexpr rules f e (set_env s [])) as [[[[v| |m] s1] n1]|] eqn:E; try discriminate; injection H as <- <- <-.
    + apply IH in E; [|intros x Hx; discriminate Hx]. cbn. apply (st_not _ _ _ _ _ E).
    + apply IH in E; [|intros x Hx; discriminate Hx]. cbn. apply (st_not _ _ _ _ _ E).
    + destruct (Hc _ eq_refl).
  - destruct (f0 (ps_st s)) as [[v|m|m] g]; injection H as <- <- <-; try constructor. destruct (Hc _ eq_refl).
Qed.
