(** The potential used to bound the work of the parser: a character inside d brackets counts 3^d. *)
From Coq Require Import NArith Nnat.
From Verif Require Import Grammar ProofBase CostUpper.
Open Scope list_scope.
Open Scope N_scope.

Definition opener (k : Z) : bool := (k =? 40)%Z || (k =? 91)%Z.
Definition closer (k : Z) : bool := (k =? 41)%Z || (k =? 93)%Z.
Definition p3 (d : nat) : N := 3 ^ N.of_nat d.
Lemma p3_0 : p3 0 = 1. Proof. reflexivity. Qed.
Lemma p3_S d : p3 (S d) = 3 * p3 d.
Proof. unfold p3. rewrite Nat2N.inj_succ, N.pow_succ_r'. reflexivity. Qed.
Lemma p3_pos d : 1 <= p3 d.
Proof. induction d; [rewrite p3_0; lia|rewrite p3_S; lia]. Qed.
Lemma p3_add a b : p3 (a + b) = p3 a * p3 b.
Proof. induction a as [|a IH]; cbn [Nat.add]; [rewrite p3_0; lia|rewrite !p3_S, IH; lia]. Qed.
(** the weight of a text inside d brackets, up to the bracket that closes more than was opened *)
Fixpoint w (d : nat) (l : rest) : N :=
  match l with
  | [] => p3 d
  | c :: t =>
      if opener (gc_rune c) then p3 d + w (S d) t
      else if closer (gc_rune c) then match d with O => 1 | S d' => p3 d + w d' t end
      else p3 d + w d t
  end.
(** the text after that bracket *)
Fixpoint skip (d : nat) (l : rest) : option rest :=
  match l with
  | [] => None
  | c :: t =>
      if opener (gc_rune c) then skip (S d) t
      else if closer (gc_rune c) then match d with O => Some t | S d' => skip d' t end
      else skip d t
  end.
Definition V (l : rest) : N := w 0 l.
Lemma w_pos l : forall d, 1 <= w d l.
Proof. induction l as [|c t IH]; intros d; cbn [w]; [apply p3_pos|]. pose proof (p3_pos d). destruct (opener _); [specialize (IH (S d)); lia|]. destruct (closer _); [destruct d; lia|]. lia. Qed.
Lemma w_up l : forall d, 3 * w d l <= w (S d) l.
Proof.
  induction l as [|c t IH]; intros d; cbn [w]; rewrite p3_S; [lia|]. destruct (opener _); [specialize (IH (S d)); lia|]. destruct (closer _); [|specialize (IH d); lia].
  destruct d as [|d]; [rewrite p3_0; lia|]. specialize (IH d). lia.
Qed.
Lemma opener_not_closer k : opener k = true -> closer k = false.
Proof. unfold opener, closer. destruct (Z.eqb_spec k 40) as [->|]; [reflexivity|]. destruct (Z.eqb_spec k 91) as [->|]; [reflexivity|]. discriminate. Qed.
Lemma closer_not_opener k : closer k = true -> opener k = false.
Proof. intros H. destruct (opener k) eqn:E; [|reflexivity]. rewrite (opener_not_closer _ E) in H. discriminate H. Qed.

(** ** Texts that open and close the same brackets *)
(** between l and l' the depth goes from j to j' *)
Definition mv (j j' : nat) (l l' : rest) : Prop :=
  (exists W, forall d, w (d + j) l = p3 d * W + w (d + j') l') /\ (forall d, skip (d + j) l = skip (d + j') l').
Definition level (l l' : rest) : Prop := mv 0 0 l l'.
Lemma mv_refl j l : mv j j l l.
Proof. split; [exists 0; intros d; lia|reflexivity]. Qed.
Lemma mv_trans j1 j2 j3 l1 l2 l3 : mv j1 j2 l1 l2 -> mv j2 j3 l2 l3 -> mv j1 j3 l1 l3.
Proof. intros ((W & H) & K) ((W' & H') & K'). split; [exists (W + W'); intros d; rewrite H, H'; lia|]. intros d. rewrite K. apply K'. Qed.
Lemma level_mv j l l' : level l l' -> mv j j l l'.
Proof.
  intros ((W & H) & K). split.
  - exists (p3 j * W). intros d. specialize (H (d + j)%nat). rewrite !Nat.add_0_r in H. rewrite H, p3_add. lia.
  - intros d. specialize (K (d + j)%nat). rewrite !Nat.add_0_r in K. exact K.
Qed.
Lemma mv_plain j c t : opener (gc_rune c) = false -> closer (gc_rune c) = false -> mv j j (c :: t) t.
Proof. intros H1 H2. split; [exists (p3 j)|]; intros d; cbn [w skip]; rewrite H1, H2; [rewrite p3_add|]; reflexivity. Qed.
Lemma mv_open j c t : opener (gc_rune c) = true -> mv j (S j) (c :: t) t.
Proof. intros H. split; [exists (p3 j)|]; intros d; cbn [w skip]; rewrite H, <- plus_n_Sm; [rewrite p3_add|]; reflexivity. Qed.
Lemma mv_close j c t : closer (gc_rune c) = true -> mv (S j) j (c :: t) t.
Proof. intros H. split; [exists (p3 (S j))|]; intros d; cbn [w skip]; rewrite (closer_not_opener _ H), H, <- plus_n_Sm; [|reflexivity]. rewrite !p3_S, p3_add. lia. Qed.

Definition flat_rune (k : Z) : bool := negb (opener k) && negb (closer k).
(** rules that read such texts only: all of them, but those for free texts *)
Definition fam (r : rule) : bool := match r with Command | CommandWithExpression | Choice | ChoiceItems | ChoiceItem | ChoiceItemChars => false | _ => true end.
Inductive lev : expr rule -> Prop :=
| lev_action a e : lev e -> lev (EAction a e)
| lev_label x e : lev e -> lev (ELabel x e)
| lev_choice es : Forall lev es -> lev (EChoice es)
| lev_seq es : run es 0 0 -> lev (ESeq es)
| lev_lit s : forallb flat_rune (runes s) = true -> lev (lit s)
| lev_lit_i s : forallb (fun k => (97 <=? k) && (k <=? 122))%Z (runes s) = true -> lev (lit_i s)
| lev_ur : lev cls_ur
| lev_digit : lev cls_digit
| lev_ref r : fam r = true -> lev (ERef r)
| lev_star e : lev e -> lev (EStar e)
| lev_plus e : lev e -> lev (EPlus e)
| lev_opt e : lev e -> lev (EOpt e)
| lev_not e : lev (ENot e)
| lev_state g : lev (Peg.EState g)
with run : list (expr rule) -> nat -> nat -> Prop :=
| run_nil j : run [] j j
| run_lev e es j j' : lev e -> run es j j' -> run (e :: es) j j'
| run_open s k es j j' : runes s = [k] -> opener k = true -> run es (S j) j' -> run (lit s :: es) j j'
| run_close s k es j j' : runes s = [k] -> closer k = true -> run es j j' -> run (lit s :: es) (S j) j'.

Ltac lv := repeat match goal with
  | |- lev (EAction _ _) => apply lev_action
  | |- lev (ELabel _ _) => apply lev_label
  | |- lev (EChoice _) => apply lev_choice
  | |- lev (ESeq _) => apply lev_seq
  | |- lev (lit _) => apply lev_lit; reflexivity
  | |- lev (lit_i _) => apply lev_lit_i; reflexivity
  | |- lev cls_ur => apply lev_ur
  | |- lev cls_digit => apply lev_digit
  | |- lev (ERef _) => apply lev_ref; first [reflexivity|assumption]
  | |- lev (EStar _) => apply lev_star
  | |- lev (EPlus _) => apply lev_plus
  | |- lev (EOpt _) => apply lev_opt
  | |- lev (ENot _) => apply lev_not
  | |- lev (Peg.EState _) => apply lev_state
  | |- Forall lev [] => apply Forall_nil
  | |- Forall lev (_ :: _) => apply Forall_cons
  | |- run [] _ _ => apply run_nil
  | |- run (lit _ :: _) _ _ => first [eapply run_open; [reflexivity|reflexivity|]|eapply run_close; [reflexivity|reflexivity|]|apply run_lev]
  | |- run (_ :: _) _ _ => apply run_lev
  end.
Lemma fam_lev r : fam r = true -> lev (rules r).
Proof. destruct r; intros H; try discriminate H; cbn [rules]; unfold additive, multitive, parenthesized, unary_plus, unary_minus, roll_rule, compare_rule, r_list_rule; lv. Qed.
Lemma lower_letter k x : (97 <= x <= 122)%Z -> to_lower k = x -> flat_rune k = true.
Proof.
  intros Hx. unfold to_lower. assert (flat_rune k = true \/ (k = 40 \/ k = 91 \/ k = 41 \/ k = 93)%Z) as [H|H].
  { unfold flat_rune, opener, closer. destruct (Z.eqb_spec k 40); [auto|]. destruct (Z.eqb_spec k 91); [auto|]. destruct (Z.eqb_spec k 41); [auto|]. destruct (Z.eqb_spec k 93); auto. }
  - intros _. exact H.
  - destruct H as [->|[->|[->| ->]]]; (match goal with |- ?a = _ -> _ => let v := eval vm_compute in a in change a with v end; intros <-; exfalso; lia).
Qed.
Lemma flat_mv j c t : flat_rune (gc_rune c) = true -> mv j j (c :: t) t.
Proof. unfold flat_rune. intros H. apply andb_prop in H as (H1 & H2). apply negb_true_iff in H1, H2. apply mv_plain; assumption. Qed.
Lemma lit_level x : forall (ic : bool) l l', (forall k c, In k x -> (if ic then to_lower (gc_rune c) else gc_rune c) = k -> flat_rune (gc_rune c) = true) -> lit_rest x ic l = Some l' -> level l l'.
Proof.
  induction x as [|k x IH]; intros ic l l' Hf; cbn [lit_rest]; [intros [= <-]; apply mv_refl|]. destruct l as [|c t]; [discriminate|]. destruct (Z.eqb_spec (if ic then to_lower (gc_rune c) else gc_rune c) k) as [E|]; [|discriminate].
  intros H. eapply mv_trans; [apply flat_mv, (Hf k c (or_introl eq_refl) E)|]. eapply IH; [|exact H]. intros k' c' Hk. apply Hf. right. exact Hk.
Qed.
Lemma level_all :
  (forall e l ok l' n, st e l ok l' n -> lev e -> level l l') /\
  (forall es l ok l' n, ss es l ok l' n -> forall j j', run es j j' -> ok = true -> mv j j' l l') /\
  (forall es l ok l' n, sc es l ok l' n -> Forall lev es -> level l l') /\
  (forall e l l' k n, sk e l l' k n -> lev e -> level l l').
Proof.
  apply st_all; intros; try apply mv_refl.
  - inversion H1; subst; auto.
  - inversion H1; subst; auto.
  - inversion H1; subst; auto.
  - inversion H1; subst. apply H0; [assumption|reflexivity].
  - inversion H0; subst; (eapply lit_level; [|exact H]).
    + intros k c Hk <-. match goal with X : forallb _ _ = true |- _ => rewrite forallb_forall in X; apply X, Hk end.
    + intros k c Hk E. match goal with X : forallb _ _ = true |- _ => rewrite forallb_forall in X; apply X in Hk end. apply andb_prop in Hk as (K1 & K2). apply Z.leb_le in K1, K2. eapply lower_letter; [|exact E]. lia.
  - inversion H0; subst; unfold class_match, class_hit in H; cbn [cc_inverted cc_ignore_case cc_chars cc_ranges cc_Z existsb fst snd xorb orb andb] in H; apply flat_mv.
    + destruct (Z.eqb_spec (to_lower (gc_rune ch)) 117) as [E|_]; [apply (lower_letter _ 117); [lia|exact E]|]. destruct (Z.eqb_spec (to_lower (gc_rune ch)) 114) as [E|_]; [apply (lower_letter _ 114); [lia|exact E]|].
      exfalso. discriminate H.
    + unfold in_range in H. destruct (Z.leb_spec 48 (gc_rune ch)); destruct (Z.leb_spec (gc_rune ch) 57); try discriminate H. unfold flat_rune, opener, closer.
      repeat match goal with |- context [(?a =? ?b)%Z] => destruct (Z.eqb_spec a b); [lia|] end. reflexivity.
  - inversion H.
  - inversion H1; subst. apply H0, fam_lev. assumption.
  - inversion H1; subst; auto.
  - inversion H1; subst; auto.
  - inversion H1; subst; auto.
  - inversion H1; subst; auto.
  - match goal with X : run [] _ _ |- _ => inversion X; subst end. apply mv_refl.
  - match goal with X : false = true |- _ => discriminate X end.
  - match goal with X : run (_ :: _) _ _ |- _ => inversion X; subst end.
    + eapply mv_trans; [apply level_mv, H0; assumption|]. eapply H2; eauto.
    + match goal with X : st (lit _) _ _ _ _, Y : runes _ = [?k] |- _ => unfold lit in X; inversion X; subst; rewrite Y in *; cbn [lit_rest] in * end. destruct l as [|c t]; [discriminate|]. destruct (Z.eqb_spec (gc_rune c) k) as [<-|]; [|discriminate].
      match goal with X : Some _ = Some _ |- _ => injection X as -> end. eapply mv_trans; [apply mv_open; assumption|]. eapply H2; eauto.
    + match goal with X : st (lit _) _ _ _ _, Y : runes _ = [?k] |- _ => unfold lit in X; inversion X; subst; rewrite Y in *; cbn [lit_rest] in * end. destruct l as [|c t]; [discriminate|]. destruct (Z.eqb_spec (gc_rune c) k) as [<-|]; [|discriminate].
      match goal with X : Some _ = Some _ |- _ => injection X as -> end. eapply mv_trans; [apply mv_close; assumption|]. eapply H2; eauto.
  - inversion H1; subst. auto.
  - inversion H3; subst. eapply mv_trans; [apply H0; assumption|]. apply H2. assumption.
  - auto.
  - eapply mv_trans; [apply H0; assumption|]. apply H2. assumption.
Qed.
Lemma st_level e l ok l' n : lev e -> st e l ok l' n -> level l l'.
Proof. intros H X. exact (proj1 level_all _ _ _ _ _ X H). Qed.
Lemma sk_level e l l' k n : lev e -> sk e l l' k n -> level l l'.
Proof. intros H X. exact (proj2 (proj2 (proj2 level_all)) _ _ _ _ _ X H). Qed.

(** ** The weight of a text *)
Lemma V_pos l : 1 <= V l. Proof. apply w_pos. Qed.
Lemma V_plain c t : opener (gc_rune c) = false -> closer (gc_rune c) = false -> V (c :: t) = 1 * V t + 1.
Proof. intros H1 H2. unfold V. cbn [w]. rewrite H1, H2, p3_0. lia. Qed.
Lemma V_flat c t : flat_rune (gc_rune c) = true -> V (c :: t) = 1 * V t + 1.
Proof. unfold flat_rune. intros H. apply andb_prop in H as (H1 & H2). apply negb_true_iff in H1, H2. apply V_plain; assumption. Qed.
Lemma V_open c t : opener (gc_rune c) = true -> 3 * V t + 1 <= V (c :: t).
Proof. intros H. unfold V. cbn [w]. rewrite H, p3_0. pose proof (w_up t 0). lia. Qed.
Lemma V_close c t : closer (gc_rune c) = true -> V (c :: t) = 1.
Proof. intros H. unfold V. cbn [w]. rewrite (closer_not_opener _ H), H. reflexivity. Qed.
Lemma level_V l l' : level l l' -> V l' <= V l.
Proof. intros ((W & H) & _). specialize (H 0%nat). cbn [Nat.add] in H. unfold V. lia. Qed.
(** a pair of brackets, read to the end *)
Lemma V_brackets c t c' l' : opener (gc_rune c) = true -> closer (gc_rune c') = true -> level t (c' :: l') -> V (c :: t) = 3 * V t + 1 + V l' /\ skip 0 t = Some l'.
Proof.
  intros H1 H2 ((W & H) & K). split.
  - pose proof (H 0%nat) as E0. pose proof (H 1%nat) as E1. cbn [Nat.add] in E0, E1. fold (V t) (V (c' :: l')) in E0. rewrite (V_close _ _ H2), p3_0 in E0.
    unfold V at 1. cbn [w]. rewrite H1, E1. cbn [w]. rewrite (closer_not_opener _ H2), H2. change (p3 1) with 3. rewrite p3_0. fold (V l'). lia.
  - specialize (K 0%nat). cbn [Nat.add skip] in K. rewrite (closer_not_opener _ H2), H2 in K. exact K.
Qed.
(** the greatest depth *)
Fixpoint deepest (d : nat) (l : rest) : nat :=
  match l with
  | [] => d
  | c :: t => Nat.max d (deepest (if opener (gc_rune c) then S d else if closer (gc_rune c) then pred d else d) t)
  end.
Lemma p3_le a b : (a <= b)%nat -> p3 a <= p3 b.
Proof. induction 1; [lia|]. rewrite p3_S. lia. Qed.
Lemma deepest_ge l d : (d <= deepest d l)%nat.
Proof. destruct l; cbn [deepest]; lia. Qed.
Lemma w_deepest l : forall d, w d l <= N.of_nat (length l + 1) * p3 (deepest d l).
Proof.
  induction l as [|c t IH]; intros d; cbn [w deepest]; [cbn [length Nat.add]; change (N.of_nat 1) with 1; lia|].
  set (d' := if opener (gc_rune c) then S d else if closer (gc_rune c) then pred d else d). pose proof (p3_le d (Nat.max d (deepest d' t)) ltac:(lia)). pose proof (p3_le (deepest d' t) (Nat.max d (deepest d' t)) ltac:(lia)). set (D := Nat.max d (deepest d' t)) in *.
  assert (w d' t <= N.of_nat (length t + 1) * p3 D) as H1 by (etransitivity; [apply IH|]; apply N.mul_le_mono_l; assumption).
  replace (N.of_nat (length (c :: t) + 1)) with (1 + N.of_nat (length t + 1)) by (cbn [length]; lia). rewrite N.mul_add_distr_r. subst d'.
  destruct (opener _); [lia|]. destruct (closer _); [|lia]. destruct d; [pose proof (p3_pos D); lia|]. cbn [pred] in *. lia.
Qed.
