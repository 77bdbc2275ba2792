(** Evaluation of trees in memory (HeapEval.v) against evaluation of trees as values: proofs. *)
From Verif Require Import ProofBase GoMem HeapEval SpecHeap CompProofs.
Open Scope list_scope.
Open Scope Z_scope.

Scheme rep_mut := Induction for rep Sort Prop with reps_mut := Induction for reps Sort Prop.
Combined Scheme rep_both from rep_mut, reps_mut.

Definition agree (h h' : heap) (F : list nat) : Prop := forall x, In x F -> nth_error h' x = nth_error h x.
Lemma rep_agree_both h h' : (forall t a F, rep h t a F -> agree h h' F -> rep h' t a F) /\ (forall ts l F, reps h ts l F -> agree h h' F -> reps h' ts l F).
Proof.
  apply (rep_both h (fun t a F _ => agree h h' F -> rep h' t a F) (fun ts l F _ => agree h h' F -> reps h' ts l F)); unfold agree; intros;
    try (match goal with H : forall x, In x (?a :: _) -> _, E : nth_error h ?a = _ |- _ => assert (nth_error h' a = nth_error h a) as HA by (apply H; left; reflexivity); rewrite E in HA end).
  - apply rep_nil; assumption.
  - apply rep_int; assumption.
  - apply rep_string; assumption.
  - apply rep_sum; assumption.
  - eapply rep_neg; [eassumption|]. apply H. intros x Hx. apply H0. right. exact Hx.
  - eapply rep_infix; [eassumption| |]; [apply H|apply H0]; intros x Hx; apply H1; right; apply in_app_iff; auto.
  - eapply rep_blist; [eassumption|]. apply H. intros x Hx. apply H0. right. exact Hx.
  - eapply rep_rlist; [eassumption| |]; [apply H|apply H0]; intros x Hx; apply H1; right; apply in_app_iff; auto.
  - eapply rep_uexpr; [eassumption|]. apply H. intros x Hx. apply H0. right. exact Hx.
  - eapply rep_ubonus; [eassumption| |]; [apply H|apply H0]; intros x Hx; apply H1; right; apply in_app_iff; auto.
  - apply rep_choice; assumption.
  - eapply rep_command; [eassumption|]. apply H. intros x Hx. apply H0. right. exact Hx.
  - apply reps_nil.
  - apply reps_cons; [apply H|apply H0]; intros x Hx; apply H1; apply in_app_iff; auto.
Qed.
Lemma rep_agree h h' t a F : agree h h' F -> rep h t a F -> rep h' t a F.
Proof. intros H1 H2. exact (proj1 (rep_agree_both h h') t a F H2 H1). Qed.
Lemma reps_agree h h' t a F : agree h h' F -> reps h t a F -> reps h' t a F.
Proof. intros H1 H2. exact (proj2 (rep_agree_both h h') t a F H2 H1). Qed.
Lemma rep_dom_both h : (forall t a F, rep h t a F -> forall x, In x F -> (x < length h)%nat) /\ (forall ts l F, reps h ts l F -> forall x, In x F -> (x < length h)%nat).
Proof.
  assert (forall a c, nth_error h a = Some c -> (a < length h)%nat) as K by (intros a c E; apply nth_error_Some; congruence).
  apply (rep_both h (fun t a F _ => forall x, In x F -> (x < length h)%nat) (fun ts l F _ => forall x, In x F -> (x < length h)%nat)); intros;
    try (match goal with H : In _ (_ :: _) |- _ => destruct H as [<-|H]; [eapply K; eassumption|] end);
    repeat (match goal with H : In _ (_ ++ _) |- _ => apply in_app_iff in H as [H|H] end); try contradiction; auto.
Qed.
Lemma rep_dom h t a F x : rep h t a F -> In x F -> (x < length h)%nat.
Proof. intros H. exact (proj1 (rep_dom_both h) t a F H x). Qed.
Lemma reps_dom h t a F x : reps h t a F -> In x F -> (x < length h)%nat.
Proof. intros H. exact (proj2 (rep_dom_both h) t a F H x). Qed.
Lemma rep_root h t a F : rep h t a F -> exists F', F = a :: F'.
Proof. destruct 1; eexists; reflexivity. Qed.

(** ** How the memory changes: nodes outside [F] stay as they are *)
Definition evolves (F : list nat) (h h' : heap) : Prop := (length h <= length h')%nat /\ forall x, (x < length h)%nat -> ~ In x F -> nth_error h' x = nth_error h x.
Lemma evolves_refl F h : evolves F h h.
Proof. split; [lia|]. auto. Qed.
Lemma evolves_trans F F' h h1 h2 : evolves F h h1 -> evolves F' h1 h2 -> (forall x, In x F' -> In x F \/ (length h <= x)%nat) -> evolves F h h2.
Proof.
  intros (L1 & H1) (L2 & H2) K. split; [lia|]. intros x Hx Hn. rewrite H2; [apply H1; assumption|lia|]. intros Hi. destruct (K x Hi); [contradiction|lia].
Qed.
Lemma evolves_weak F F' h h' : evolves F h h' -> (forall x, In x F -> In x F') -> evolves F' h h'.
Proof. intros (L & H) K. split; [exact L|]. intros x Hx Hn. apply H; auto. Qed.
Lemma evolves_alloc F h c : evolves F h (h ++ [c]).
Proof. split; [rewrite app_length; lia|]. intros x Hx _. apply nth_error_app1. exact Hx. Qed.
Lemma put_len {A} (l : list A) i x : length (put l i x) = length l.
Proof. revert i. induction l as [|y l IH]; intros [|i]; cbn [put length]; congruence. Qed.
Lemma put_same {A} (l : list A) i x : (i < length l)%nat -> nth_error (put l i x) i = Some x.
Proof. revert i. induction l as [|y l IH]; intros [|i] H; cbn in H; try lia; [reflexivity|]. cbn. apply IH. lia. Qed.
Lemma put_other {A} (l : list A) i j x : i <> j -> nth_error (put l i x) j = nth_error l j.
Proof. revert i j. induction l as [|y l IH]; intros [|i] [|j] H; try reflexivity; [congruence|]. cbn. apply IH. congruence. Qed.
Lemma evolves_put F h a c : In a F -> evolves F h (put h a c).
Proof. intros Ha. split; [rewrite put_len; lia|]. intros x _ Hx. apply put_other. intros ->. contradiction. Qed.
Lemma evolves_rep F h h' t a G : evolves F h h' -> rep h t a G -> (forall x, In x G -> ~ In x F) -> rep h' t a G.
Proof. intros (L & H) R D. eapply rep_agree; [|exact R]. intros x Hx. apply H; [eapply rep_dom; eassumption|apply D, Hx]. Qed.
Lemma evolves_reps F h h' t a G : evolves F h h' -> reps h t a G -> (forall x, In x G -> ~ In x F) -> reps h' t a G.
Proof. intros (L & H) R D. eapply reps_agree; [|exact R]. intros x Hx. apply H; [eapply reps_dom; eassumption|apply D, Hx]. Qed.
Lemma evolves_cell F h h' a c : evolves F h h' -> nth_error h a = Some c -> ~ In a F -> nth_error h' a = Some c.
Proof. intros (L & H) E N. rewrite H; [exact E|apply nth_error_Some; congruence|exact N]. Qed.
Lemma keeps_rep h h' t a G : evolves [] h h' -> rep h t a G -> rep h' t a G.
Proof. intros E R. eapply evolves_rep; [exact E|exact R|]. intros x _ []. Qed.
Lemma keeps_reps h h' t a G : evolves [] h h' -> reps h t a G -> reps h' t a G.
Proof. intros E R. eapply evolves_reps; [exact E|exact R|]. intros x _ []. Qed.
Lemma keeps_cell h h' a c : evolves [] h h' -> nth_error h a = Some c -> nth_error h' a = Some c.
Proof. intros E R. eapply evolves_cell; [exact E|exact R|]. intros []. Qed.
Lemma keeps_trans h h1 h2 : evolves [] h h1 -> evolves [] h1 h2 -> evolves [] h h2.
Proof. intros H1 H2. eapply evolves_trans; [exact H1|exact H2|]. intros x []. Qed.

(** ** Simulation *)
Definition same {A B} (R : A -> B -> Prop) (o : outcome A) (o' : outcome B) : Prop :=
  match o, o' with Ok a, Ok b => R a b | Err e, Err e' => e = e' | Panic p, Panic p' => p = p' | _, _ => False end.
Definition sim {A B} (F : list nat) (R : A -> B -> heap -> Prop) (h : heap) (m : hm A) (c : comp B) : Prop :=
  forall s, exists o h', m h s = (o, (h', snd (run c s))) /\ evolves F h h' /\ same (fun a b => R a b h') o (fst (run c s)).
Lemma sim_bind {A B A' B'} (F F' : list nat) (R : A -> B -> heap -> Prop) (S : A' -> B' -> heap -> Prop) h (m : hm A) (c : comp B) (f : A -> hm A') (g : B -> comp B') :
  sim F R h m c -> (forall x, In x F -> In x F') ->
  (forall a b h1, evolves F h h1 -> R a b h1 -> exists G, sim G S h1 (f a) (g b) /\ (forall x, In x G -> In x F' \/ (length h <= x)%nat)) ->
  sim F' S h (hbind m f) (cbind c g).
Proof.
  intros H HF K s. unfold hbind. rewrite run_bind. destruct (H s) as (o & h1 & E & V & Q). rewrite E. destruct (run c s) as (o', s') eqn:Er. cbn [fst snd] in *.
  destruct o as [a|e|p], o' as [b|e'|p']; cbn in Q; try contradiction.
  - destruct (K a b h1 V Q) as (G & HG & HS). destruct (HG s') as (o2 & h2 & E2 & V2 & Q2). rewrite E2. exists o2, h2. split; [reflexivity|]. split; [|exact Q2].
    eapply evolves_trans; [eapply evolves_weak; [exact V|exact HF]|exact V2|exact HS].
  - subst e'. eexists; eexists. split; [reflexivity|]. split; [eapply evolves_weak; eassumption|]. reflexivity.
  - subst p'. eexists; eexists. split; [reflexivity|]. split; [eapply evolves_weak; eassumption|]. reflexivity.
Qed.
(** Results that are equal *)
Definition eqr {A} (a b : A) (h : heap) : Prop := a = b.
(** Steps that read the tree and then continue *)
Lemma sim_read {A A' B'} F (S : A' -> B' -> heap -> Prop) h (m : hm A) (c : comp A) (f : A -> hm A') (g : A -> comp B') :
  sim [] eqr h m c -> (forall a h1, evolves [] h h1 -> sim F S h1 (f a) (g a)) -> sim F S h (hbind m f) (cbind c g).
Proof.
  intros H K. eapply sim_bind; [exact H|intros x []|]. intros a b h1 V ->. exists F. split; [apply K; exact V|]. auto.
Qed.
Lemma sim_ret {A B} F (R : A -> B -> heap -> Prop) h a b : R a b h -> sim F R h (hret a) (CRet b).
Proof. intros H s. exists (Ok a), h. split; [reflexivity|]. split; [apply evolves_refl|exact H]. Qed.
Lemma sim_err {A B} F (R : A -> B -> heap -> Prop) h e : sim F R h (herr e) (CErr e).
Proof. intros s. exists (Err e), h. split; [reflexivity|]. split; [apply evolves_refl|reflexivity]. Qed.
Lemma sim_panic {A B} F (R : A -> B -> heap -> Prop) h p : sim F R h (hpanic p) (CPanic p).
Proof. intros s. exists (Panic p), h. split; [reflexivity|]. split; [apply evolves_refl|reflexivity]. Qed.
Lemma sim_pure {A} F h (c : comp A) : sim F eqr h (hpure c) c.
Proof.
  intros s. unfold hpure. destruct (run c s) as (o, s'). exists o, h. split; [reflexivity|]. split; [apply evolves_refl|]. destruct o; reflexivity.
Qed.
Lemma sim_load {A B} F (R : A -> B -> heap -> Prop) h a c (f : cell -> hm A) g : nth_error h a = Some c -> sim F R h (f c) g -> sim F R h (hbind (hload a) f) g.
Proof. intros E H s. unfold hbind, hload. rewrite E. exact (H s). Qed.
Lemma sim_alloc {A B} F (R : A -> B -> heap -> Prop) h c (f : nat -> hm A) (g : comp B) :
  sim F R (h ++ [c]) (f (length h)) g -> sim F R h (hbind (halloc c) f) g.
Proof.
  intros H s. destruct (H s) as (o & h' & E & V & Q). exists o, h'. split; [exact E|]. split; [|exact Q].
  eapply evolves_trans; [apply (evolves_alloc F)|exact V|]. auto.
Qed.
(** A step that only the tree in memory makes *)
Lemma sim_step {A B A'} F G (R : A -> B -> heap -> Prop) h (m : hm A') (f : A' -> hm A) (g : comp B) a h1 :
  (forall s, m h s = (Ok a, (h1, s))) -> evolves F h h1 -> sim G R h1 (f a) g -> (forall x, In x G -> In x F \/ (length h <= x)%nat) -> sim F R h (hbind m f) g.
Proof.
  intros E V H K s. unfold hbind. rewrite E. destruct (H s) as (o & h' & E' & V' & Q). exists o, h'. split; [exact E'|]. split; [|exact Q]. eapply evolves_trans; eassumption.
Qed.
Lemma sim_weak {A B} F F' (R R' : A -> B -> heap -> Prop) h m c : sim F R h m c -> (forall x, In x F -> In x F') -> (forall a b h', evolves F h h' -> R a b h' -> R' a b h') -> sim F' R' h m c.
Proof.
  intros H HF HR s. destruct (H s) as (o & h' & E & V & Q). exists o, h'. split; [exact E|]. split; [eapply evolves_weak; eassumption|].
  destruct o, (fst (run c s)); cbn in *; auto.
Qed.
(** A last step [m] that only the tree in memory makes *)
Lemma sim_ext {A B} F (R : A -> B -> heap -> Prop) h (m : hm A) c c' : (forall s, run c s = run c' s) -> sim F R h m c -> sim F R h m c'.
Proof. intros E H s. rewrite <- E. apply H. Qed.
Lemma bind_ret_r {A} (c : comp A) : forall s, run (cbind c CRet) s = run c s.
Proof. intros s. rewrite run_bind. destruct (run c s) as ([a|e|p], s'); reflexivity. Qed.
Lemma sim_bind_ret {A B} F (R : A -> B -> heap -> Prop) h (m : hm A) c : sim F R h m (cbind c CRet) -> sim F R h m c.
Proof. apply sim_ext. apply bind_ret_r. Qed.

(** ** Eval *)
Lemma rep_not_null h t a F : rep h t a F -> is_null t = false.
Proof. destruct 1; reflexivity. Qed.
Section Ev.
  Variable ev : nat -> hm obj.
  (** [ev a] computes [c], now and after any reading steps *)
  Definition good (h : heap) (a : nat) (c : comp obj) : Prop := forall h1, evolves [] h h1 -> sim [] eqr h1 (ev a) c.
  Lemma good_keeps h h1 a c : good h a c -> evolves [] h h1 -> good h1 a c.
  Proof. intros H V h2 V2. apply H. eapply keeps_trans; eassumption. Qed.
  Lemma good_sim h a c : good h a c -> sim [] eqr h (ev a) c.
  Proof. intros H. apply H. apply evolves_refl. Qed.
  Lemma operands_sim op h l r cl cr : good h l cl -> good h r cr -> sim [] eqr h (h_operands ev l r) (eval_operands op (Some cl) (Some cr)).
  Proof.
    intros Hl Hr. unfold h_operands, eval_operands. eapply sim_read; [apply good_sim; exact Hl|]. intros a h1 V1. eapply sim_read; [apply Hr; exact V1|]. intros b h2 V2. apply sim_ret. reflexivity.
  Qed.
  Lemma infix_sim op h l r cl cr : good h l cl -> good h r cr -> sim [] eqr h (h_infix ev op l r) (eval_infix op (Some cl) (Some cr)).
  Proof.
    intros Hl Hr. unfold h_infix, eval_infix. eapply sim_read; [apply operands_sim; eassumption|]. intros (a, b) h1 V1.
    destruct a; try apply sim_err. destruct b; try apply sim_err. destruct op; apply sim_pure.
  Qed.
  Lemma prefix_sim h r cr : good h r cr -> sim [] eqr h (h_prefix ev r) (eval_prefix (Some cr)).
  Proof.
    intros Hr. unfold h_prefix, eval_prefix. eapply sim_read; [apply good_sim; exact Hr|]. intros a h1 V1. destruct a; try apply sim_err. apply sim_ret. reflexivity.
  Qed.
  Lemma b_rolls_sim rolls : forall h qs acc, Forall2 (fun a q => good h a (eval_qroll q)) rolls qs -> sim [] eqr h (h_b_rolls ev rolls acc) (eval_b_roll_list qs acc).
  Proof.
    induction rolls as [|a rolls IH]; intros h qs acc H; inversion H as [|? q ? qs' Ha Hr]; subst; cbn [h_b_rolls eval_b_roll_list].
    - apply sim_ret. reflexivity.
    - eapply sim_read; [apply good_sim; exact Ha|]. intros o h1 V1. destruct o; try apply sim_panic. apply IH.
      clear - Hr V1. induction Hr; constructor; [eapply good_keeps; eassumption|assumption].
  Qed.
  Lemma is_nil_sim {A B} F0 (R : A -> B -> heap -> Prop) h t a F (f : bool -> hm A) g : rep h t a F -> sim F0 R h (f (is_nil t)) g -> sim F0 R h (hbind (h_is_nil a) f) g.
  Proof.
    intros Hr H s. unfold h_is_nil, hbind, hload. destruct (H s) as (o & h' & E & V & Q). exists o, h'. split; [|auto]. rewrite <- E.
    destruct Hr; match goal with E : nth_error h _ = _ |- _ => rewrite E end; reflexivity.
  Qed.
End Ev.
Lemma int_node_sim {A B} F (R : A -> B -> heap -> Prop) h o (f : nat -> hm A) (g : Z -> comp B) :
  (forall v, sim F R (h ++ [HInt v]) (f (length h)) (g v)) -> sim F R h (hbind (int_node o) f) (cbind (obj_int o) g).
Proof.
  intros H s. destruct o; try (eexists; eexists; split; [reflexivity|]; split; [apply evolves_refl|reflexivity]).
  destruct (H v s) as (o' & h' & E & V & Q). exists o', h'. split; [exact E|]. split; [|exact Q]. eapply evolves_trans; [apply evolves_alloc|exact V|]. auto.
Qed.
Lemma int_lit_sim {A B} F (R : A -> B -> heap -> Prop) h v (f : nat -> hm A) (g : comp B) : sim F R (h ++ [HInt v]) (f (length h)) g -> sim F R h (hbind (int_node (OInt v)) f) g.
Proof. exact (sim_alloc F R h (HInt v) f g). Qed.
(** Making a compare node and evaluating it *)
Lemma eval_compare_node mr op x t : eval mr (NInfix (OpCmp op) (NInt x) (NInt t)) = eval_int_infix op x t.
Proof. reflexivity. Qed.
Lemma nth_last {A} (l : list A) x : nth_error (l ++ [x]) (length l) = Some x.
Proof. rewrite nth_error_app2, Nat.sub_diag by lia. reflexivity. Qed.
Section Fuel.
  Variable mr : Z.
  Definition good_at (f : nat) := good (h_eval mr f).
  Definition evaluates (f : nat) : Prop := forall t a F h, rep h t a F -> (length F < f)%nat -> sim [] eqr h (h_eval mr f a) (eval mr t).
  Lemma evaluates_good f t a F h : evaluates f -> rep h t a F -> (length F < f)%nat -> good (h_eval mr f) h a (eval mr t).
  Proof. intros H R L h1 V. eapply H; [eapply keeps_rep; eassumption|exact L]. Qed.
  Lemma count_sim f op target : evaluates f -> (3 < f)%nat -> forall values h acc, sim [] eqr h (h_count (h_eval mr f) values op target acc) (count_successes values op target acc).
  Proof.
    intros He Hf values. induction values as [|v values IH]; intros h acc; cbn [h_count count_successes].
    - apply sim_ret. reflexivity.
    - eapply int_node_sim. intros x. apply int_lit_sim. apply sim_alloc. rewrite <- (eval_compare_node mr).
      eapply sim_read; [|intros o h1 V1; destruct o; try apply sim_panic; apply IH].
      apply (He _ _ [length ((h ++ [HInt x]) ++ [HInt target]); length h; length (h ++ [HInt x])]); [|exact Hf].
      apply (rep_infix _ _ (OpCmp op) (length h) (length (h ++ [HInt x])) (NInt x) (NInt target) [length h] [length (h ++ [HInt x])]); [apply nth_last| |].
      + apply rep_int. rewrite !nth_error_app1 by (rewrite ?app_length; cbn; lia). apply nth_last.
      + apply rep_int. rewrite nth_error_app1 by (rewrite ?app_length; cbn; lia). apply nth_last.
  Qed.
  Lemma count_groups_sim f op target : evaluates f -> (3 < f)%nat -> forall groups h acc, sim [] eqr h (h_count_groups (h_eval mr f) groups op target acc) (count_group_successes groups op target acc).
  Proof.
    intros He Hf groups. induction groups as [|g groups IH]; intros h acc; cbn [h_count_groups count_group_successes].
    - apply sim_ret. reflexivity.
    - destruct g; try apply sim_panic. eapply sim_read; [apply count_sim; assumption|]. intros n h1 V1. apply IH.
  Qed.
  (** A roll in the queue of a roll list *)
  Definition good_roll (f : nat) (h : heap) (a : nat) (q : qroll) : Prop :=
    exists l r cl cr, nth_error h a = Some (HInfix (OpVar (q_kind q)) l r) /\ q_num q = Some cl /\ q_sides q = Some cr /\ good (h_eval mr f) h l cl /\ good (h_eval mr f) h r cr.
  Lemma good_roll_keeps f h h1 a q : good_roll f h a q -> evolves [] h h1 -> good_roll f h1 a q.
  Proof.
    intros (l & r & cl & cr & E & H1 & H2 & H3 & H4) V. exists l, r, cl, cr. split; [eapply keeps_cell; eassumption|]. split; [exact H1|]. split; [exact H2|].
    split; eapply good_keeps; eassumption.
  Qed.
  Lemma good_rolls_keeps f h h1 l qs : Forall2 (good_roll f h) l qs -> evolves [] h h1 -> Forall2 (good_roll f h1) l qs.
  Proof. intros H V. induction H; constructor; [eapply good_roll_keeps; eassumption|assumption]. Qed.
  Lemma roll_sim f h a q : good_roll f h a q -> sim [] eqr h (h_eval mr (S f) a) (eval_qroll q).
  Proof.
    intros (l & r & cl & cr & E & H1 & H2 & H3 & H4). cbn [h_eval]. eapply sim_load; [exact E|]. unfold eval_qroll. rewrite H1, H2. apply infix_sim; assumption.
  Qed.
  Lemma r_loop_sim f n t : (0 < f)%nat -> forall queue qs h groups, Forall2 (good_roll f h) queue qs -> sim [] eqr h (h_r_loop (h_eval mr (S f)) n t queue groups) (eval_r_loop n t qs groups).
  Proof.
    intros Hf. induction n as [|n IH]; intros queue qs h groups H; cbn [h_r_loop eval_r_loop].
    - apply sim_ret. reflexivity.
    - destruct H as [|a q queue qs Ha Hq]; [apply sim_ret; reflexivity|]. eapply sim_read; [apply roll_sim; exact Ha|]. intros o h1 V1.
      destruct o; try apply sim_panic. destruct (count_ge t l 0) as [k|]; [|apply sim_panic]. pose proof (good_rolls_keeps _ _ _ _ _ Hq V1) as Hq1. destruct (0 <? k); [|apply IH; exact Hq1].
      apply sim_alloc. destruct Ha as (x & y & cl & cr & E & H1 & H2 & H3 & H4). assert (evolves [] h (h1 ++ [HInt k])) as V2 by (eapply keeps_trans; [exact V1|apply evolves_alloc]).
      eapply sim_load; [eapply keeps_cell; eassumption|]. cbn beta iota. apply sim_alloc. apply IH.
      set (h2 := h1 ++ [HInt k]) in *. set (c := HInfix (OpVar KR) (length h1) y). assert (evolves [] h2 (h2 ++ [c])) as V3 by apply evolves_alloc.
      apply Forall2_app; [eapply good_rolls_keeps; [exact Hq1|]; eapply keeps_trans; [apply evolves_alloc|exact V3]|]. constructor; [|constructor].
      exists (length h1), y, (CRet (OInt k)), cr. split; [apply nth_last|]. split; [reflexivity|]. split; [exact H2|]. split.
      + intros h3 V4. destruct f as [|f]; [lia|]. cbn [h_eval]. eapply (sim_load _ _ _ _ (HInt k)); [|apply sim_ret; reflexivity].
        apply (keeps_cell _ _ _ _ V4). apply (keeps_cell _ _ _ _ V3). apply nth_last.
      + eapply good_keeps; [exact H4|]. eapply keeps_trans; [exact V2|exact V3].
  Qed.
  Lemma compounding_sim f h a q t : good_roll f h a q -> sim [] eqr h (h_compounding_roll (h_eval mr f) mr a t) (eval_compounding_roll mr q t).
  Proof.
    intros (l & r & cl & cr & E & H1 & H2 & H3 & H4). unfold h_compounding_roll, eval_compounding_roll. eapply sim_load; [exact E|]. cbn beta iota. rewrite H1, H2.
    eapply sim_read; [apply operands_sim; eassumption|]. intros (x, y) h1 V1. destruct x; try apply sim_err. destruct y; try apply sim_err.
    destruct (_ <? 1); [apply sim_err|]. destruct (_ <? 1); [apply sim_err|]. destruct (_ <? _); [apply sim_panic|]. apply sim_pure.
  Qed.
  Lemma u_rolls_sim f t : forall rolls qs h groups, Forall2 (good_roll f h) rolls qs -> sim [] eqr h (h_u_rolls (h_eval mr f) mr rolls t groups) (eval_u_rolls mr qs t groups).
  Proof.
    induction rolls as [|a rolls IH]; intros qs h groups H; inversion H as [|? q ? qs' Ha Hr]; subst; cbn [h_u_rolls eval_u_rolls]; [apply sim_ret; reflexivity|].
    eapply sim_read; [apply compounding_sim; exact Ha|]. intros gs h1 V1. apply IH. eapply good_rolls_keeps; eassumption.
  Qed.
  (** The rolls of a list in memory *)
  Lemma reps_good f h ts l F : evaluates f -> reps h ts l F -> (length F < S f)%nat -> Forall2 (good_roll f h) l (map (to_qroll mr) ts).
  Proof.
    intros He H. induction H as [|k x y ts a rest F Fs Ha Hr IH]; intros L; cbn [map]; constructor.
    - inversion Ha; subst. cbn [length] in L. rewrite app_length in L. cbn [length] in L. rewrite app_length in L.
      exists l, r, (eval mr x), (eval mr y). cbn [to_qroll q_kind q_num q_sides]. split; [assumption|]. unfold operand. erewrite !rep_not_null by eassumption.
      split; [reflexivity|]. split; [reflexivity|]. split; eapply evaluates_good; try eassumption; lia.
    - apply IH. rewrite app_length in L. lia.
  Qed.
  Lemma basic_sim {A B} F0 (R : A -> B -> heap -> Prop) h e op l r tl tr Fl Fr (f : infixop * nat * nat -> hm A) g :
    nth_error h e = Some (HInfix op l r) -> rep h tl l Fl -> rep h tr r Fr -> is_basic_op op = true -> sim F0 R h (f (op, l, r)) g -> sim F0 R h (hbind (h_basic e) f) g.
  Proof.
    intros E _ _ Hop H s. unfold h_basic, hbind, hload. rewrite E, Hop. exact (H s).
  Qed.
  Lemma basic_fail {A B} F0 (R : A -> B -> heap -> Prop) h t a F (f : infixop * nat * nat -> hm A) : rep h t a F -> (forall op l r, t = NInfix op l r -> is_basic_op op = false) ->
    sim (B := B) F0 R h (hbind (h_basic a) f) panic_type.
  Proof.
    intros Hr Hn s. unfold h_basic, hbind, hload. exists (Panic "interface conversion"%string), h. split; [|split; [apply evolves_refl|reflexivity]].
    destruct Hr; match goal with E : nth_error h _ = _ |- _ => rewrite E end; try reflexivity. rewrite (Hn _ _ _ eq_refl). reflexivity.
  Qed.
  Lemma u_roll_list_sim f h ts tt lst F : evaluates f -> rep h (NRRollList ts tt) lst F -> (length F < S f)%nat ->
    sim [] eqr h (h_u_roll_list (h_eval mr f) mr lst) (eval_u_roll_list mr (map (to_qroll mr) ts) (is_nil tt) (if is_null tt then panic_nil else eval mr tt)).
  Proof.
    intros He Hr L. inversion Hr; subst. cbn [length] in L. rewrite app_length in L. unfold h_u_roll_list, eval_u_roll_list. eapply sim_load; [eassumption|]. cbn beta iota.
    eapply is_nil_sim; [eassumption|]. erewrite (rep_not_null _ tt) by eassumption. destruct (is_nil tt); [apply sim_err|]. eapply sim_read; [eapply He; [eassumption|lia]|].
    intros o h1 V1. destruct o; try apply sim_panic. apply u_rolls_sim. eapply good_rolls_keeps; [|exact V1]. eapply reps_good; [exact He|eassumption|lia].
  Qed.
  Lemma qrolls_good f h ts l F : evaluates f -> reps h ts l F -> (length F < S f)%nat -> Forall2 (fun a q => good (h_eval mr (S f)) h a (eval_qroll q)) l (map (to_qroll mr) ts).
  Proof.
    intros He H L. pose proof (reps_good _ _ _ _ _ He H L) as G. clear - G. induction G as [|a q l qs Ha Hr IH]; constructor; [|exact IH]. intros h1 V. apply roll_sim. eapply good_roll_keeps; eassumption.
  Qed.
  Lemma reps_size h ts l F : reps h ts l F -> l <> [] -> (0 < length F)%nat.
  Proof. intros H N. destruct H as [|k x y ts a rest F Fs Ha Hr]; [congruence|]. destruct (rep_root _ _ _ _ Ha) as (F' & ->). cbn. lia. Qed.
  (** Eval of a tree in memory *)
  Lemma h_eval_sim fuel : evaluates fuel.
  Proof.
    induction fuel as [fuel IH] using lt_wf_ind. intros t a F h Hr L. destruct fuel as [|f]; [lia|]. assert (evaluates f) as He by (apply IH; lia). cbn [h_eval].
    assert (forall x b G, rep h x b G -> operand mr x = Some (eval mr x)) as Hop by (intros x b G Hx; unfold operand; erewrite rep_not_null by eassumption; reflexivity).
    destruct Hr; cbn [length] in L; try (rewrite app_length in L); (eapply sim_load; [eassumption|]); cbn beta iota.
    - apply sim_err.
    - apply sim_ret. reflexivity.
    - apply sim_err.
    - apply sim_ret. reflexivity.
    - change (eval mr (NNeg t)) with (eval_prefix (operand mr t)). erewrite Hop by eassumption. apply prefix_sim. eapply evaluates_good; [eassumption..|lia].
    - change (eval mr (NInfix op tl tr)) with (eval_infix op (operand mr tl) (operand mr tr)). erewrite (Hop tl), (Hop tr) by eassumption.
      apply infix_sim; eapply evaluates_good; try eassumption; lia.
    - change (eval mr (NBRollList ts)) with (eval_b_roll_list (map (to_qroll mr) ts) []). apply b_rolls_sim. destruct f as [|f]; [lia|].
      eapply qrolls_good; [apply IH; lia|eassumption|lia].
    - change (eval mr (NRRollList ts tt)) with (if is_null tt then panic_nil else eval_r_roll_list mr (map (to_qroll mr) ts) (is_nil tt) (eval mr tt)).
      erewrite (rep_not_null _ tt) by eassumption. unfold h_r_roll_list, eval_r_roll_list. eapply is_nil_sim; [eassumption|]. destruct (is_nil tt); [apply sim_err|].
      match goal with H : rep h tt _ _ |- _ => destruct (rep_root _ _ _ _ H) as (Ft' & ->) end. cbn [length] in L.
      eapply sim_read; [eapply He; [eassumption|cbn [length]; lia]|]. intros o h1 V1. destruct o; try apply sim_panic. destruct f as [|f]; [lia|].
      apply r_loop_sim; [lia|]. eapply good_rolls_keeps; [|exact V1]. eapply reps_good; [apply IH; lia|eassumption|lia].
    - change (eval mr (NURollExpr ts tt None)) with (eval_u_roll_expr mr (map (to_qroll mr) ts) (is_nil tt) (if is_null tt then panic_nil else eval mr tt) None).
      unfold h_u_roll_expr, eval_u_roll_expr. eapply sim_read; [apply sim_ret; reflexivity|]. intros m h1 V1. eapply sim_read; [eapply u_roll_list_sim; [exact He|eapply keeps_rep; eassumption|lia]|].
      intros gs h2 V2. apply sim_ret. reflexivity.
    - change (eval mr (NURollExpr ts tt (Some (Bonus op l r)))) with (eval_u_roll_expr mr (map (to_qroll mr) ts) (is_nil tt) (if is_null tt then panic_nil else eval mr tt) (Some (eval mr (NInfix op l r)))).
      unfold h_u_roll_expr, eval_u_roll_expr. eapply sim_read.
      + eapply sim_read; [eapply He; [eassumption|]|intros o h1 V1; apply sim_pure]. destruct (rep_root _ _ _ _ Hr1) as (F' & ->). cbn [length] in L. lia.
      + intros m h1 V1. eapply sim_read; [eapply u_roll_list_sim; [exact He|eapply keeps_rep; eassumption|lia]|]. intros gs h2 V2. apply sim_ret. reflexivity.
    - apply sim_pure.
    - assert (forall op l r, t = NInfix op l r -> exists x y Fl Fr, nth_error h e = Some (HInfix op x y) /\ rep h l x Fl /\ rep h r y Fr /\ (1 + length Fl + length Fr <= length F)%nat /\ (4 <= f)%nat) as K.
      { intros op l r ->. inversion Hr; subst. cbn [length] in L. exists l0, r0, Fl, Fr. cbn [length]. rewrite app_length in *. match goal with Hx : rep h l _ ?A, Hy : rep h r _ ?B |- _ => destruct (rep_root _ _ _ _ Hx) as (G1 & E1), (rep_root _ _ _ _ Hy) as (G2 & E2); assert (0 < length A /\ 0 < length B)%nat by (rewrite E1, E2; cbn; lia) end. cbn [length] in *. repeat split; try assumption; lia. }
      destruct c; try (change (sim [] eqr h (h_eval mr f e) (eval mr t)); eapply He; [eassumption|lia]).
      + unfold h_b_roll_comp. destruct (match t with NInfix op _ _ => is_basic_op op | _ => false end) eqn:Eb.
        2:{ replace (eval mr (NCommand CBRollComp t)) with (@panic_type obj) by (destruct t; try reflexivity; cbn; rewrite Eb; reflexivity). eapply basic_fail; [eassumption|]. intros op l r ->. exact Eb. }
        destruct t as [| | | | | |op l r| | | | |]; try discriminate Eb. destruct (K _ _ _ eq_refl) as (x & y & Fl & Fr & E & H1 & H2 & H3 & H4).
        eapply basic_sim; [exact E|eassumption|eassumption|exact Eb|]. cbn beta iota.
        replace (eval mr (NCommand CBRollComp (NInfix op l r))) with (eval_b_roll_comp (op_string op) (operand mr l) (operand mr r)) by (cbn; rewrite Eb; reflexivity).
        erewrite (Hop l), (Hop r) by eassumption. unfold eval_b_roll_comp. eapply sim_read; [apply operands_sim; eapply evaluates_good; try eassumption; lia|].
        intros (vs, tg) h1 V1. destruct vs; try apply sim_panic. destruct tg; try apply sim_panic. eapply sim_read; [apply count_sim; [exact He|lia]|]. intros n h2 V2. apply sim_ret. reflexivity.
      + unfold h_r_roll_comp. destruct (match t with NInfix op _ _ => is_basic_op op | _ => false end) eqn:Eb.
        2:{ replace (eval mr (NCommand CRRollComp t)) with (@panic_type obj) by (destruct t; try reflexivity; cbn; rewrite Eb; reflexivity). eapply basic_fail; [eassumption|]. intros op l r ->. exact Eb. }
        destruct t as [| | | | | |op l r| | | | |]; try discriminate Eb. destruct (K _ _ _ eq_refl) as (x & y & Fl & Fr & E & H1 & H2 & H3 & H4).
        eapply basic_sim; [exact E|eassumption|eassumption|exact Eb|]. cbn beta iota.
        replace (eval mr (NCommand CRRollComp (NInfix op l r))) with (eval_r_roll_comp (op_string op) (operand mr l) (operand mr r)) by (cbn; rewrite Eb; reflexivity).
        erewrite (Hop l), (Hop r) by eassumption. unfold eval_r_roll_comp. eapply sim_read; [apply operands_sim; eapply evaluates_good; try eassumption; lia|].
        intros (vs, tg) h1 V1. destruct vs; try apply sim_panic. destruct tg; try apply sim_panic. eapply sim_read; [apply count_groups_sim; [exact He|lia]|]. intros n h2 V2. apply sim_ret. reflexivity.
      + unfold h_u_roll_comp. destruct (match t with NInfix op _ _ => is_basic_op op | _ => false end) eqn:Eb.
        2:{ replace (eval mr (NCommand CURollComp t)) with (@panic_type obj) by (destruct t; try reflexivity; cbn; rewrite Eb; reflexivity). eapply basic_fail; [eassumption|]. intros op l r ->. exact Eb. }
        destruct t as [| | | | | |op l r| | | | |]; try discriminate Eb. destruct (K _ _ _ eq_refl) as (x & y & Fl & Fr & E & H1 & H2 & H3 & H4).
        eapply basic_sim; [exact E|eassumption|eassumption|exact Eb|]. cbn beta iota.
        replace (eval mr (NCommand CURollComp (NInfix op l r))) with (eval_u_roll_comp (op_string op) (operand mr l) (operand mr r)) by (cbn; rewrite Eb; reflexivity).
        erewrite (Hop l), (Hop r) by eassumption. unfold eval_u_roll_comp. eapply sim_read; [apply operands_sim; eapply evaluates_good; try eassumption; lia|].
        intros (vs, tg) h1 V1. destruct vs; try apply sim_panic. eapply sim_read; [apply sim_pure|]. intros sums h2 V2. destruct tg; try apply sim_panic.
        eapply sim_read; [apply count_sim; [exact He|lia]|]. intros n h3 V3. apply sim_ret. reflexivity.
  Qed.
End Fuel.
