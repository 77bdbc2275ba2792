(** EvalVarArgs and DetermineValues in memory: the recursion. *)
From Verif Require Import ProofBase GoMem HeapEval SpecHeap CompProofs HeapProofs HeapArgs.
Open Scope list_scope.
Open Scope Z_scope.

Lemma rep_cell h t a F : rep h t a F -> exists c, nth_error h a = Some c /\ cell_primary c = is_primary t /\ (is_primary t = true -> cell_variable c = is_variable t) /\ cell_type c = node_type t.
Proof.
  destruct 1; eexists; (split; [eassumption|]); cbn; (split; [|split]); try reflexivity; try (intros H'; discriminate H').
  destruct op; intros H'; try discriminate H'. reflexivity.
Qed.
Lemma upd_same h t a F : rep h t a F -> NoDup F -> upd h F a t h.
Proof. intros H N. exists F. split; [exact H|apply fits_refl; exact N]. Qed.
Lemma sim_grow {A B} F F' (R : A -> B -> heap -> Prop) h m c : sim F R h m c -> (forall x, In x F -> In x F') -> sim F' R h m c.
Proof. intros H K. eapply sim_weak; [exact H|exact K|]. auto. Qed.
(** One child of a node was updated. *)
Lemma one_upd {A} h a c e G (mk : node -> node) (m : hm A) g : ~ In a G -> nth_error h a = Some c ->
  (forall h' t' G', nth_error h' a = Some c -> rep h' t' e G' -> rep h' (mk t') a (a :: G')) ->
  sim G (fun _ t' h' => upd h G e t' h') h m g -> sim (a :: G) (fun _ t' h' => upd h (a :: G) a t' h') h m (t' <- g ;; CRet (mk t'))%comp.
Proof.
  intros Na E Mk H. eapply sim_grow; [eapply sim_map; [exact H|]|intros z Hz; right; exact Hz].
  intros u t' h' V (G' & Hr & Fit). exists (a :: G'). split; [|apply fits_cons; [exact Na|eapply cell_lt; exact E|exact Fit]]. apply Mk; [eapply evolves_cell; eassumption|exact Hr].
Qed.

Section VarArgs.
  Variable mr : Z.
  Definition va_child (c : node) : comp node :=
    if is_null c then panic_nil
    else if is_primary c then (if is_variable c then var_args_of_variable_expr mr c else CRet c)
    else eval_var_args mr c.
  Definition h_va_child (f : nat) (c : nat) : hm unit :=
    let! x := hload c in
    if cell_primary x then (if cell_variable x then h_var_args_of mr f c else hret tt)
    else h_eval_var_args mr f c.
  Definition va_at (f : nat) : Prop := forall t a F h, rep h t a F -> NoDup F -> (length F < f)%nat -> sim F (fun _ t' h' => upd h F a t' h') h (h_eval_var_args mr f a) (eval_var_args mr t).
  Lemma va_child_sim f t a F h : va_at f -> rep h t a F -> NoDup F -> (length F < f)%nat -> sim F (fun _ t' h' => upd h F a t' h') h (h_va_child f a) (va_child t).
  Proof.
    intros IH H N L. unfold h_va_child, va_child. erewrite rep_not_null by exact H. destruct (rep_cell _ _ _ _ H) as (c & E & Ep & Ev & _). eapply sim_load; [exact E|]. rewrite Ep.
    destruct (is_primary t) eqn:Pt; [|apply IH; assumption]. rewrite Ev by reflexivity. destruct (is_variable t) eqn:Vt; [|apply sim_ret; apply upd_same; assumption].
    destruct t as [| | | | | |op l r| | | | |]; try discriminate Vt; try discriminate Pt. destruct op as [| | | | |k]; try discriminate Pt. cbn [var_args_of_variable_expr].
    apply sim_ext with (c := (lr <- var_args_of_vroll mr k l r ;; CRet (NInfix (OpVar k) (fst lr) (snd lr)))%comp).
    { intros s. rewrite !run_bind. destruct (run (var_args_of_vroll mr k l r) s) as ([[l' r']|e|p] & s'); reflexivity. }
    eapply sim_map; [eapply sim_grow; [eapply (var_args_of_sim mr f); [exact H|exact N|lia]|intros z [<-|[]]; eapply rep_head; exact H]|].
    intros u b h' V Q. exact Q.
  Qed.
  (** Two children, one after the other *)
  Lemma two_upd h h1 h2 a op l r tl' tr' Fl Fr : NoDup (a :: Fl ++ Fr) -> nth_error h a = Some (HInfix op l r) -> (forall z, In z Fr -> (z < length h)%nat) ->
    evolves Fl h h1 -> upd h Fl l tl' h1 -> evolves Fr h1 h2 -> upd h1 Fr r tr' h2 -> upd h (a :: Fl ++ Fr) a (NInfix op tl' tr') h2.
  Proof.
    intros N E D V1 (Fl' & Hl & Fitl) V2 (Fr' & Hr & Fitr). apply nodup_cons in N as (Na & N). rewrite in_app_iff in Na. assert (length h <= length h1)%nat as LV by (destruct V1; assumption).
    exists (a :: Fl' ++ Fr'). split.
    - eapply rep_infix; [|eapply evolves_rep; [exact V2|exact Hl|]|exact Hr].
      + eapply evolves_cell; [exact V2| |tauto]. eapply evolves_cell; [exact V1|exact E|tauto].
      + intros z Hz. eapply (fits_apart h Fl Fr); eassumption.
    - apply fits_cons; [rewrite in_app_iff; exact Na|eapply cell_lt; exact E|]. eapply (fits_app h h1); try eassumption. intros z Hz. eapply rep_dom; eassumption.
  Qed.
  Lemma two_children f h a op l r tl tr Fl Fr : va_at f -> nth_error h a = Some (HInfix op l r) -> rep h tl l Fl -> rep h tr r Fr -> NoDup (a :: Fl ++ Fr) -> (S (length Fl + length Fr) < S f)%nat ->
    sim (a :: Fl ++ Fr) (fun _ t' h' => upd h (a :: Fl ++ Fr) a t' h') h (let! _ := h_va_child f l in h_va_child f r) (l' <- va_child tl ;; r' <- va_child tr ;; CRet (NInfix op l' r'))%comp.
  Proof.
    intros IH E Hl Hr N L. pose proof N as N0. apply nodup_cons in N as (Na & N). rewrite in_app_iff in Na. apply nodup_app in N as (Nl & Nr & Nd).
    eapply sim_bind; [apply va_child_sim; [exact IH|exact Hl|exact Nl|lia]|intros z Hz; right; apply in_app_iff; auto|]. intros u tl' h1 V1 Q1. exists Fr. split; [|intros z Hz; left; right; apply in_app_iff; auto].
    assert (rep h1 tr r Fr) as Hr1 by (eapply evolves_rep; [exact V1|exact Hr|]; intros z Hz K; exact (Nd z K Hz)).
    eapply sim_map; [apply va_child_sim; [exact IH|exact Hr1|exact Nr|lia]|]. intros u' tr' h2 V2 Q2. eapply two_upd; try eassumption. intros z Hz. eapply rep_dom; eassumption.
  Qed.
  Lemma var_args_sim f : va_at f.
  Proof.
    induction f as [|f IH]; intros t a F h H N L; [lia|]. cbn [h_eval_var_args]. fold (h_va_child f).
    change (sim F (fun _ t' h' => upd h F a t' h') h
      (let! c := hload a in
        match c with
        | HBRollList rolls => h_var_args_rolls mr f rolls
        | HRRollList _ _ => h_var_args_list mr f a
        | HURollExpr lst bonus => let! _ := h_var_args_list mr f lst in h_var_args_bonus mr f a lst bonus
        | HCommand _ e => h_va_child f e
        | HNeg r => h_va_child f r
        | HInfix (OpCmp _) l r => let! _ := h_eval_var_args mr f l in let! ro := h_eval mr f r in let! x := int_node ro in set_right a x
        | HInfix _ l r => let! _ := h_va_child f l in h_va_child f r
        | _ => herr ("EvalVarArgs not implemented: " ++ cell_type c)%string
        end) (eval_var_args mr t)).
    destruct t as [| |v|s|ds|t|op l r|ts|ts tt|ts tt b|items|c t].
    - inversion H.
    - inversion H; subst. eapply sim_load; [eassumption|]. apply sim_err.
    - inversion H; subst. eapply sim_load; [eassumption|]. apply sim_err.
    - inversion H; subst. eapply sim_load; [eassumption|]. apply sim_err.
    - inversion H; subst. eapply sim_load; [eassumption|]. apply sim_err.
    - inversion H as [| | | |? r ? G E Hr| | | | | | |]; subst. eapply sim_load; [exact E|]. cbn [length] in L. change (eval_var_args mr (NNeg t)) with (r' <- va_child t ;; CRet (NNeg r'))%comp.
      apply nodup_cons in N as (Na & N). eapply one_upd; [exact Na|exact E| |apply va_child_sim; [exact IH|exact Hr|exact N|lia]]. intros; eapply rep_neg; eassumption.
    - inversion H as [| | | | |? ? x y ? ? Fl Fr E Hl Hr| | | | | |]; subst. eapply sim_load; [exact E|]. cbn [length] in L. rewrite app_length in L.
      assert (forall op', op = op' -> (forall c, op' <> OpCmp c) -> eval_var_args mr (NInfix op' l r) = (l' <- va_child l ;; r' <- va_child r ;; CRet (NInfix op' l' r'))%comp) as K.
      { intros op' _ Hc. destruct op' as [| | | |c|k]; try reflexivity. destruct (Hc c); reflexivity. }
      destruct op as [| | |m|c|k]; try (rewrite (K _ eq_refl) by (intros ? ?; discriminate); eapply two_children; eassumption).
      change (eval_var_args mr (NInfix (OpCmp c) l r)) with (l' <- eval_var_args mr l ;; ro <- eval mr r ;; rv <- obj_int ro ;; CRet (NInfix (OpCmp c) l' (NInt rv)))%comp.
      pose proof N as N0. apply nodup_cons in N as (Na & N). rewrite in_app_iff in Na. apply nodup_app in N as (Nl & Nr & Nd).
      eapply sim_bind; [apply IH; [exact Hl|exact Nl|lia]|intros z Hz; right; apply in_app_iff; auto|]. intros u tl' h1 V1 Q1. exists [a]. split; [|intros z [<-|[]]; left; left; reflexivity].
      assert (rep h1 r y Fr) as Hr1 by (eapply evolves_rep; [exact V1|exact Hr|]; intros z Hz K'; exact (Nd z K' Hz)).
      eapply sim_read; [eapply eval_ok; [exact Hr1|lia]|]. intros ro h2 V2. apply int_node_sim. intros rv. destruct Q1 as (Fl' & Hl' & Fit).
      assert (nth_error h1 a = Some (HInfix (OpCmp c) x y)) as E1 by (eapply evolves_cell; [exact V1|exact E|tauto]). pose proof (keeps_cell _ _ _ _ V2 E1) as E2. pose proof (cell_lt _ _ _ E2) as La. pose proof (cell_lt _ _ _ E) as La0.
      assert (length h <= length h1 /\ length h1 <= length h2)%nat as LV by (destruct V1, V2; split; assumption).
      assert (~ In a Fl') as Nal. { intros K'. destruct Fit as (_ & _ & Fit). destruct (Fit a K'); [tauto|lia]. }
      eapply sim_done; [intros s; eapply set_right_run; rewrite nth_error_app1 by exact La; exact E2|apply evolves_put; left; reflexivity|].
      exists (a :: Fl' ++ [length h2]). split.
      + eapply rep_infix; [apply put_same; rewrite app_length; lia| |apply rep_int; rewrite put_other by lia; apply nth_last].
        eapply evolves_rep; [apply (evolves_put [a]); left; reflexivity| |intros z Hz [<-|[]]; contradiction]. eapply keeps_rep; [|exact Hl']. eapply keeps_trans; [exact V2|apply evolves_alloc].
      + apply fits_cons; [rewrite in_app_iff; exact Na|exact La0|]. eapply (fits_app h h2).
        * apply nodup_cons in N0 as (_ & N0). exact N0.
        * intros z Hz. eapply rep_dom; [exact Hr|exact Hz].
        * lia.
        * intros z Hz. pose proof (rep_dom _ _ _ _ _ Hl' Hz). lia.
        * exact Fit.
        * split; [constructor; [intros []|constructor]|]. split; [destruct (rep_root _ _ _ _ Hr) as (? & ->); cbn; lia|]. intros z [<-|[]]. right. lia.
    - inversion H as [| | | | | |? rolls ? G E Hr| | | | |]; subst. eapply sim_load; [exact E|]. cbn [length] in L. apply nodup_cons in N as (Na & N).
      change (eval_var_args mr (NBRollList ts)) with (ts' <- var_args_rolls mr ts ;; CRet (NBRollList ts'))%comp.
      eapply sim_grow; [eapply sim_map; [apply var_args_rolls_sim; [exact Hr|exact N|lia]|]|intros z Hz; right; exact Hz].
      intros u ts' h' V (G' & Hr' & Fit). exists (a :: G'). split; [eapply rep_blist; [eapply evolves_cell; eassumption|exact Hr']|apply fits_cons; [exact Na|eapply cell_lt; exact E|exact Fit]].
    - inversion H; subst. eapply sim_load; [eassumption|]. cbn beta iota. eapply sim_weak; [apply var_args_list_sim; [exact H|exact N|lia]|auto|]. intros u b h' V (_ & Q). exact Q.
    - destruct (rep_u_inv _ _ _ _ _ _ H) as (lst & bo & G & Fb & E & Hl & Hb & ->). eapply sim_load; [exact E|]. cbn beta iota. cbn [length] in L. rewrite app_length in L.
      pose proof N as N0. apply nodup_cons in N as (Na & N). rewrite in_app_iff in Na. pose proof N as N1. apply nodup_app in N as (NG & NF & ND).
      apply sim_ext with (c := (t' <- eval_var_args mr (NRRollList ts tt) ;; b' <- var_args_bonus mr b ;; match t' with NRRollList ts' tt' => CRet (NURollExpr ts' tt' b') | _ => panic_type end)%comp).
      { intros s. cbn [eval_var_args]. rewrite !run_bind. destruct (run (var_args_threshold mr tt) s) as ([th'|e|p] & s1); try reflexivity. rewrite !run_bind.
        destruct (run (var_args_rolls mr ts) s1) as ([ts'|e|p] & s2); try reflexivity. }
      eapply sim_bind; [apply var_args_list_sim; [exact Hl|exact NG|lia]|intros z Hz; right; apply in_app_iff; auto|]. intros u t' h1 V1 ((ts' & tt' & ->) & G' & Hl' & Fit).
      assert (nth_error h1 a = Some (HURollExpr lst bo)) as E1 by (eapply evolves_cell; [exact V1|exact E|tauto]). assert (length h <= length h1)%nat as LV by (destruct V1; assumption).
      assert (bonus_at h1 bo b Fb) as Hb1 by (eapply bonus_keeps; [exact V1|exact Hb|]; intros z Hz K; exact (ND z K Hz)).
      assert (fits h (a :: G ++ Fb) (a :: G' ++ Fb)) as Fit1. { apply fits_cons; [rewrite in_app_iff; exact Na|eapply cell_lt; exact E|]. eapply (fits_app h h1); [exact N1| |exact LV| |exact Fit|apply fits_refl; exact NF].
        - intros z Hz. eapply bonus_dom; eassumption.
        - intros z Hz. eapply rep_dom; eassumption. }
      exists [a]. split; [|intros z [<-|[]]; left; left; reflexivity]. eapply sim_map; [apply bonus_sim; [exact E1|exact Hl'|exact Hb1|apply Fit1|lia]|]. intros u' b' h2 V2 (F2 & H2 & Fit2). exists F2. split; [exact H2|].
      eapply fits_trans; [exact Fit1|exact Fit2|exact LV].
    - inversion H; subst. eapply sim_load; [eassumption|]. apply sim_err.
    - inversion H as [| | | | | | | | | | |? ? e ? G E Hr]; subst. eapply sim_load; [exact E|]. cbn [length] in L. change (eval_var_args mr (NCommand c t)) with (r' <- va_child t ;; CRet (NCommand c r'))%comp.
      apply nodup_cons in N as (Na & N). eapply one_upd; [exact Na|exact E| |apply va_child_sim; [exact IH|exact Hr|exact N|lia]]. intros; eapply rep_command; eassumption.
  Qed.
End VarArgs.
