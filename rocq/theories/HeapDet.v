(** DetermineValues in memory, and the threshold of a roll list: proofs. *)
From Verif Require Import ProofBase GoMem HeapEval SpecHeap CompProofs HeapProofs HeapArgs HeapArgs2.
Open Scope list_scope.
Open Scope Z_scope.

Lemma rep_int_cell h l u F : rep h l u F -> (exists v, l = NInt v /\ nth_error h u = Some (HInt v)) \/
  (exists c, nth_error h u = Some c /\ (forall v, c <> HInt v) /\ (forall v, l <> NInt v) /\ l <> NNull /\ cell_type c = node_type l).
Proof.
  destruct 1; try (left; eexists; split; [reflexivity|eassumption]); right; eexists; (split; [eassumption|]); (split; [discriminate|]); (split; [discriminate|]); (split; [discriminate|]); reflexivity.
Qed.
Definition dv_child (c : node) : comp node :=
  if is_null c then panic_nil
  else if is_primary c then replace_variable_primary c
  else determine_values c.
Definition h_dv_child (f : nat) (c : nat) (set : nat -> hm unit) : hm unit :=
  let! x := hload c in
  if cell_primary x then (if cell_variable x then let! n := h_determine_d_roll c in set n else hret tt)
  else h_determine_values f c.
Definition dv_at (f : nat) : Prop := forall t a F h, rep h t a F -> NoDup F -> (length F < f)%nat -> sim F (fun _ t' h' => upd h F a t' h') h (h_determine_values f a) (determine_values t).
Lemma dv_child_sim f K set a c t Fc h : dv_at f -> nth_error h a = Some (K c) -> rep h t c Fc -> NoDup Fc -> ~ In a Fc -> (length Fc < f)%nat ->
  (forall n h s, nth_error h a = Some (K c) -> set n h s = (Ok tt, (put h a (K n), s))) ->
  sim (a :: Fc) (fun _ t' h' => exists c' Fc', nth_error h' a = Some (K c') /\ rep h' t' c' Fc' /\ fits h Fc Fc') h (h_dv_child f c set) (dv_child t).
Proof.
  intros IH E H N Na L Hset. unfold h_dv_child, dv_child. erewrite rep_not_null by exact H. destruct (rep_cell _ _ _ _ H) as (x & Ex & Ep & Ev & _). eapply sim_load; [exact Ex|]. rewrite Ep.
  destruct (is_primary t) eqn:Pt.
  2:{ eapply sim_weak; [apply IH; [exact H|exact N|exact L]|intros z Hz; right; exact Hz|]. intros u t' h' V (F' & Hr & Fit). exists c, F'. split; [eapply evolves_cell; eassumption|]. split; [exact Hr|exact Fit]. }
  rewrite Ev by reflexivity. unfold replace_variable_primary. destruct (is_variable t) eqn:Vt.
  2:{ apply sim_ret. exists c, Fc. split; [exact E|]. split; [exact H|]. apply fits_refl. exact N. }
  destruct t as [| | | | | |op l r| | | | |]; try discriminate Vt; try discriminate Pt. destruct op as [| | | | |k]; try discriminate Pt.
  inversion H as [| | | | |? ? u v ? ? Fl Fr E' Hl Hr| | | | | |]; subst. unfold h_determine_d_roll.
  destruct k; try (match goal with |- sim _ _ _ _ (CErr ?e) => intros s; eexists; exists h; split; [unfold hbind, hload; rewrite E'; reflexivity|]; split; [apply evolves_refl|reflexivity] end).
  unfold determine_d_roll.
  destruct (rep_int_cell _ _ _ _ Hl) as [(num & -> & El)|(cl & El & N1 & N2 & N3 & Tl)].
  2:{ replace (match l with NNull => panic_nil | NInt num => _ | _ => _ end) with (@CErr node ("num is not Int: " ++ node_type l)%string) by (destruct l; try reflexivity; [contradiction|destruct (N2 v0); reflexivity]).
      rewrite <- Tl. intros st. exists (Err ("num is not Int: " ++ cell_type cl)%string), h. split; [|split; [apply evolves_refl|reflexivity]]. unfold hbind, hload. rewrite E', El. destruct cl; try reflexivity. destruct (N1 v0). reflexivity. }
  destruct (rep_int_cell _ _ _ _ Hr) as [(sides & -> & Er)|(cr & Er & N1 & N2 & N3 & Tr)].
  2:{ replace (match r with NNull => panic_nil | NInt sides => _ | _ => _ end) with (@CErr node ("sides is not Int: " ++ node_type r)%string) by (destruct r; try reflexivity; [contradiction|destruct (N2 v0); reflexivity]).
      rewrite <- Tr. intros st. exists (Err ("sides is not Int: " ++ cell_type cr)%string), h. split; [|split; [apply evolves_refl|reflexivity]]. unfold hbind, hload. rewrite E', El, Er. destruct cr; try reflexivity. destruct (N1 v0). reflexivity. }
  inversion Hl; subst.
  inversion Hr; subst. change (CRoll num sides (fun ds => CRet (NSumRoll ds))) with (ds <- CRoll num sides CRet ;; CRet (NSumRoll ds))%comp.
  set (R := fun (_ : unit) (t' : node) (h' : heap) => _).
  enough (sim (a :: c :: [u] ++ [v]) R h (let! ds := hpure (CRoll num sides CRet) in let! n := halloc (HSumRoll ds) in set n) (ds <- CRoll num sides CRet ;; CRet (NSumRoll ds))%comp) as G.
  { intros s. destruct (G s) as (o & h' & Eo & V & Q). exists o, h'. split; [|split; [exact V|exact Q]]. rewrite <- Eo. unfold hbind at 1 2, hload. rewrite E'.
    match goal with Q : nth_error h u = Some (HInt _) |- _ => unfold hbind; rewrite Q end. match goal with Q : nth_error h v = Some (HInt _) |- _ => rewrite Q end.
    unfold hpure. destruct (run (CRoll num sides CRet) s) as ([ds|e|p] & s'); reflexivity. }
  eapply sim_read; [apply sim_pure|]. intros ds h1 V1. apply sim_alloc. pose proof (keeps_cell _ _ _ _ V1 E) as E1. pose proof (cell_lt _ _ _ E1) as La.
  eapply sim_done; [intros s; apply Hset; rewrite nth_error_app1 by exact La; exact E1|apply evolves_put; left; reflexivity|].
  exists (length h1), [length h1]. split; [apply put_same; rewrite app_length; lia|]. split; [apply rep_sum; rewrite put_other by lia; apply nth_last|].
  split; [constructor; [intros []|constructor]|]. split; [cbn; lia|]. intros z [<-|[]]. right. destruct V1. lia.
Qed.
Lemma determine_sim f : dv_at f.
Proof.
  induction f as [|f IH]; intros t a F h H N L; [lia|].
  change (sim F (fun _ t' h' => upd h F a t' h') h
    (let! c := hload a in
      match c with
      | HCommand t e => h_dv_child f e (fun n => hstore a (HCommand t n))
      | HNeg r => h_dv_child f r (set_right a)
      | HInfix _ l r => let! _ := h_dv_child f l (set_left a) in h_dv_child f r (set_right a)
      | _ => herr ("DetermineValues not implemented: " ++ cell_type c)%string
      end) (determine_values t)).
  destruct t as [| |v|s|ds|t|op l r|ts|ts tt|ts tt b|items|c t]; try (inversion H; subst; eapply sim_load; [eassumption|]; apply sim_err).
  - inversion H.
  - inversion H as [| | | |? r ? G E Hr| | | | | | |]; subst. eapply sim_load; [exact E|]. cbn [length] in L. change (determine_values (NNeg t)) with (r' <- dv_child t ;; CRet (NNeg r'))%comp.
    apply nodup_cons in N as (Na & N). eapply sim_map; [eapply (dv_child_sim f HNeg); [exact IH|exact E|exact Hr|exact N|exact Na|lia|]|].
    + intros n h0 s E0. eapply set_right_neg_run. exact E0.
    + intros u t' h' V (c' & Fc' & E' & Hr' & Fit). exists (a :: Fc'). split; [eapply rep_neg; eassumption|]. apply fits_cons; [exact Na|eapply cell_lt; exact E|exact Fit].
  - inversion H as [| | | | |? ? x y ? ? Fl Fr E Hl Hr| | | | | |]; subst. eapply sim_load; [exact E|]. cbn beta iota. cbn [length] in L. rewrite app_length in L.
    change (determine_values (NInfix op l r)) with (l' <- dv_child l ;; r' <- dv_child r ;; CRet (NInfix op l' r'))%comp.
    pose proof N as N0. apply nodup_cons in N as (Na & N). pose proof N as N1. apply nodup_app in N as (Nl & Nr & Nd). assert (~ In a Fl /\ ~ In a Fr) as (Nal & Nar) by (rewrite in_app_iff in Na; tauto).
    eapply sim_bind; [eapply (dv_child_sim f (fun x => HInfix op x y)); [exact IH|exact E|exact Hl|exact Nl|exact Nal|lia|]| |].
    + intros n h0 s E0. eapply set_left_run. exact E0.
    + intros z [<-|Hz]; [left; reflexivity|right; apply in_app_iff; auto].
    + intros u l' h1 V1 (x' & Fl' & E1 & Hl' & Fit1). exists (a :: Fr). split; [|intros z [<-|Hz]; left; [left; reflexivity|right; apply in_app_iff; auto]].
      assert (length h <= length h1)%nat as LV by (destruct V1; assumption). assert (rep h1 r y Fr) as Hr1 by (eapply evolves_rep; [exact V1|exact Hr|]; intros z Hz [<-|K]; [exact (Nar Hz)|exact (Nd z K Hz)]).
      pose proof (cell_lt _ _ _ E) as La.
      assert (~ In a Fl') as Nal'. { intros K. destruct Fit1 as (_ & _ & Fit1). destruct (Fit1 a K); [tauto|lia]. }
      eapply sim_map; [eapply (dv_child_sim f (fun y => HInfix op x' y)); [exact IH|exact E1|exact Hr1|exact Nr|exact Nar|lia|]|].
      * intros n h0 s E0. eapply set_right_run. exact E0.
      * intros u' r' h2 V2 (y' & Fr' & E2 & Hr' & Fit2). exists (a :: Fl' ++ Fr').
        assert (forall z, In z Fr -> (z < length h)%nat) as DR by (intros z Hz; exact (rep_dom _ _ _ _ _ Hr Hz)). split.
        -- eapply rep_infix; [exact E2| |exact Hr']. eapply evolves_rep; [exact V2|exact Hl'|]. intros z Hz [<-|K]; [contradiction|]. exact (fits_apart h Fl Fr Fl' z N1 DR Fit1 Hz K).
        -- apply fits_cons; [exact Na|exact La|]. eapply (fits_app h h1); [exact N1|exact DR|exact LV| |exact Fit1|exact Fit2]. intros z Hz. exact (rep_dom _ _ _ _ _ Hl' Hz).
  - destruct (rep_u_inv _ _ _ _ _ _ H) as (lst & bo & G & Fb & E & _). eapply sim_load; [exact E|]. apply sim_err.
  - inversion H as [| | | | | | | | | | |? ? e ? G E Hr]; subst. eapply sim_load; [exact E|]. cbn [length] in L. change (determine_values (NCommand c t)) with (r' <- dv_child t ;; CRet (NCommand c r'))%comp.
    apply nodup_cons in N as (Na & N). eapply sim_map; [eapply (dv_child_sim f (HCommand c)); [exact IH|exact E|exact Hr|exact N|exact Na|lia|]|].
    + intros n h0 s E0. reflexivity.
    + intros u t' h' V (c' & Fc' & E' & Hr' & Fit). exists (a :: Fc'). split; [eapply rep_command; eassumption|]. apply fits_cons; [exact Na|eapply cell_lt; exact E|exact Fit].
Qed.
