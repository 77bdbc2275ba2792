(** Execution of commands in memory: proofs. *)
From Verif Require Import ProofBase GoMem HeapEval SpecHeap CompProofs HeapProofs HeapArgs HeapArgs2 HeapDet HeapText.
Open Scope list_scope.
Open Scope Z_scope.

(** After EvalVarArgs the threshold of a roll list is missing or an integer. *)
Definition settled (th : node) : Prop := th = NNil \/ exists v, th = NInt v.
Definition settled_list (t : node) : Prop := match t with NRRollList _ th | NURollExpr _ th _ => settled th | _ => True end.
Section Settled.
  Variable mr : Z.
  Lemma threshold_settled th s th' s' : run (var_args_threshold mr th) s = (Ok th', s') -> settled th'.
  Proof.
    unfold var_args_threshold. destruct (is_null th); [discriminate|]. destruct (is_nil th) eqn:E.
    - cbn. intros H. injection H as <- _. left. destruct th; try discriminate E. reflexivity.
    - rewrite run_bind. destruct (run (eval mr th) s) as ([o|e|p] & s1); try discriminate. rewrite run_bind. destruct (run (obj_int o) s1) as ([v|e|p] & s2); try discriminate. cbn. intros H. injection H as <- _. right. eauto.
  Qed.
  Lemma list_settled t s t' s' : run (eval_var_args mr t) s = (Ok t', s') -> settled_list t'.
  Proof.
    destruct t as [| |v|str|ds|t|op l r|ts|ts th|ts th b|items|k t]; try discriminate.
    - cbn [eval_var_args]. rewrite run_bind. match goal with |- context [run ?c s] => destruct (run c s) as ([x|e|p] & s1); try discriminate end. cbn. intros H. injection H as <- _. exact I.
    - assert (forall c1 c2 (f : node -> node -> node), (forall x y, settled_list (f x y)) -> run (x <- c1 ;; y <- c2 ;; CRet (f x y))%comp s = (Ok t', s') -> settled_list t') as K.
      { intros c1 c2 f Hf. rewrite run_bind. destruct (run c1 s) as ([x|e|p] & s1); try discriminate. rewrite run_bind. destruct (run c2 s1) as ([y|e|p] & s2); try discriminate. cbn. intros H. injection H as <- _. apply Hf. }
      destruct op; cbn [eval_var_args]; try (apply K; intros; exact I).
      rewrite run_bind. match goal with |- context [run ?c s] => destruct (run c s) as ([x|e|p] & s1); try discriminate end.
      rewrite run_bind. match goal with |- context [run ?c s1] => destruct (run c s1) as ([y|e|p] & s2); try discriminate end. rewrite run_bind. destruct (run (obj_int y) s2) as ([z|e|p] & s3); try discriminate. cbn. intros H. injection H as <- _. exact I.
    - cbn [eval_var_args]. rewrite run_bind. match goal with |- context [run ?c s] => destruct (run c s) as ([x|e|p] & s1); try discriminate end. cbn. intros H. injection H as <- _. exact I.
    - cbn [eval_var_args]. rewrite run_bind. destruct (run (var_args_threshold mr th) s) as ([x|e|p] & s1) eqn:E; try discriminate. rewrite run_bind.
      match goal with |- context [run ?c s1] => destruct (run c s1) as ([y|e|p] & s2); try discriminate end. cbn. intros H. injection H as <- _. cbn. eapply threshold_settled; exact E.
    - cbn [eval_var_args]. rewrite run_bind. destruct (run (var_args_threshold mr th) s) as ([x|e|p] & s1) eqn:E; try discriminate. rewrite run_bind.
      match goal with |- context [run ?c s1] => destruct (run c s1) as ([y|e|p] & s2); try discriminate end. rewrite run_bind. match goal with |- context [run ?c s2] => destruct (run c s2) as ([z|e|p] & s3); try discriminate end.
      cbn. intros H. injection H as <- _. cbn. eapply threshold_settled; exact E.
    - cbn [eval_var_args]. rewrite run_bind. match goal with |- context [run ?c s] => destruct (run c s) as ([x|e|p] & s1); try discriminate end. cbn. intros H. injection H as <- _. exact I.
  Qed.
  Lemma child_settled t s t' s' : run (va_child mr t) s = (Ok t', s') -> settled_list t'.
  Proof.
    unfold va_child. destruct (is_null t); [discriminate|]. destruct (is_primary t) eqn:Ep; [|apply list_settled]. destruct (is_variable t).
    - unfold var_args_of_variable_expr. destruct t; try discriminate. destruct op; try discriminate. rewrite run_bind. destruct (run (var_args_of_vroll mr k t1 t2) s) as ([(x, y)|e|p] & s1); try discriminate. cbn. intros H. injection H as <- _. exact I.
    - cbn. intros H. injection H as <- _. destruct t; try exact I; discriminate Ep.
  Qed.
  (** The shape of an infix node is kept. *)
  Lemma infix_settled op l r s t' s' : run (eval_var_args mr (NInfix op l r)) s = (Ok t', s') -> exists l' r', t' = NInfix op l' r' /\ settled_list l'.
  Proof.
    assert (forall s, run (x <- va_child mr l ;; y <- va_child mr r ;; CRet (NInfix op x y))%comp s = (Ok t', s') -> exists l' r', t' = NInfix op l' r' /\ settled_list l') as K.
    { intros s0. rewrite run_bind. destruct (run (va_child mr l) s0) as ([x|e|p] & s1) eqn:E; try discriminate. rewrite run_bind. destruct (run (va_child mr r) s1) as ([y|e|p] & s2); try discriminate. cbn. intros H. injection H as <- _.
      exists x, y. split; [reflexivity|]. eapply child_settled; exact E. }
    destruct op; try exact (K s). cbn [eval_var_args]. rewrite run_bind. destruct (run (eval_var_args mr l) s) as ([x|e|p] & s1) eqn:E; try discriminate.
    rewrite run_bind. match goal with |- context [run ?c s1] => destruct (run c s1) as ([y|e|p] & s2); try discriminate end. rewrite run_bind. destruct (run (obj_int y) s2) as ([z|e|p] & s3); try discriminate. cbn. intros H. injection H as <- _.
    exists x, (NInt z). split; [reflexivity|]. eapply list_settled; exact E.
  Qed.
  Lemma determine_infix op l r s t' s' : run (determine_values (NInfix op l r)) s = (Ok t', s') -> exists l' r', t' = NInfix op l' r'.
  Proof.
    change (determine_values (NInfix op l r)) with (l' <- dv_child l ;; r' <- dv_child r ;; CRet (NInfix op l' r'))%comp.
    rewrite run_bind. destruct (run (dv_child l) s) as ([x|e|p] & s1); try discriminate. rewrite run_bind. destruct (run (dv_child r) s1) as ([y|e|p] & s2); try discriminate. cbn. intros H. injection H as <- _. eauto.
  Qed.
End Settled.
(** What is known about the value of a computation *)
Lemma sim_know {A B} F (R : A -> B -> heap -> Prop) (P : B -> Prop) h m c : sim F R h m c -> (forall s b s', run c s = (Ok b, s') -> P b) -> sim F (fun a b h' => R a b h' /\ P b) h m c.
Proof.
  intros H K s. destruct (H s) as (o & h' & E & V & Q). exists o, h'. split; [exact E|]. split; [exact V|]. specialize (K s). destruct (run c s) as (o', s'). cbn [fst] in *. destruct o, o'; cbn in *; try assumption. split; [exact Q|]. eapply K. reflexivity.
Qed.
Lemma rep_command_inv h k t a F : rep h (NCommand k t) a F -> exists e G, nth_error h a = Some (HCommand k e) /\ rep h t e G /\ F = a :: G.
Proof. intros H. inversion H; subst. eauto. Qed.
Lemma rep_rlist_inv h ts th a F : rep h (NRRollList ts th) a F -> exists rolls x Fr Ft, nth_error h a = Some (HRRollList rolls x) /\ reps h ts rolls Fr /\ rep h th x Ft /\ F = a :: Ft ++ Fr.
Proof. intros H. inversion H; subst. do 4 eexists. eauto. Qed.
(** The type of node that a cell belongs to *)
Lemma rep_shape h t a F c : rep h t a F -> nth_error h a = Some c -> match c, t with
  | HNil, NNil | HNeg _, NNeg _ | HBRollList _, NBRollList _ | HRRollList _ _, NRRollList _ _ | HURollExpr _ _, NURollExpr _ _ _ => True
  | HInt v, NInt v' => v = v' | HString s, NString s' => s = s' | HSumRoll d, NSumRoll d' => d = d' | HInfix op _ _, NInfix op' _ _ => op = op' | HChoice x, NChoice x' => x = x' | HCommand k _, NCommand k' _ => k = k'
  | _, _ => False end.
Proof. intros H E. destruct H; match goal with Q : nth_error h a = Some _ |- _ => rewrite E in Q; injection Q as -> end; auto. Qed.

Section Exec.
  Variable mr : Z.
  Variable game_id : string.
  Variable fuel : nat.
  Lemma notation_ok t a F w h : rep h t a F -> (length F < fuel)%nat -> sim [] eqr h (h_notation fuel a w) (clift (infix_notation t w)).
  Proof. apply notation_sim. Qed.
  Lemma ev_ok t a F h : rep h t a F -> (length F < fuel)%nat -> sim [] eqr h (h_eval mr fuel a) (eval mr t).
  Proof. apply h_eval_sim. Qed.
  Lemma va_notation_sim t a F h : rep h t a F -> NoDup F -> (length F < fuel)%nat ->
    sim F (fun s ts h' => s = snd ts /\ upd h F a (fst ts) h') h (h_var_args_notation mr fuel a) (eval_var_args_notation mr t).
  Proof.
    intros H N L. unfold h_var_args_notation, eval_var_args_notation. eapply sim_bind; [apply var_args_sim; eassumption|auto|]. intros u t' h1 V (F' & Hr & Fit). exists []. split; [|intros z []].
    eapply sim_map; [eapply notation_ok; [exact Hr|destruct Fit as (_ & Ln & _); lia]|]. intros s b h2 V2 ->. split; [reflexivity|]. exists F'. split; [eapply keeps_rep; eassumption|exact Fit].
  Qed.
  Lemma check_sim missing ts th a G h c : rep h (NRRollList ts th) a G -> (length G < fuel)%nat -> settled th -> c = (if is_null th then panic_nil else if is_nil th then CRet (Some missing) else check_roll_threshold mr th) ->
    sim [] eqr h (h_check_threshold mr fuel missing a) c.
  Proof.
    intros H L S ->. destruct (rep_rlist_inv _ _ _ _ _ H) as (rolls & x & Fr & Ft & E & Hr & Ht & ->). cbn [length] in L. rewrite app_length in L. unfold h_check_threshold. eapply sim_load; [exact E|]. cbn beta iota.
    eapply is_nil_sim; [exact Ht|]. destruct S as [->|(v & ->)]; cbn [is_nil is_null]; [apply sim_ret; reflexivity|]. destruct fuel as [|f]; [lia|]. inversion Ht; subst.
    intros s. eexists; exists h. split; [unfold hbind, htry; cbn [h_eval]; unfold hbind, hload; match goal with Q : nth_error h x = Some _ |- _ => rewrite Q end; reflexivity|]. split; [apply evolves_refl|reflexivity].
  Qed.
  Ltac len := repeat (match goal with H : fits _ _ _ |- _ => destruct H as (? & ? & ?) end); repeat (progress (cbn [length] in *; rewrite ?app_length in * )); lia.
  Lemma with_dice_sim F h parts sc : sim F eqr h (h_with_dice game_id parts sc) (with_dice game_id parts sc).
  Proof.
    unfold h_with_dice, with_dice, h_log. change (CLog (fun ds => CRet (Result game_id parts ds sc false))) with (ds <- CLog CRet ;; CRet (Result game_id parts ds sc false))%comp.
    eapply sim_read; [apply sim_pure|]. intros ds h1 V. apply sim_ret. reflexivity.
  Qed.
  Lemma sim_log {A B} F (R : A -> B -> heap -> Prop) h (f : list die -> hm A) g : (forall ds h1, evolves [] h h1 -> sim F R h1 (f ds) (g ds)) -> sim F R h (hbind h_log f) (CLog g).
  Proof. intros H. change (CLog g) with (ds <- CLog CRet ;; g ds)%comp. eapply sim_read; [apply sim_pure|exact H]. Qed.
  (** Reading the tree at [a] first *)
  Ltac rd H := eapply sim_read; [eapply H; [eassumption|len]|].
  Lemma calc_sim e a F h : rep h (NCommand CCalc e) a F -> (length F < fuel)%nat -> sim [] eqr h (h_execute_calc mr game_id fuel a) (execute_calc mr game_id e).
  Proof.
    intros H L. unfold h_execute_calc, execute_calc. rd notation_ok. intros s h1 V1. pose proof (keeps_rep _ _ _ _ _ V1 H) as H1. rd ev_ok. intros o h2 V2. apply sim_ret. reflexivity.
  Qed.
  Lemma choice_sim items a F h : rep h (NChoice items) a F -> (length F < fuel)%nat -> sim [] eqr h (h_execute_choice mr game_id fuel a) (execute_choice mr game_id items).
  Proof.
    intros H L. unfold h_execute_choice, execute_choice. rd notation_ok. intros s h1 V1. pose proof (keeps_rep _ _ _ _ _ V1 H) as H1. rd ev_ok. intros o h2 V2. destruct o; try apply sim_panic. apply with_dice_sim.
  Qed.
  (** After EvalVarArgs and the notation the rest reads and updates the tree [t'] at [a]. *)
  Lemma after_va {A} t a F h (P : node -> Prop) (f : string -> hm A) (g : node * string -> comp A) : rep h t a F -> NoDup F -> (length F < fuel)%nat ->
    (forall s t' s', run (eval_var_args mr t) s = (Ok t', s') -> P t') ->
    (forall s t' F' h1, rep h1 t' a F' -> NoDup F' -> (length F' < fuel)%nat -> P t' -> sim F' eqr h1 (f s) (g (t', s))) ->
    sim F eqr h (hbind (h_var_args_notation mr fuel a) f) (cbind (eval_var_args_notation mr t) g).
  Proof.
    intros H N L HP K. eapply sim_bind; [eapply (sim_know _ _ (fun ts => P (fst ts))); [eapply va_notation_sim; eassumption|]|auto|].
    - intros s b s' E. unfold eval_var_args_notation in E. rewrite run_bind in E. destruct (run (eval_var_args mr t) s) as ([t'|e|p] & s1) eqn:E1; try discriminate E. rewrite run_bind in E.
      destruct (run (clift (infix_notation t' true)) s1) as ([x|e|p] & s2); try discriminate E. cbn in E. injection E as <- _. exact (HP _ _ _ E1).
    - intros s (t', s0) h1 V1 ((-> & F' & Hr & Fit) & Pt). cbn [fst snd] in *. exists F'. split; [|intros z Hz; destruct Fit as (_ & _ & Fit); destruct (Fit z Hz); auto].
      apply K; [exact Hr|apply Fit|destruct Fit as (_ & Ln & _); lia|exact Pt].
  Qed.
  Lemma b_list_sim ts a F h : rep h (NBRollList ts) a F -> NoDup F -> (length F < fuel)%nat -> sim F eqr h (h_execute_b_roll_list mr game_id fuel a) (execute_b_roll_list mr game_id (NBRollList ts)).
  Proof.
    intros H N L. unfold h_execute_b_roll_list, execute_b_roll_list. eapply (after_va _ _ _ _ (fun _ => True)); try eassumption; [auto|]. intros s t' F' h1 H1 N1 L1 _. cbn beta iota. rd ev_ok. intros o h2 V2. destruct o; try apply sim_panic. apply with_dice_sim.
  Qed.
  Lemma d_expr_sim e a F h : rep h (NCommand CDRollExpr e) a F -> NoDup F -> (length F < fuel)%nat -> sim F eqr h (h_execute_d_roll_expr mr game_id fuel a) (execute_d_roll_expr mr game_id e).
  Proof.
    intros H N L. unfold h_execute_d_roll_expr, execute_d_roll_expr. eapply (after_va _ _ _ _ (fun _ => True)); try eassumption; [auto|]. intros s t' F' h1 H1 N1 L1 _. cbn beta iota.
    eapply sim_bind; [apply determine_sim; eassumption|auto|]. intros u t2 h2 V2 (F2 & H2 & Fit). exists []. split; [|intros z []]. rd notation_ok. intros s2 h3 V3. pose proof (keeps_rep _ _ _ _ _ V3 H2) as H3. rd ev_ok. intros o h4 V4. apply with_dice_sim.
  Qed.
  Lemma r_list_sim ts th a F h : rep h (NRRollList ts th) a F -> NoDup F -> (length F < fuel)%nat -> sim F eqr h (h_execute_r_roll_list mr game_id fuel a) (execute_r_roll_list mr game_id (NRRollList ts th)).
  Proof.
    intros H N L. unfold h_execute_r_roll_list, execute_r_roll_list. eapply (after_va _ _ _ _ (fun t' => (exists ts' th', t' = NRRollList ts' th') /\ settled_list t')); try eassumption.
    { intros s t' s' E. split; [|eapply list_settled; exact E]. cbn [eval_var_args] in E. rewrite run_bind in E. destruct (run (var_args_threshold mr th) s) as ([x|e|p] & s1); try discriminate E. rewrite run_bind in E.
      destruct (run (var_args_rolls mr ts) s1) as ([y|e|p] & s2); try discriminate E. cbn in E. injection E as <- _. eauto. }
    intros s t' F' h1 H1 N1 L1 ((ts' & th' & ->) & S). cbn beta iota. eapply sim_read; [eapply (check_sim _ _ _ _ _ _ _ H1 L1 S); reflexivity|]. intros bad h2 V2. destruct bad as [msg|]; [apply sim_ret; reflexivity|].
    pose proof (keeps_rep _ _ _ _ _ V2 H1) as H2. rd ev_ok. intros o h3 V3. destruct o; try apply sim_panic. apply sim_log. intros ds h4 V4. eapply sim_read; [apply sim_pure|]. intros s2 h5 V5. apply sim_ret. reflexivity.
  Qed.
  Lemma u_expr_sim ts th b a F h : rep h (NURollExpr ts th b) a F -> NoDup F -> (length F < fuel)%nat -> sim F eqr h (h_execute_u_roll_expr mr game_id fuel a) (execute_u_roll_expr mr game_id (NURollExpr ts th b)).
  Proof.
    intros H N L. unfold h_execute_u_roll_expr, execute_u_roll_expr. eapply (after_va _ _ _ _ (fun t' => (exists ts' th' b', t' = NURollExpr ts' th' b') /\ settled_list t')); try eassumption.
    { intros s t' s' E. split; [|eapply list_settled; exact E]. cbn [eval_var_args] in E. rewrite run_bind in E. destruct (run (var_args_threshold mr th) s) as ([x|e|p] & s1); try discriminate E. rewrite run_bind in E.
      destruct (run (var_args_rolls mr ts) s1) as ([y|e|p] & s2); try discriminate E. rewrite run_bind in E. destruct (run (var_args_bonus mr b) s2) as ([z|e|p] & s3); try discriminate E. cbn in E. injection E as <- _. eauto. }
    intros s t' F' h1 H1 N1 L1 ((ts' & th' & b' & ->) & S). cbn beta iota. destruct (rep_u_inv _ _ _ _ _ _ H1) as (lst & bo & G & Fb & E & Hl & Hb & ->). eapply sim_load; [exact E|]. cbn beta iota.
    eapply sim_read; [eapply (check_sim _ _ _ _ _ _ _ Hl); [len|exact S|reflexivity]|]. intros bad h2 V2. destruct bad as [msg|]; [apply sim_ret; reflexivity|].
    pose proof (keeps_rep _ _ _ _ _ V2 H1) as H2. rd ev_ok. intros o h3 V3. destruct o; try apply sim_panic. apply sim_log. intros ds h4 V4.
    eapply sim_read; [apply sim_pure|]. intros s2 h5 V5. eapply sim_read; [apply sim_pure|]. intros mx h6 V6. eapply sim_read; [apply sim_pure|]. intros sm h7 V7. apply sim_ret. reflexivity.
  Qed.
  (** The same for the expression [e] of a command at [a]; the notation is made later. *)
  Lemma after_va_child {A} t a k e G h (P : node -> Prop) (f : unit -> hm A) (g : node -> comp A) : nth_error h a = Some (HCommand k e) -> rep h t e G -> NoDup (a :: G) -> (length (a :: G) < fuel)%nat ->
    (forall s t' s', run (eval_var_args mr t) s = (Ok t', s') -> P t') ->
    (forall t' F' h1, nth_error h1 a = Some (HCommand k e) -> rep h1 t' e F' -> NoDup (a :: F') -> (length (a :: F') < fuel)%nat -> P t' -> sim (a :: F') eqr h1 (f Datatypes.tt) (g t')) ->
    sim (a :: G) eqr h (hbind (h_eval_var_args mr fuel e) f) (cbind (eval_var_args mr t) g).
  Proof.
    intros E H N L HP K. pose proof N as N0. apply nodup_cons in N as (Na & N). pose proof (cell_lt _ _ _ E) as La.
    eapply sim_bind; [eapply (sim_know _ _ P); [eapply var_args_sim; [exact H|exact N|len]|exact HP]|intros z Hz; right; exact Hz|].
    intros u t' h1 V1 ((F' & Hr & Fit) & Pt). destruct u. exists (a :: F'). assert (fits h (a :: G) (a :: F')) as Fit1 by (apply fits_cons; assumption). split; [|intros z Hz; destruct Fit1 as (_ & _ & Fit1); destruct (Fit1 z Hz); auto].
    apply K; [eapply evolves_cell; eassumption|exact Hr|apply Fit1|destruct Fit1 as (_ & Ln & _); lia|exact Pt].
  Qed.
  Lemma hbind_assoc {A B C} F (R : C -> C -> heap -> Prop) h (m : hm A) (f : A -> hm B) (g : B -> hm C) c : sim F R h (hbind m (fun x => hbind (f x) g)) c -> sim F R h (hbind (hbind m f) g) c.
  Proof. intros H s. destruct (H s) as (o & h' & E & V & Q). exists o, h'. split; [|auto]. rewrite <- E. unfold hbind. destruct (m h s) as ([x|e|p] & h1 & s1); reflexivity. Qed.
  Lemma cbind_assoc {A B C D} F (R : D -> C -> heap -> Prop) h (m : hm D) (c : comp A) (f : A -> comp B) (g : B -> comp C) : sim F R h m (cbind c (fun x => cbind (f x) g)) -> sim F R h m (cbind (cbind c f) g).
  Proof. apply sim_ext. intros s. rewrite !run_bind. destruct (run c s) as ([x|e|p] & s1); try reflexivity. rewrite run_bind. reflexivity. Qed.
  Lemma b_comp_sim e a F h : rep h (NCommand CBRollComp e) a F -> NoDup F -> (length F < fuel)%nat ->
    sim F eqr h (let! c := hload a in match c with HCommand _ e => h_execute_b_roll_comp mr game_id fuel a e | _ => htype end) (execute_b_roll_comp mr game_id e).
  Proof.
    intros H N L. destruct (rep_command_inv _ _ _ _ _ H) as (x & G & E & He & ->). eapply sim_load; [exact E|]. unfold h_execute_b_roll_comp, execute_b_roll_comp.
    destruct (match e with NInfix op _ _ => is_basic_op op | _ => false end) eqn:Eb.
    2:{ replace (match e with NInfix _ _ _ => _ | _ => panic_type end) with (@panic_type result) by (destruct e; try reflexivity; rewrite Eb; reflexivity). eapply basic_fail; [exact He|]. intros op l r ->. exact Eb. }
    destruct e as [| | | | | |op l r| | | | |]; try discriminate Eb. rewrite Eb. destruct (rep_infix_inv _ _ _ _ _ _ He) as (y & z & Fl & Fr & Ex & Hl & Hr & EG). eapply basic_sim; [exact Ex|exact Hl|exact Hr|exact Eb|]. unfold h_var_args_notation.
    apply hbind_assoc. apply sim_ext with (c := (e1 <- eval_var_args mr (NInfix op l r) ;; s1 <- clift (infix_notation e1 true) ;; o <- eval mr (NCommand CBRollComp e1) ;;
      match o with OBRollComp values succ => with_dice game_id [parenthesize s1; joined_elements "," values; ("成功数" ++ itoa succ)%string] Unspecified | _ => panic_type end)%comp).
    { intros s. unfold eval_var_args_notation. rewrite !run_bind. destruct (run (eval_var_args mr (NInfix op l r)) s) as ([e1|err|p] & s1); try reflexivity. rewrite !run_bind. destruct (run (clift (infix_notation e1 true)) s1) as ([x1|err|p] & s2); reflexivity. }
    eapply (after_va_child _ _ _ _ _ _ (fun _ => True)); [exact E|exact He|exact N|exact L|auto|]. intros t' F' h1 E1 H1 N1 L1 _. rd notation_ok. intros s h2 V2. pose proof (keeps_rep _ _ _ _ _ V2 H1) as H2. pose proof (keeps_cell _ _ _ _ V2 E1) as E2.
    pose proof (rep_command _ _ _ _ _ _ E2 H2) as Hc. rd ev_ok. intros o h3 V3. destruct o; try apply sim_panic. apply with_dice_sim.
  Qed.
  Lemma d_comp_sim e a F h : rep h (NCommand CDRollComp e) a F -> NoDup F -> (length F < fuel)%nat ->
    sim F eqr h (let! c := hload a in match c with HCommand _ e => h_execute_d_roll_comp mr game_id fuel e | _ => htype end) (execute_d_roll_comp mr game_id e).
  Proof.
    intros H N L. destruct (rep_command_inv _ _ _ _ _ H) as (x & G & E & He & ->). eapply sim_load; [exact E|]. unfold h_execute_d_roll_comp, execute_d_roll_comp. destruct (rep_cell _ _ _ _ He) as (c & Ec & _). pose proof (rep_shape _ _ _ _ _ He Ec) as Sh.
    eapply sim_load; [exact Ec|]. apply nodup_cons in N as (Na & N). eapply sim_grow; [|intros z Hz; right; exact Hz].
    destruct c as [|?|?|?|?|op y z|?|? ?|? ?|?|? ?], e as [| |?|?|?|?|op' l r|?|? ?|? ? ?|?|? ?]; try contradiction Sh; try apply sim_err. subst op'. destruct op as [| | |m|cmp|k]; try apply sim_err.
    eapply (after_va _ _ _ _ (fun t' => exists l' r', t' = NInfix (OpCmp cmp) l' r')); [exact He|exact N|len| |].
    { intros s t' s' Er. destruct (infix_settled _ _ _ _ _ _ _ Er) as (l' & r' & -> & _). eauto. }
    intros s t' F' h1 H1 N1 L1 (l' & r' & ->). cbn beta iota. eapply sim_bind; [eapply (sim_know _ _ (fun t' => exists l' r', t' = NInfix (OpCmp cmp) l' r')); [apply determine_sim; [exact H1|exact N1|exact L1]|]|auto|].
    { intros s0 b s1 Er. eapply determine_infix; exact Er. }
    intros u t2 h2 V2 ((F2 & H2 & Fit) & (l2 & r2 & ->)). assert (length F2 < fuel)%nat as L2 by (destruct Fit as (_ & ? & _); lia). assert (NoDup F2) as N2 by apply Fit.
    exists F2. split; [|intros z0 Hz; destruct Fit as (_ & _ & Fit); apply Fit; exact Hz]. destruct (rep_infix_inv _ _ _ _ _ _ H2) as (p & q & Fl & Fr & E2 & Hl2 & Hr2 & ->). cbn beta iota. eapply sim_load; [exact E2|]. cbn beta iota.
    rd notation_ok. intros s2 h3 V3. pose proof (keeps_rep _ _ _ _ _ V3 Hl2) as Hl3. pose proof (keeps_rep _ _ _ _ _ V3 Hr2) as Hr3. pose proof (keeps_cell _ _ _ _ V3 E2) as E3.
    unfold eval_compare_left, h_eval_compare_left.
    apply sim_ext with (c := (o0 <- eval mr l2 ;; v <- obj_int o0 ;; o <- eval mr (NInfix (OpCmp cmp) (NInt v) r2) ;; CLog (fun ds => match o with OBool b => CRet (Result game_id [parenthesize s; s2; itoa v; if b then "成功"%string else "失敗"%string] ds (if b then Success else Failure) false) | _ => CErr ("DRollComp: result is not a Boolean: " ++ obj_type o)%string end))%comp).
    { intros s0. rewrite !run_bind. destruct (run (eval mr l2) s0) as ([o0|err|pp] & s1); try reflexivity. rewrite run_bind. reflexivity. }
    assert (forall s0, (let! lo := (let! c := hload x in match c with HInfix _ l _ => let! o := h_eval mr fuel l in let! x0 := int_node o in let! _ := set_left x x0 in hret o | _ => htype end) in
        let! o := h_eval mr fuel x in let! ds := h_log in match o with OBool b => hret (Result game_id [parenthesize s; s2; inspect lo; if b then "成功"%string else "失敗"%string] ds (if b then Success else Failure) false) | _ => herr ("DRollComp: result is not a Boolean: " ++ obj_type o)%string end) h3 s0
      = (let! lo := h_eval mr fuel p in let! x0 := int_node lo in let! _ := set_left x x0 in
        let! o := h_eval mr fuel x in let! ds := h_log in match o with OBool b => hret (Result game_id [parenthesize s; s2; inspect lo; if b then "成功"%string else "失敗"%string] ds (if b then Success else Failure) false) | _ => herr ("DRollComp: result is not a Boolean: " ++ obj_type o)%string end) h3 s0) as Eq.
    { intros s0. unfold hbind, hload. rewrite E3. destruct (h_eval mr fuel p h3 s0) as ([lo|err|pp] & h4 & s4); try reflexivity. destruct (int_node lo h4 s4) as ([x0|err|pp] & h5 & s5); try reflexivity. destruct (set_left x x0 h5 s5) as ([u0|err|pp] & h6 & s6); reflexivity. }
    enough (sim (x :: Fl ++ Fr) eqr h3 (let! lo := h_eval mr fuel p in let! x0 := int_node lo in let! _ := set_left x x0 in
        let! o := h_eval mr fuel x in let! ds := h_log in match o with OBool b => hret (Result game_id [parenthesize s; s2; inspect lo; if b then "成功"%string else "失敗"%string] ds (if b then Success else Failure) false) | _ => herr ("DRollComp: result is not a Boolean: " ++ obj_type o)%string end)
       (o0 <- eval mr l2 ;; v <- obj_int o0 ;; o <- eval mr (NInfix (OpCmp cmp) (NInt v) r2) ;; CLog (fun ds => match o with OBool b => CRet (Result game_id [parenthesize s; s2; itoa v; if b then "成功"%string else "失敗"%string] ds (if b then Success else Failure) false) | _ => CErr ("DRollComp: result is not a Boolean: " ++ obj_type o)%string end))%comp) as K.
    { intros s0. destruct (K s0) as (o & h' & Eo & V & Q). exists o, h'. split; [|split; [exact V|exact Q]]. rewrite <- Eo. apply Eq. }
    rd ev_ok. intros lo h4 V4. destruct lo; try (intros st; eexists; exists h4; split; [reflexivity|split; [apply evolves_refl|reflexivity]]). apply int_lit_sim. cbn [obj_int cbind].
    set (h5 := h4 ++ [HInt v]). pose proof (keeps_cell _ _ _ _ V4 E3) as E4. pose proof (cell_lt _ _ _ E4) as La.
    assert (nth_error h5 x = Some (HInfix (OpCmp cmp) p q)) as E5 by (unfold h5; rewrite nth_error_app1 by exact La; exact E4).
    eapply (sim_step _ []); [intros s0; eapply set_left_run; exact E5|apply evolves_put; left; reflexivity| |intros z0 []].
    set (h6 := put h5 x _). assert (length h5 = S (length h4)) as L5 by (unfold h5; rewrite app_length; cbn; lia).
    assert (rep h6 (NInfix (OpCmp cmp) (NInt v) r2) x (x :: [length h4] ++ Fr)) as H6.
    { eapply rep_infix; [apply put_same; lia|apply rep_int; unfold h6; rewrite put_other by lia; apply nth_last|]. eapply evolves_rep; [apply (evolves_put [x]); left; reflexivity| |].
      - eapply keeps_rep; [|exact Hr3]. eapply keeps_trans; [exact V4|apply evolves_alloc].
      - intros z0 Hz [<-|[]]. apply nodup_cons in N2 as (N2 & _). apply N2, in_app_iff. auto. }
    eapply sim_read; [eapply ev_ok; [exact H6|]|].
    { destruct (rep_root _ _ _ _ Hl2) as (? & ->). cbn [length app] in *. rewrite ?app_length in *. lia. }
    intros o h7 V7. apply sim_log. intros ds h8 V8. destruct o; try apply sim_err. apply sim_ret. reflexivity.
  Qed.
  Lemma u_comp_sim e a F h : rep h (NCommand CURollComp e) a F -> NoDup F -> (length F < fuel)%nat ->
    sim F eqr h (let! c := hload a in match c with HCommand _ e => h_execute_u_roll_comp mr game_id fuel a e | _ => htype end) (execute_u_roll_comp mr game_id e).
  Proof.
    intros H N L. destruct (rep_command_inv _ _ _ _ _ H) as (x & G & E & He & ->). eapply sim_load; [exact E|]. unfold h_execute_u_roll_comp, execute_u_roll_comp.
    destruct (match e with NInfix op _ _ => is_basic_op op | _ => false end) eqn:Eb.
    2:{ replace (match e with NInfix _ _ _ => _ | _ => panic_type end) with (@panic_type result) by (destruct e; try reflexivity; rewrite Eb; reflexivity). eapply basic_fail; [exact He|]. intros op l r ->. exact Eb. }
    destruct e as [| | | | | |op l r| | | | |]; try discriminate Eb. rewrite Eb. destruct (rep_infix_inv _ _ _ _ _ _ He) as (y & z & Fl & Fr & Ex & Hl & Hr & EG). eapply basic_sim; [exact Ex|exact Hl|exact Hr|exact Eb|].
    eapply (after_va_child _ _ _ _ _ _ (fun t' => exists l' r', t' = NInfix op l' r' /\ settled_list l')); [exact E|exact He|exact N|exact L|intros s t' s' Er; eapply infix_settled; exact Er|].
    clear - Eb. intros t' F' h1 E1 H1 N1 L1 (l' & r' & -> & S). pose proof (rep_command _ _ _ _ _ _ E1 H1) as Hc. rd notation_ok. intros s h2 V2. pose proof (keeps_rep _ _ _ _ _ V2 H1) as H2. pose proof (keeps_rep _ _ _ _ _ V2 Hc) as Hc2.
    destruct (rep_infix_inv _ _ _ _ _ _ H2) as (y & z & Fl & Fr & Ex & Hl & Hr & ->). eapply basic_sim; [exact Ex|exact Hl|exact Hr|exact Eb|]. cbn beta iota.
    destruct (rep_cell _ _ _ _ Hl) as (c & Ec & _). pose proof (rep_shape _ _ _ _ _ Hl Ec) as Sh. eapply sim_load; [exact Ec|].
    destruct c as [|?|?|?|?|? ? ?|?|? ?|lst bo|?|? ?], l' as [| |?|?|?|?|? ? ?|?|? ?|tsx thx b|?|? ?]; try contradiction Sh; try apply sim_panic. cbn beta iota in *.
    destruct (rep_u_inv _ _ _ _ _ _ Hl) as (lst' & bo' & G & Fb & E' & Hg & Hb & ->). rewrite Ec in E'. injection E' as <- <-. cbn [settled_list] in S.
    eapply sim_read; [eapply (check_sim _ _ _ _ _ _ _ Hg); [len|exact S|reflexivity]|]. intros bad h3 V3. destruct bad as [msg|]; [apply sim_ret; reflexivity|].
    pose proof (keeps_rep _ _ _ _ _ V3 Hc2) as Hc3. rd ev_ok. intros o h4 V4. destruct o; try apply sim_panic. apply sim_log. intros ds h5 V5. eapply sim_read; [apply sim_pure|]. intros s2 h6 V6. apply sim_ret. reflexivity.
  Qed.
  Lemma r_comp_sim e a F h : rep h (NCommand CRRollComp e) a F -> NoDup F -> (length F < fuel)%nat ->
    sim F eqr h (let! c := hload a in match c with HCommand _ e => h_execute_r_roll_comp mr game_id fuel a e | _ => htype end) (execute_r_roll_comp mr game_id e).
  Proof.
    intros H N L. destruct (rep_command_inv _ _ _ _ _ H) as (x & G & E & He & ->). eapply sim_load; [exact E|]. unfold h_execute_r_roll_comp, execute_r_roll_comp.
    destruct (match e with NInfix op _ _ => is_basic_op op | _ => false end) eqn:Eb.
    2:{ replace (match e with NInfix _ _ _ => _ | _ => panic_type end) with (@panic_type result) by (destruct e; try reflexivity; rewrite Eb; reflexivity). eapply basic_fail; [exact He|]. intros op l r ->. exact Eb. }
    destruct e as [| | | | | |op l r| | | | |]; try discriminate Eb. rewrite Eb. destruct (rep_infix_inv _ _ _ _ _ _ He) as (y & z & Fl & Fr & Ex & Hl & Hr & EG). eapply basic_sim; [exact Ex|exact Hl|exact Hr|exact Eb|].
    eapply (after_va_child _ _ _ _ _ _ (fun t' => exists l' r', t' = NInfix op l' r' /\ settled_list l')); [exact E|exact He|exact N|exact L|intros s t' s' Er; eapply infix_settled; exact Er|].
    clear - Eb. intros t' F' h1 E1 H1 N1 L1 (l' & r' & -> & S). destruct (rep_infix_inv _ _ _ _ _ _ H1) as (y & z & Fl & Fr & Ex & Hl & Hr & ->).
    destruct (rep_cell _ _ _ _ Hl) as (c & Ec & _). pose proof (rep_shape _ _ _ _ _ Hl Ec) as Sh.
    (* the rest, once the threshold is set *)
    assert (forall ts th h2 G2, nth_error h2 a = Some (HCommand CRRollComp x) -> nth_error h2 x = Some (HInfix op y z) -> rep h2 (NRRollList ts th) y G2 -> rep h2 r' z Fr -> (length (a :: x :: G2 ++ Fr) < fuel)%nat -> settled th ->
      sim [] eqr h2
        (let! s1 := h_notation fuel a true in let! (_, l, _) := h_basic x in let! bad := h_check_threshold mr fuel missing_r l in
         match bad with
         | Some msg => hret (no_dice game_id [parenthesize s1; msg])
         | None => let! o := h_eval mr fuel a in
             match o with
             | ORRollComp groups succ => let! ds := h_log in let! s2 := hpure (clift (format_r_roll_values groups)) in hret (Result game_id [parenthesize s1; s2; ("成功数" ++ itoa succ)%string] ds Unspecified false)
             | _ => htype
             end
         end)
        (s1 <- clift (infix_notation (NCommand CRRollComp (NInfix op (NRRollList ts th) r')) true) ;; bad <- check_r_roll_threshold mr th ;;
         match bad with
         | Some msg => CRet (no_dice game_id [parenthesize s1; msg])
         | None => o <- eval mr (NCommand CRRollComp (NInfix op (NRRollList ts th) r')) ;;
             match o with
             | ORRollComp groups succ => CLog (fun ds => s2 <- clift (format_r_roll_values groups) ;; CRet (Result game_id [parenthesize s1; s2; ("成功数" ++ itoa succ)%string] ds Unspecified false))
             | _ => panic_type
             end
         end)%comp) as Rest.
    { clear - Eb. intros ts th h2 G2 Ea Ex Hl Hr L S. pose proof (rep_infix _ _ _ _ _ _ _ _ _ Ex Hl Hr) as He. pose proof (rep_command _ _ _ _ _ _ Ea He) as Hc. rd notation_ok. intros s1 h3 V3.
      pose proof (keeps_rep _ _ _ _ _ V3 Hl) as Hl3. pose proof (keeps_rep _ _ _ _ _ V3 Hr) as Hr3. pose proof (keeps_cell _ _ _ _ V3 Ex) as Ex3. pose proof (keeps_rep _ _ _ _ _ V3 Hc) as Hc3.
      eapply basic_sim; [exact Ex3|exact Hl3|exact Hr3|exact Eb|]. cbn beta iota. eapply sim_read; [eapply (check_sim _ _ _ _ _ _ _ Hl3); [len|exact S|reflexivity]|]. intros bad h4 V4. destruct bad as [msg|]; [apply sim_ret; reflexivity|].
      pose proof (keeps_rep _ _ _ _ _ V4 Hc3) as Hc4. rd ev_ok. intros o h5 V5. destruct o; try apply sim_panic. apply sim_log. intros ds h6 V6. eapply sim_read; [apply sim_pure|]. intros s2 h7 V7. apply sim_ret. reflexivity. }
    unfold h_set_reroll_threshold. apply hbind_assoc. eapply sim_load; [exact E1|]. cbn beta iota. apply hbind_assoc. eapply basic_sim; [exact Ex|exact Hl|exact Hr|exact Eb|]. cbn beta iota. apply hbind_assoc. eapply sim_load; [exact Ec|].
    destruct c as [|?|?|?|?|? ? ?|?|rolls th0|? ?|?|? ?], l' as [| |?|?|?|?|? ? ?|?|tsx thx|? ? ?|?|? ?]; try contradiction Sh; try apply sim_panic.
    destruct (rep_rlist_inv _ _ _ _ _ Hl) as (rolls' & th1 & Fr' & Ft & E' & Hrs & Ht & ->). rewrite Ec in E'. injection E' as <- <-. cbn [settled_list] in S. cbn beta iota. apply hbind_assoc. unfold set_reroll_threshold.
    eapply is_nil_sim; [exact Ht|]. erewrite (rep_not_null _ thx) by exact Ht. destruct (is_nil thx) eqn:En.
    - apply hbind_assoc. apply cbind_assoc. eapply sim_read; [eapply ev_ok; [exact Hr|len]|]. intros o h2 V2. apply hbind_assoc. apply cbind_assoc. apply int_node_sim. intros v.
      pose proof (keeps_cell _ _ _ _ V2 Ec) as Ec2. pose proof (cell_lt _ _ _ Ec2) as Ly. assert (evolves [] h1 (h2 ++ [HInt v])) as V3 by (eapply keeps_trans; [exact V2|apply evolves_alloc]).
      pose proof (cell_lt _ _ _ (keeps_cell _ _ _ _ V2 E1)) as La. pose proof (cell_lt _ _ _ (keeps_cell _ _ _ _ V2 Ex)) as Lx.
      eapply (sim_step _ []); [intros s; reflexivity|apply evolves_put; right; right; apply in_app_iff; left; left; reflexivity| |intros w []].
      apply nodup_cons in N1 as (Na & N1). apply nodup_cons in N1 as (Nx & N1). apply nodup_app in N1 as (Nl & Nr & Nd). apply nodup_cons in Nl as (Ny & Nl). apply nodup_app in Nl as (Nt & Nrs & Nd2).
      assert (y <> a) as D1 by (intros ->; apply Na; right; apply in_app_iff; left; left; reflexivity). assert (y <> x) as D2 by (intros ->; apply Nx, in_app_iff; left; left; reflexivity).
      cbn [cbind]. eapply (Rest tsx (NInt v) _ (y :: [length h2] ++ Fr')).
      + rewrite put_other by exact D1. eapply keeps_cell; [exact V3|exact E1].
      + rewrite put_other by exact D2. eapply keeps_cell; [exact V3|exact Ex].
      + eapply rep_rlist; [apply put_same; rewrite app_length; lia| |apply rep_int; rewrite put_other by lia; apply nth_last].
        eapply evolves_reps; [apply (evolves_put [y]); left; reflexivity|eapply keeps_reps; [exact V3|exact Hrs]|]. intros w Hw [<-|[]]. apply Ny, in_app_iff. auto.
      + eapply evolves_rep; [apply (evolves_put [y]); left; reflexivity|eapply keeps_rep; [exact V3|exact Hr]|]. intros w Hw [<-|[]]. exact (Nd y (or_introl eq_refl) Hw).
      + destruct (rep_root _ _ _ _ Ht) as (? & ->). cbn [length app] in *. rewrite ?app_length in *. cbn [length] in *. rewrite ?app_length in *. lia.
      + right. eauto.
    - cbn [cbind]. apply (sim_grow []); [|intros w []]. intros s. exact (Rest tsx thx h1 _ E1 Ex Hl Hr L1 S s).
  Qed.
  Theorem execute_sim t a F h : rep h t a F -> NoDup F -> (length F < fuel)%nat -> sim F eqr h (h_execute mr game_id fuel a) (execute mr game_id t).
  Proof.
    intros H N L. destruct (rep_cell _ _ _ _ H) as (c & E & _ & _ & Tc). pose proof (rep_shape _ _ _ _ _ H E) as Sh.
    assert (forall m, sim F eqr h (let! c := hload a in m c) (execute mr game_id t) <-> sim F eqr h (m c) (execute mr game_id t)) as Ld.
    { intros m. unfold sim. split; intros Hs s; specialize (Hs s); unfold hbind, hload in *; rewrite E in *; exact Hs. }
    apply Ld. destruct t as [| |v|s|ds|t|op l r|ts|ts th|ts th b|items|k t], c as [|v'|s'|ds'|r'|op' x y|rolls|rolls th'|lst bo|items'|k' e']; try contradiction Sh; try (rewrite Tc; apply sim_err).
    - apply b_list_sim; assumption.
    - apply r_list_sim; assumption.
    - apply u_expr_sim; assumption.
    - subst items'. eapply sim_grow; [eapply choice_sim; [exact H|exact L]|intros z []].
    - subst k'. destruct k.
      + eapply sim_grow; [eapply calc_sim; [exact H|exact L]|intros z []].
      + apply d_expr_sim; assumption.
      + apply -> (Ld (fun c => match c with HCommand _ e => h_execute_d_roll_comp mr game_id fuel e | _ => htype end)). apply d_comp_sim; assumption.
      + apply -> (Ld (fun c => match c with HCommand _ e => h_execute_b_roll_comp mr game_id fuel a e | _ => htype end)). apply b_comp_sim; assumption.
      + apply -> (Ld (fun c => match c with HCommand _ e => h_execute_r_roll_comp mr game_id fuel a e | _ => htype end)). apply r_comp_sim; assumption.
      + apply -> (Ld (fun c => match c with HCommand _ e => h_execute_u_roll_comp mr game_id fuel a e | _ => htype end)). apply u_comp_sim; assumption.
  Qed.
End Exec.
