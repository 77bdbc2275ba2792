(** EvalVarArgs and DetermineValues in memory: proofs. *)
From Verif Require Import ProofBase GoMem HeapEval SpecHeap CompProofs HeapProofs.
Open Scope list_scope.
Open Scope Z_scope.

Lemma nodup_app {A} (l l' : list A) : NoDup (l ++ l') <-> NoDup l /\ NoDup l' /\ forall x, In x l -> ~ In x l'.
Proof.
  induction l as [|a l IH]; cbn [app].
  - split; [intros H; split; [constructor|]; split; [exact H|]; intros x []|intros (_ & H & _); exact H].
  - split.
    + intros H. inversion H as [|? ? Hn Hd]. subst. apply IH in Hd as (H1 & H2 & H3). rewrite in_app_iff in Hn. split; [constructor; auto|]. split; [exact H2|]. intros x [<-|Hx]; auto.
    + intros (H1 & H2 & H3). inversion H1 as [|? ? Hn Hd]. subst. constructor.
      * rewrite in_app_iff. intros [K|K]; [auto|]. apply (H3 a); [left; reflexivity|exact K].
      * apply IH. split; [exact Hd|]. split; [exact H2|]. intros x Hx. apply H3. right. exact Hx.
Qed.
Lemma nodup_cons {A} (a : A) l : NoDup (a :: l) <-> ~ In a l /\ NoDup l.
Proof. split; [intros H; inversion H; auto|intros (H1 & H2); constructor; assumption]. Qed.

(** The tree at [a], which used [F] in [h], is now [t']; it uses no other node that was there before. *)
Definition fits (h : heap) (F F' : list nat) : Prop := NoDup F' /\ (length F' <= length F)%nat /\ forall x, In x F' -> In x F \/ (length h <= x)%nat.
Definition upd (h : heap) (F : list nat) (a : nat) (t' : node) (h' : heap) : Prop := exists F', rep h' t' a F' /\ fits h F F'.
Definition upds (h : heap) (F : list nat) (l : list nat) (ts' : list vroll) (h' : heap) : Prop := exists F', reps h' ts' l F' /\ fits h F F'.
Lemma fits_refl h F : NoDup F -> fits h F F.
Proof. intros H. split; [exact H|]. split; [lia|]. auto. Qed.
Lemma fits_apart h A B A' x : NoDup (A ++ B) -> (forall x, In x B -> (x < length h)%nat) -> fits h A A' -> In x A' -> ~ In x B.
Proof. intros N DB (_ & _ & H1) Ha Hb. apply nodup_app in N as (_ & _ & N). destruct (H1 x Ha) as [H|H]; [exact (N x H Hb)|]. specialize (DB x Hb). lia. Qed.
Lemma fits_app h h1 A B A' B' : NoDup (A ++ B) -> (forall x, In x B -> (x < length h)%nat) -> (length h <= length h1)%nat -> (forall x, In x A' -> (x < length h1)%nat) ->
  fits h A A' -> fits h1 B B' -> fits h (A ++ B) (A' ++ B').
Proof.
  intros N DB L DA HA (N2 & L2 & H2). pose proof HA as (N1 & L1 & H1). split; [|split].
  - apply nodup_app. split; [exact N1|]. split; [exact N2|]. intros x Ha Hb. destruct (H2 x Hb) as [H|H]; [|specialize (DA x Ha); lia]. exact (fits_apart h A B A' x N DB HA Ha H).
  - rewrite !app_length. lia.
  - intros x Hx. apply in_app_iff in Hx as [Hx|Hx]; [destruct (H1 x Hx); [left; apply in_app_iff; auto|auto]|]. destruct (H2 x Hx); [left; apply in_app_iff; auto|right; lia].
Qed.
Lemma fits_cons h a F F' : ~ In a F -> (a < length h)%nat -> fits h F F' -> fits h (a :: F) (a :: F').
Proof.
  intros Ha L (N & Ln & H). split; [|split].
  - constructor; [|exact N]. intros K. destruct (H a K); [contradiction|lia].
  - cbn. lia.
  - intros x [<-|Hx]; [left; left; reflexivity|]. destruct (H x Hx); [left; right; assumption|auto].
Qed.
(** First the nodes [A], then the nodes [B] *)
Lemma fits_later h h1 B B' : (length h <= length h1)%nat -> fits h1 B B' -> fits h B B'.
Proof. intros L (N & Ln & H). split; [exact N|]. split; [exact Ln|]. intros x Hx. destruct (H x Hx); [auto|right; lia]. Qed.
Lemma fits_new h F x y : (length h <= x)%nat -> (length h <= y)%nat -> x <> y -> (2 <= length F)%nat -> fits h F [x; y].
Proof. intros Hx Hy N L. split; [|split; [exact L|]]. - constructor; [intros [K|[]]; congruence|]. constructor; [intros []|constructor]. - intros z [<-|[<-|[]]]; auto. Qed.
Lemma cell_lt {A} (h : list A) a c : nth_error h a = Some c -> (a < length h)%nat.
Proof. intros E. apply nth_error_Some. congruence. Qed.

(** A last step of the tree in memory *)
Lemma sim_done {A B} F (R : A -> B -> heap -> Prop) h (m : hm A) x b h1 : (forall s, m h s = (Ok x, (h1, s))) -> evolves F h h1 -> R x b h1 -> sim F R h m (CRet b).
Proof. intros E V H s. exists (Ok x), h1. split; [apply E|]. split; [exact V|exact H]. Qed.
Lemma sim_map {A B C} F (R : A -> B -> heap -> Prop) (S : A -> C -> heap -> Prop) h m (c : comp B) (g : B -> C) :
  sim F R h m c -> (forall a b h', evolves F h h' -> R a b h' -> S a (g b) h') -> sim F S h m (cbind c (fun b => CRet (g b))).
Proof.
  intros H K s. destruct (H s) as (o & h' & E & V & Q). exists o, h'. rewrite run_bind. destruct (run c s) as (o', s'). cbn [fst snd] in *.
  destruct o as [a|e|p], o' as [b|e'|p']; cbn in Q; try contradiction; cbn; (split; [exact E|]); (split; [exact V|]); auto.
Qed.
Lemma set_left_run h a op l r x s : nth_error h a = Some (HInfix op l r) -> set_left a x h s = (Ok tt, (put h a (HInfix op x r), s)).
Proof. intros E. unfold set_left, hbind, hload. rewrite E. reflexivity. Qed.
Lemma set_right_run h a op l r x s : nth_error h a = Some (HInfix op l r) -> set_right a x h s = (Ok tt, (put h a (HInfix op l x), s)).
Proof. intros E. unfold set_right, hbind, hload. rewrite E. reflexivity. Qed.
Lemma set_right_neg_run h a r x s : nth_error h a = Some (HNeg r) -> set_right a x h s = (Ok tt, (put h a (HNeg x), s)).
Proof. intros E. unfold set_right, hbind, hload. rewrite E. reflexivity. Qed.

Section Args.
  Variable mr : Z.
  Lemma eval_ok f t a F h : rep h t a F -> (length F < f)%nat -> sim [] eqr h (h_eval mr f a) (eval mr t).
  Proof. apply h_eval_sim. Qed.
  Lemma roll_args_sim f op l r a F h : rep h (NInfix op l r) a F -> NoDup F -> (length F < S f)%nat ->
    sim [a] (fun _ lr h' => upd h F a (NInfix op (fst lr) (snd lr)) h') h (h_roll_args mr f a) (eval_roll_args mr l r).
  Proof.
    intros Hr N L. inversion Hr as [| | | | |? ? x y ? ? Fl Fr E Hx Hy| | | | | |]; subst. cbn [length] in L. rewrite app_length in L. unfold h_roll_args, eval_roll_args.
    eapply sim_load; [exact E|]. cbn beta iota. eapply sim_read; [eapply eval_ok; [exact Hx|lia]|]. intros lo h1 V1. pose proof (keeps_rep _ _ _ _ _ V1 Hy) as Hy1.
    eapply sim_read; [eapply eval_ok; [exact Hy1|lia]|]. intros ro h2 V2. assert (evolves [] h h2) as V by (eapply keeps_trans; eassumption). pose proof (keeps_cell _ _ _ _ V E) as E2. pose proof (cell_lt _ _ _ E2) as La.
    apply int_node_sim. intros lv. set (h3 := h2 ++ [HInt lv]). assert (nth_error h3 a = Some (HInfix op x y)) as E3 by (unfold h3; rewrite nth_error_app1 by exact La; exact E2).
    eapply (sim_step _ [a]); [intros s; eapply set_left_run; exact E3|apply evolves_put; left; reflexivity| |auto].
    set (h4 := put h3 a (HInfix op (length h2) y)). assert (length h4 = S (length h2)) as L4 by (unfold h4, h3; rewrite put_len, app_length; cbn; lia).
    assert (nth_error h4 a = Some (HInfix op (length h2) y)) as E4 by (apply put_same; unfold h3; rewrite app_length; lia).
    assert (nth_error h4 (length h2) = Some (HInt lv)) as E4' by (unfold h4; rewrite put_other by lia; apply nth_last).
    apply int_node_sim. intros rv. eapply sim_done.
    - intros s. eapply set_right_run. rewrite nth_error_app1 by lia. exact E4.
    - apply evolves_put. left. reflexivity.
    - exists [a; length h2; length h4]. destruct V as (LV & _). split.
      + change [a; length h2; length h4] with (a :: [length h2] ++ [length h4]). eapply rep_infix.
        * apply put_same. rewrite app_length. lia.
        * apply rep_int. rewrite put_other by lia. rewrite nth_error_app1 by lia. exact E4'.
        * apply rep_int. rewrite put_other by lia. apply nth_last.
      + pose proof (cell_lt _ _ _ E) as Lh. destruct (rep_root _ _ _ _ Hx) as (G1 & E1), (rep_root _ _ _ _ Hy) as (G2 & E2'). apply nodup_cons in N as (Na & N). apply fits_cons; [exact Na|exact Lh|].
        apply fits_new; try lia. rewrite app_length, E1, E2'. cbn. lia.
  Qed.
  Lemma var_args_of_sim f k l r a F h : rep h (NInfix (OpVar k) l r) a F -> NoDup F -> (length F < S f)%nat ->
    sim [a] (fun _ lr h' => upd h F a (NInfix (OpVar k) (fst lr) (snd lr)) h') h (h_var_args_of mr f a) (var_args_of_vroll mr k l r).
  Proof.
    intros Hr N L. unfold h_var_args_of. inversion Hr as [| | | | |? ? x y ? ? Fl Fr E Hx Hy| | | | | |]; subst. eapply sim_load; [exact E|]. destruct k; cbn [var_args_of_vroll]; try (apply roll_args_sim; assumption). apply sim_err.
  Qed.
  Lemma rep_head h t a F : rep h t a F -> In a F.
  Proof. intros H. destruct (rep_root _ _ _ _ H) as (F' & ->). left. reflexivity. Qed.
  Lemma var_args_rolls_sim f ts : forall l F h, reps h ts l F -> NoDup F -> (length F < S f)%nat ->
    sim F (fun _ ts' h' => upds h F l ts' h') h (h_var_args_rolls mr f l) (var_args_rolls mr ts).
  Proof.
    induction ts as [|v ts IH]; intros l F h H N L; inversion H as [|k x y ? a rest Fa Fs Ha Hr]; subst; cbn [h_var_args_rolls var_args_rolls].
    - apply sim_ret. exists []. split; [exact H|apply fits_refl; exact N].
    - rewrite app_length in L. pose proof N as N0. apply nodup_app in N as (Na & Ns & Nd). eapply sim_bind; [eapply var_args_of_sim; [exact Ha|exact Na|lia]| |].
      { intros z [<-|[]]. apply in_app_iff. left. eapply rep_head; exact Ha. }
      intros u (x', y') h1 V1 (Fa' & Ha' & Fit). cbn [fst snd] in Ha'. exists Fs. split; [|intros z Hz; left; apply in_app_iff; auto].
      assert (reps h1 ts rest Fs) as Hr1. { eapply evolves_reps; [exact V1|exact Hr|]. intros z Hz [<-|[]]. exact (Nd a (rep_head _ _ _ _ Ha) Hz). }
      cbn beta iota. eapply sim_map; [eapply IH; [exact Hr1|exact Ns|lia]|]. intros u' ts' h2 V2 (Fs' & Hs' & Fit'). assert (length h <= length h1)%nat as LV by (destruct V1; assumption).
      assert (forall z, In z Fs -> (z < length h)%nat) as Ds by (intros z Hz; eapply reps_dom; eassumption).
      exists (Fa' ++ Fs'). split.
      + apply reps_cons; [|exact Hs']. eapply evolves_rep; [exact V2|exact Ha'|]. intros z Hz. eapply fits_apart; eassumption.
      + eapply (fits_app h h1); try eassumption. intros z Hz. eapply rep_dom; eassumption.
  Qed.
  Lemma threshold_sim f ts tt a rolls th F Ft h : nth_error h a = Some (HRRollList rolls th) -> reps h ts rolls F -> rep h tt th Ft -> NoDup (a :: Ft ++ F) -> (length Ft < f)%nat ->
    sim [a] (fun (_ : unit) tt' h' => exists th' Ft', nth_error h' a = Some (HRRollList rolls th') /\ rep h' tt' th' Ft' /\ reps h' ts rolls F /\ fits h Ft Ft') h
      (h_var_args_threshold mr f a rolls th)
      (var_args_threshold mr tt).
  Proof.
    intros E Hr Ht N L. unfold var_args_threshold, h_var_args_threshold. erewrite rep_not_null by exact Ht. eapply is_nil_sim; [exact Ht|]. apply nodup_cons in N as (Na & N). rewrite in_app_iff in Na. apply nodup_app in N as (Nt & Nr & Nd).
    destruct (is_nil tt).
    - apply sim_ret. exists th, Ft. auto using fits_refl.
    - eapply sim_read; [eapply eval_ok; [exact Ht|exact L]|]. intros o h1 V1. pose proof (keeps_cell _ _ _ _ V1 E) as E1. pose proof (cell_lt _ _ _ E1) as La. assert (length h <= length h1)%nat as LV by (destruct V1; assumption).
      apply int_node_sim. intros v. eapply sim_done; [intros s; reflexivity|apply evolves_put; left; reflexivity|]. exists (length h1), [length h1].
      split; [apply put_same; rewrite app_length; lia|]. split; [apply rep_int; rewrite put_other by lia; apply nth_last|]. split.
      + eapply evolves_reps; [apply (evolves_put [a]); left; reflexivity| |intros z Hz [<-|[]]; auto]. eapply keeps_reps; [|exact Hr]. eapply keeps_trans; [exact V1|apply evolves_alloc].
      + split; [constructor; [intros []|constructor]|]. split; [destruct (rep_root _ _ _ _ Ht) as (G & ->); cbn; lia|]. intros z [<-|[]]. right. exact LV.
  Qed.
  Lemma var_args_list_sim f ts tt a F h : rep h (NRRollList ts tt) a F -> NoDup F -> (length F < S f)%nat ->
    sim F (fun _ t' h' => (exists ts' tt', t' = NRRollList ts' tt') /\ upd h F a t' h') h (h_var_args_list mr f a) (eval_var_args mr (NRRollList ts tt)).
  Proof.
    intros H N L. inversion H as [| | | | | | |? rolls th ? ? Fr Ft E Hr Ht| | | |]; subst. cbn [length] in L. rewrite app_length in L. unfold h_var_args_list. eapply sim_load; [exact E|]. cbn beta iota.
    change (eval_var_args mr (NRRollList ts tt)) with (th' <- var_args_threshold mr tt ;; rolls' <- var_args_rolls mr ts ;; CRet (NRRollList rolls' th'))%comp.
    pose proof (threshold_sim f ts tt a rolls th Fr Ft h E Hr Ht N ltac:(lia)) as S1. apply nodup_cons in N as (Na & N). pose proof (cell_lt _ _ _ E) as La. assert (~ In a Fr) as Nar by (intros K; apply Na, in_app_iff; auto).
    eapply sim_bind; [exact S1|intros z [<-|[]]; left; reflexivity|]. intros u tt' h1 V1 (th' & Ft' & E1 & Ht' & Hr' & Fit). assert (length h <= length h1)%nat as LV by (destruct V1; assumption).
    exists Fr. split; [|intros z Hz; left; right; apply in_app_iff; auto]. pose proof N as N0. apply nodup_app in N as (Nt & Nr & Nd).
    eapply sim_map; [eapply var_args_rolls_sim; [exact Hr'|exact Nr|lia]|]. intros u' ts' h2 V2 (Fr' & Hr2 & Fit2). split; [eauto|]. exists (a :: Ft' ++ Fr').
    assert (forall z, In z Fr -> (z < length h)%nat) as Ds by (intros z Hz; eapply reps_dom; eassumption). split.
    - eapply rep_rlist; [eapply evolves_cell; [exact V2|exact E1|exact Nar]|exact Hr2|]. eapply evolves_rep; [exact V2|exact Ht'|]. intros z Hz. eapply fits_apart; eassumption.
    - apply fits_cons; [exact Na|exact La|]. eapply (fits_app h h1); try eassumption. intros z Hz. eapply rep_dom; eassumption.
  Qed.
  Lemma fits_trans h h1 A B C : fits h A B -> fits h1 B C -> (length h <= length h1)%nat -> fits h A C.
  Proof.
    intros (N1 & L1 & H1) (N2 & L2 & H2) L. split; [exact N2|]. split; [lia|]. intros x Hx. destruct (H2 x Hx) as [K|K]; [exact (H1 x K)|right; lia].
  Qed.
  Definition bonus_at (h : heap) (bo : option nat) (b : option bonus) (Fb : list nat) : Prop :=
    match bo, b with
    | None, None => Fb = []
    | Some x, Some (Bonus op l r) => rep h (NInfix op l r) x Fb
    | _, _ => False
    end.
  Lemma rep_u_inv h ts tt b a F : rep h (NURollExpr ts tt b) a F -> exists lst bo G Fb, nth_error h a = Some (HURollExpr lst bo) /\ rep h (NRRollList ts tt) lst G /\ bonus_at h bo b Fb /\ F = a :: G ++ Fb.
  Proof.
    intros H. inversion H as [| | | | | | | |? lst ? ? G E Hl|? lst x ? ? op l r G Fb E Hl Hb| |]; subst.
    - exists lst, None, G, []. rewrite app_nil_r. cbn. auto.
    - exists lst, (Some x), G, Fb. cbn. auto.
  Qed.
  Lemma rep_u_intro h ts tt b a lst bo G Fb : nth_error h a = Some (HURollExpr lst bo) -> rep h (NRRollList ts tt) lst G -> bonus_at h bo b Fb -> rep h (NURollExpr ts tt b) a (a :: G ++ Fb).
  Proof.
    intros E Hl Hb. destruct bo as [x|], b as [[op l r]|]; cbn in Hb; try contradiction.
    - eapply rep_ubonus; eassumption.
    - subst Fb. rewrite app_nil_r. eapply rep_uexpr; eassumption.
  Qed.
  Lemma bonus_keeps h h' bo b Fb F : evolves F h h' -> bonus_at h bo b Fb -> (forall x, In x Fb -> ~ In x F) -> bonus_at h' bo b Fb.
  Proof. intros V H D. destruct bo as [x|], b as [[op l r]|]; cbn in *; try assumption. eapply evolves_rep; eassumption. Qed.
  Lemma bonus_dom h bo b Fb x : bonus_at h bo b Fb -> In x Fb -> (x < length h)%nat.
  Proof. intros H. destruct bo as [y|], b as [[op l r]|]; cbn in *; try contradiction; [intros K; eapply rep_dom; eassumption|subst; intros []]. Qed.
  Lemma infix_len h op l r a F : rep h (NInfix op l r) a F -> (3 <= length F)%nat.
  Proof.
    intros H. inversion H as [| | | | |? ? x y ? ? Fl Fr E Hx Hy| | | | | |]; subst. destruct (rep_root _ _ _ _ Hx) as (? & ->), (rep_root _ _ _ _ Hy) as (? & ->). cbn. rewrite app_length. cbn. lia.
  Qed.
  (** A new bonus [op (NInt 0) (NInt v)] at the end of the memory *)
  Lemma new_bonus f0 h a lst ts tt G Fb op v bo : nth_error h a = Some (HURollExpr lst bo) -> rep h (NRRollList ts tt) lst G -> NoDup (a :: G ++ Fb) -> (3 <= length Fb)%nat ->
    forall s, (let! x := halloc (HInt 0) in let! y := halloc (HInt v) in let! b' := halloc (HInfix op x y) in hstore a (f0 lst (Some b'))) h s =
      (Ok Datatypes.tt, (put (((h ++ [HInt 0]) ++ [HInt v]) ++ [HInfix op (length h) (S (length h))]) a (f0 lst (Some (S (S (length h))))), s)).
  Proof.
    intros E Hl N L s. unfold hbind, halloc, hstore. rewrite !app_length. cbn [length]. replace (length h + 1)%nat with (S (length h)) by lia. replace (S (length h) + 1)%nat with (S (S (length h))) by lia. reflexivity.
  Qed.
  Lemma new_bonus_upd h0 h a lst ts tt G Fb op v bo : nth_error h a = Some (HURollExpr lst bo) -> rep h (NRRollList ts tt) lst G -> NoDup (a :: G ++ Fb) -> (3 <= length Fb)%nat -> (length h0 <= length h)%nat -> (a < length h0)%nat ->
    (forall x, In x G -> (x < length h0)%nat) ->
    upd h0 (a :: G ++ Fb) a (NURollExpr ts tt (Some (Bonus op (NInt 0) (NInt v))))
      (put (((h ++ [HInt 0]) ++ [HInt v]) ++ [HInfix op (length h) (S (length h))]) a (HURollExpr lst (Some (S (S (length h)))))).
  Proof.
    intros E Hl N L Lh La0 DG. pose proof (cell_lt _ _ _ E) as La. apply nodup_cons in N as (Na & N). rewrite in_app_iff in Na. apply nodup_app in N as (NG & NF & ND). set (n := length h) in *.
    set (h3 := ((h ++ [HInt 0]) ++ [HInt v]) ++ [HInfix op n (S n)]). assert (length h3 = S (S (S n))) as L3 by (unfold h3; rewrite !app_length; cbn; lia).
    exists (a :: G ++ [S (S n); n; S n]). split.
    - eapply rep_ubonus; [apply put_same; lia| |].
      + eapply evolves_rep; [apply (evolves_put [a]); left; reflexivity| |intros z Hz [<-|[]]; auto]. eapply keeps_rep; [|exact Hl]. unfold h3.
        eapply keeps_trans; [apply evolves_alloc|]. eapply keeps_trans; [apply evolves_alloc|]. apply evolves_alloc.
      + change [S (S n); n; S n] with (S (S n) :: [n] ++ [S n]). eapply rep_infix.
        * rewrite put_other by lia. unfold h3. replace (S (S n)) with (length ((h ++ [HInt 0]) ++ [HInt v])) by (rewrite !app_length; cbn; lia). apply nth_last.
        * apply rep_int. rewrite put_other by lia. unfold h3. rewrite !nth_error_app1 by (rewrite ?app_length; cbn; lia). apply nth_last.
        * apply rep_int. rewrite put_other by lia. unfold h3. rewrite nth_error_app1 by (rewrite ?app_length; cbn; lia). replace (S n) with (length (h ++ [HInt 0])) by (rewrite !app_length; cbn; lia). apply nth_last.
    - split; [|split].
      + apply nodup_cons. split.
        * rewrite in_app_iff. intros [K|K]; [auto|]. cbn in K. lia.
        * apply nodup_app. split; [exact NG|]. split; [repeat constructor; cbn; lia|]. intros z Hz K. specialize (DG z Hz). cbn in K. lia.
      + cbn [length]. rewrite !app_length. cbn [length]. lia.
      + intros z [<-|Hz]; [left; left; reflexivity|]. apply in_app_iff in Hz as [Hz|Hz]; [left; right; apply in_app_iff; auto|]. right. cbn in Hz. lia.
  Qed.
  Lemma bonus_sim f ts tt b a lst bo G Fb h : nth_error h a = Some (HURollExpr lst bo) -> rep h (NRRollList ts tt) lst G -> bonus_at h bo b Fb -> NoDup (a :: G ++ Fb) -> (length Fb < S f)%nat ->
    sim [a] (fun _ b' h' => upd h (a :: G ++ Fb) a (NURollExpr ts tt b') h') h (h_var_args_bonus mr f a lst bo) (var_args_bonus mr b).
  Proof.
    intros E Hl Hb N L. unfold h_var_args_bonus, var_args_bonus. destruct bo as [x|], b as [[op l r]|]; cbn in Hb; try contradiction.
    2:{ apply sim_ret. exists (a :: G ++ Fb). split; [eapply rep_u_intro; [exact E|exact Hl|exact Hb]|]. apply fits_refl. exact N. }
    pose proof (infix_len _ _ _ _ _ _ Hb) as L3. inversion Hb as [| | | | |? ? u v ? ? Fl Fr Eb Hu Hv| | | | | |]; subst. eapply sim_load; [exact Eb|]. cbn beta iota. cbn [length] in L. rewrite app_length in L.
    unfold operand. erewrite (rep_not_null _ l) by exact Hu. erewrite (rep_not_null _ r) by exact Hv. set (FB := x :: Fl ++ Fr) in *.
    eapply sim_read; [apply infix_sim; (eapply evaluates_good; [apply h_eval_sim|eassumption|lia])|]. intros o h1 V1. eapply sim_read; [apply sim_pure|]. intros k h2 V2.
    assert (evolves [] h h2) as V by (eapply keeps_trans; eassumption). pose proof (keeps_cell _ _ _ _ V E) as E2. pose proof (keeps_rep _ _ _ _ _ V Hl) as Hl2. assert (length h <= length h2)%nat as LV by (destruct V; assumption).
    pose proof (cell_lt _ _ _ E) as La. assert (forall z, In z G -> (z < length h)%nat) as DG by (intros z Hz; exact (rep_dom _ _ _ _ _ Hl Hz)).
    assert (forall op' n, evolves [a] h2 (put (((h2 ++ [HInt 0]) ++ [HInt n]) ++ [HInfix op' (length h2) (S (length h2))]) a (HURollExpr lst (Some (S (S (length h2))))))) as VB by
      (intros op' n; eapply (evolves_trans [a] [a]); [eapply evolves_trans; [apply (evolves_alloc [a])|eapply evolves_trans; [apply (evolves_alloc [a])|apply (evolves_alloc [a])|]|]|apply evolves_put; left; reflexivity|]; auto).
    destruct (k =? 0); [|destruct (0 <? k)].
    - eapply sim_done; [intros s; reflexivity|apply evolves_put; left; reflexivity|]. exists (a :: G). apply nodup_cons in N as (Na & N). rewrite in_app_iff in Na. apply nodup_app in N as (NG & NF & ND). split.
      + eapply rep_uexpr; [apply put_same; lia|]. eapply evolves_rep; [apply (evolves_put [a]); left; reflexivity|exact Hl2|]. intros z Hz [<-|[]]; auto.
      + split; [apply nodup_cons; auto|]. split; [cbn; rewrite app_length; lia|]. intros z [<-|Hz]; [left; left; reflexivity|]. left. right. apply in_app_iff. auto.
    - eapply sim_done; [intros s; eapply (new_bonus HURollExpr); eassumption|apply VB|]. eapply new_bonus_upd; eassumption.
    - eapply sim_done; [intros s; eapply (new_bonus HURollExpr); eassumption|apply VB|]. eapply new_bonus_upd; eassumption.
  Qed.
End Args.
