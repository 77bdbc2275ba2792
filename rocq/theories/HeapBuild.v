(** The constructors make a tree of new nodes: proofs. *)
From Verif Require Import ProofBase GoMem HeapEval SpecHeap CompProofs HeapProofs HeapArgs HeapArgs2 HeapDet HeapText HeapExec SexpProofs.
Open Scope list_scope.
Open Scope nat_scope.

Definition b_infix (op : infixop) (l r : node) (h : heap) : heap * nat :=
  let '(h1, x) := build l h in let '(h2, y) := build r h1 in (h2 ++ [HInfix op x y], length h2).
Fixpoint b_rolls (l : list vroll) (h : heap) : heap * list nat :=
  match l with
  | [] => (h, [])
  | VRoll k x y :: rest => let '(h1, a) := b_infix (OpVar k) x y h in let '(h2, xs) := b_rolls rest h1 in (h2, a :: xs)
  end.
Definition b_rlist (l : list vroll) (th : node) (h : heap) : heap * nat :=
  let '(h1, xs) := b_rolls l h in let '(h2, t) := build th h1 in (h2 ++ [HRRollList xs t], length h2).
Lemma build_infix op l r h : build (NInfix op l r) h = b_infix op l r h. Proof. reflexivity. Qed.
Lemma rolls_eq : forall l h, (fix rolls (l : list vroll) (h : heap) : heap * list nat :=
    match l with
    | [] => (h, [])
    | v :: rest => let '(h1, x) := match v with VRoll k l r => (let '(h1, x) := build l h in let '(h2, y) := build r h1 in (h2 ++ [HInfix (OpVar k) x y], length h2)) end in let '(h2, xs) := rolls rest h1 in (h2, x :: xs)
    end) l h = b_rolls l h.
Proof.
  induction l as [|[k x y] l IH]; intros h; [reflexivity|]. cbn [b_rolls]. unfold b_infix. destruct (build x h) as (h1, a). destruct (build y h1) as (h2, b). rewrite IH. reflexivity.
Qed.
Lemma build_blist l h : build (NBRollList l) h = let '(h1, xs) := b_rolls l h in (h1 ++ [HBRollList xs], length h1).
Proof. cbn [build]. rewrite rolls_eq. reflexivity. Qed.
Lemma build_rlist l th h : build (NRRollList l th) h = b_rlist l th h.
Proof. cbn [build]. unfold b_rlist. rewrite rolls_eq. reflexivity. Qed.
Lemma build_u l th b h : build (NURollExpr l th b) h =
  let '(h1, lst) := b_rlist l th h in
  match b with
  | None => (h1 ++ [HURollExpr lst None], length h1)
  | Some (Bonus op bl br) => let '(h2, x) := b_infix op bl br h1 in (h2 ++ [HURollExpr lst (Some x)], length h2)
  end.
Proof. cbn [build]. unfold b_rlist. rewrite rolls_eq. reflexivity. Qed.

(** New nodes at the end of the memory [h] *)
Definition fresh (h h' : heap) (F : list nat) : Prop := (exists e, h' = h ++ e) /\ NoDup F /\ (forall x, In x F -> length h <= x) /\ forall x, In x F -> x < length h'.
Definition builds (t : node) : Prop := forall h, let '(h', a) := build t h in exists F, rep h' t a F /\ fresh h h' F.
Lemma ext_evolves (h e : heap) : evolves [] h (h ++ e).
Proof. split; [rewrite app_length; lia|]. intros x Hx _. apply nth_error_app1. exact Hx. Qed.
Lemma fresh_ext h h' F : fresh h h' F -> evolves [] h h'.
Proof. intros ((e & ->) & _). apply ext_evolves. Qed.
Lemma fresh_app h h1 h2 F G : fresh h h1 F -> fresh h1 h2 G -> fresh h h2 (F ++ G).
Proof.
  intros ((e1 & ->) & N1 & L1 & U1) ((e2 & ->) & N2 & L2 & U2). split; [exists (e1 ++ e2); rewrite app_assoc; reflexivity|]. split; [|split].
  - apply nodup_app. split; [exact N1|]. split; [exact N2|]. intros x H1 H2. specialize (U1 x H1). specialize (L2 x H2). lia.
  - intros x H. apply in_app_iff in H as [H|H]; [auto|]. specialize (L2 x H). rewrite app_length in L2. lia.
  - intros x H. apply in_app_iff in H as [H|H]; [|auto]. specialize (U1 x H). rewrite app_length. lia.
Qed.
Lemma fresh_swap h h' F G : fresh h h' (F ++ G) -> fresh h h' (G ++ F).
Proof.
  intros (E & N & L & U). split; [exact E|]. split; [|split]; [|intros x H; apply L; apply in_app_iff in H; apply in_app_iff; tauto|intros x H; apply U; apply in_app_iff in H; apply in_app_iff; tauto].
  apply nodup_app in N as (N1 & N2 & D). apply nodup_app. split; [exact N2|]. split; [exact N1|]. intros x H1 H2. exact (D x H2 H1).
Qed.
Lemma fresh_top h h' F c : fresh h h' F -> fresh h (h' ++ [c]) (length h' :: F).
Proof.
  intros ((e & ->) & N & L & U). split; [exists (e ++ [c]); rewrite app_assoc; reflexivity|]. split; [|split].
  - apply nodup_cons. split; [|exact N]. intros K. specialize (U _ K). lia.
  - intros x [<-|H]; [rewrite app_length; lia|auto].
  - intros x [<-|H]; [|specialize (U x H)]; rewrite !app_length in *; cbn [length]; lia.
Qed.
Lemma fresh_nil h : fresh h h [].
Proof. split; [exists []; rewrite app_nil_r; reflexivity|]. split; [constructor|]. split; intros x []. Qed.
Lemma leaf t c h : (forall h' a, nth_error h' a = Some c -> rep h' t a [a]) -> build t h = (h ++ [c], length h) -> let '(h', a) := build t h in exists F, rep h' t a F /\ fresh h h' F.
Proof. intros H ->. exists [length h]. split; [apply H, nth_last|]. apply (fresh_top h h []), fresh_nil. Qed.
Lemma infix_builds op l r h : builds l -> builds r -> let '(h', a) := b_infix op l r h in exists F, rep h' (NInfix op l r) a F /\ fresh h h' F.
Proof.
  intros Hl Hr. unfold b_infix. specialize (Hl h). destruct (build l h) as (h1, x). destruct Hl as (Fl & Rl & Nl). specialize (Hr h1). destruct (build r h1) as (h2, y). destruct Hr as (Fr & Rr & Nr).
  exists (length h2 :: Fl ++ Fr). split; [|apply fresh_top; eapply fresh_app; eassumption]. eapply rep_infix; [apply nth_last| |].
  - eapply keeps_rep; [apply ext_evolves|]. eapply keeps_rep; [eapply fresh_ext; exact Nr|exact Rl].
  - eapply keeps_rep; [apply ext_evolves|exact Rr].
Qed.
Lemma rolls_builds l : Forall (each_roll builds) l -> forall h, let '(h', xs) := b_rolls l h in exists F, reps h' l xs F /\ fresh h h' F.
Proof.
  induction 1 as [|[k x y] l (Hx & Hy) Hl IH]; intros h; cbn [b_rolls].
  - exists []. split; [constructor|apply fresh_nil].
  - pose proof (infix_builds (OpVar k) x y h Hx Hy) as H1. destruct (b_infix (OpVar k) x y h) as (h1, a). destruct H1 as (F & R & N). specialize (IH h1). destruct (b_rolls l h1) as (h2, xs). destruct IH as (G & Rs & Ns).
    exists (F ++ G). split; [|eapply fresh_app; eassumption]. apply reps_cons; [|exact Rs]. eapply keeps_rep; [eapply fresh_ext; exact Ns|exact R].
Qed.
Lemma rlist_builds l th h : Forall (each_roll builds) l -> builds th -> let '(h', a) := b_rlist l th h in exists F, rep h' (NRRollList l th) a F /\ fresh h h' F.
Proof.
  intros Hl Ht. unfold b_rlist. pose proof (rolls_builds l Hl h) as H1. destruct (b_rolls l h) as (h1, xs). destruct H1 as (F & R & N). specialize (Ht h1). destruct (build th h1) as (h2, t). destruct Ht as (G & Rt & Nt).
  exists (length h2 :: G ++ F). split; [|apply fresh_top; apply fresh_swap; eapply fresh_app; eassumption]. eapply rep_rlist; [apply nth_last| |].
  - eapply keeps_reps; [apply ext_evolves|]. eapply keeps_reps; [eapply fresh_ext; exact Nt|exact R].
  - eapply keeps_rep; [apply ext_evolves|exact Rt].
Qed.
Lemma shaped_each rolls : Forall (each_roll (fun n => shaped n -> builds n)) rolls -> fold_right (fun v acc => each_roll shaped v /\ acc) True rolls -> Forall (each_roll builds) rolls.
Proof.
  induction 1 as [|[k x y] l (Hx & Hy) Hl IH]; intros S; constructor; cbn in S; [|apply IH, S]. split; [apply Hx, S|apply Hy, S].
Qed.
Lemma build_builds t : shaped t -> builds t.
Proof.
  induction t as [| |v|s|ds|r IHr|op l r IHl IHr|rolls IH|rolls th IH IHt|rolls th b IH IHt IHb|items|k e IHe] using node_induction; intros S; try (intros h; eapply leaf; [|reflexivity]; intros; constructor; assumption).
  - destruct S.
  - intros h. cbn [build]. specialize (IHr S h). destruct (build r h) as (h1, x). destruct IHr as (F & R & N). exists (length h1 :: F). split; [|apply fresh_top; exact N]. eapply rep_neg; [apply nth_last|]. eapply keeps_rep; [apply ext_evolves|exact R].
  - intros h. rewrite build_infix. destruct S as (_ & Sl & Sr). apply infix_builds; auto.
  - intros h. rewrite build_blist. destruct S as (_ & S). pose proof (rolls_builds rolls (shaped_each _ IH S) h) as H. destruct (b_rolls rolls h) as (h1, xs). destruct H as (F & R & N).
    exists (length h1 :: F). split; [|apply fresh_top; exact N]. eapply rep_blist; [apply nth_last|]. eapply keeps_reps; [apply ext_evolves|exact R].
  - intros h. rewrite build_rlist. destruct S as ((_ & S) & St). apply rlist_builds; [exact (shaped_each _ IH S)|auto].
  - intros h. rewrite build_u. destruct S as ((_ & S) & St & Sb). pose proof (rlist_builds rolls th h (shaped_each _ IH S) (IHt St)) as H. destruct (b_rlist rolls th h) as (h1, lst). destruct H as (F & R & N).
    destruct b as [[op l r]|].
    + destruct Sb as (_ & -> & Sr), IHb as (_ & IHr). assert (builds (NInt 0)) as H0 by (intros h'; eapply leaf; [|reflexivity]; intros; constructor; assumption).
      pose proof (infix_builds op (NInt 0) r h1 H0 (IHr Sr)) as H. destruct (b_infix op (NInt 0) r h1) as (h2, x). destruct H as (G & Rb & Nb). exists (length h2 :: F ++ G). split; [|apply fresh_top; eapply fresh_app; eassumption].
      eapply rep_ubonus; [apply nth_last| |].
      * eapply keeps_rep; [apply ext_evolves|]. eapply keeps_rep; [eapply fresh_ext; exact Nb|exact R].
      * eapply keeps_rep; [apply ext_evolves|exact Rb].
    + exists (length h1 :: F). split; [|apply fresh_top; exact N]. eapply rep_uexpr; [apply nth_last|]. eapply keeps_rep; [apply ext_evolves|exact R].
  - intros h. cbn [build]. specialize (IHe S h). destruct (build e h) as (h1, x). destruct IHe as (F & R & N). exists (length h1 :: F). split; [|apply fresh_top; exact N]. eapply rep_command; [apply nth_last|]. eapply keeps_rep; [apply ext_evolves|exact R].
Qed.
Lemma shaped_clonable t : shaped t -> clonable t.
Proof.
  assert (forall rolls, Forall (each_roll (fun n => shaped n -> clonable n)) rolls -> fold_right (fun v acc => each_roll shaped v /\ acc) True rolls -> clonable (NBRollList rolls)) as K.
  { induction 1 as [|[k x y] l (Hx & Hy) Hl IH]; intros S; [exact I|]. destruct S as ((Sx & Sy) & S). split; [split; auto|apply IH, S]. }
  induction t as [| |v|s|ds|r IHr|op l r IHl IHr|rolls IH|rolls th IH IHt|rolls th b IH IHt IHb|items|k e IHe] using node_induction; intros S; try exact I.
  - exact (IHr S).
  - destruct S as (_ & S1 & S2). split; auto.
  - apply K; [exact IH|apply S].
  - destruct S as ((_ & S) & St). split; [apply (K rolls); assumption|auto].
  - destruct S as ((_ & S) & St & Sb). split; [split; [apply (K rolls); assumption|auto]|]. destruct b as [[op l r]|]; [|exact I]. destruct Sb as ([-> | ->] & _ & Sr), IHb as (_ & IHr); split; auto.
  - exact (IHe S).
Qed.
