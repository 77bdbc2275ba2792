(** InfixNotation and SExp in memory: proofs. *)
From Verif Require Import ProofBase GoMem HeapEval SpecHeap CompProofs HeapProofs HeapArgs HeapArgs2 HeapDet FileProofs.
Open Scope list_scope.
Open Scope Z_scope.

Lemma sim_obind {A B C} F (R : C -> B -> heap -> Prop) h (m : hm A) o (f : A -> hm C) (g : A -> outcome B) :
  sim [] eqr h m (clift o) -> (forall a h1, evolves [] h h1 -> sim F R h1 (f a) (clift (g a))) -> sim F R h (hbind m f) (clift (obind o g)).
Proof.
  intros H K. apply sim_ext with (c := cbind (clift o) (fun a => clift (g a))); [intros s; destruct o; reflexivity|]. eapply sim_read; [exact H|exact K].
Qed.
Lemma sim_oret {A} F h (a : A) : sim F eqr h (hret a) (clift (Ok a)).
Proof. apply sim_ret. reflexivity. Qed.

Definition n_prefix (r : node) (w : bool) : outcome string :=
  if is_null r then onil
  else if is_primary r then s <~ infix_notation r w ;; Ok ("-" ++ s)%string
  else s <~ infix_notation r true ;; Ok ("-" ++ parenthesize s)%string.
Definition n_child (op : infixop) (c : node) (assoc w : bool) : outcome string := paren_child op c assoc (infix_notation c true) (infix_notation c w).
Definition n_infix (op : infixop) (l r : node) (w : bool) : outcome string :=
  if is_null l then onil
  else
    ls <~ match l with NNeg lr => if w && op_lassoc op then n_prefix lr w else n_child op l (op_lassoc op) w | _ => n_child op l (op_lassoc op) w end ;;
    rs <~ n_child op r (op_rassoc op) false ;;
    Ok (notation_infix_text op ls rs).
Definition n_infix_node (op : infixop) (l r : node) (w : bool) : outcome string :=
  match op with
  | OpCmp s => ls <~ infix_notation l true ;; rs <~ infix_notation r true ;; Ok (ls ++ s ++ rs)%string
  | OpVar KRand => s <~ n_infix (OpVar KRand) l r true ;; Ok ("[" ++ s ++ "]")%string
  | _ => n_infix op l r w
  end.
Lemma notation_infix op l r w : infix_notation (NInfix op l r) w = n_infix_node op l r w.
Proof. destruct op as [| | |m|c|k]; try reflexivity; try (destruct k; reflexivity). Qed.
Definition n_roll (v : vroll) : outcome string := match v with VRoll k l r => infix_notation (NInfix (OpVar k) l r) true end.
Definition n_list (ts : list vroll) (tt : node) : outcome string :=
  ss <~ collect (map n_roll ts) ;;
  if is_null tt then onil
  else if is_nil tt then Ok (join "+" ss)
  else t <~ infix_notation tt true ;; Ok (join "+" ss ++ "[" ++ t ++ "]")%string.
Lemma notation_rolls ts w : infix_notation (NBRollList ts) w = (ss <~ collect (map n_roll ts) ;; Ok (join "+" ss)).
Proof. reflexivity. Qed.
Lemma notation_rlist ts tt w : infix_notation (NRRollList ts tt) w = n_list ts tt.
Proof. reflexivity. Qed.
Lemma notation_u ts tt b w : infix_notation (NURollExpr ts tt b) w =
  match b with
  | None => infix_notation (NRRollList ts tt) true
  | Some (Bonus op _ r) => if is_basic_op op then infix_notation (NInfix op (NRRollList ts tt) r) true else Panic "interface conversion"
  end.
Proof. destruct b as [[op l r]|]; [|reflexivity]. destruct op as [| | |m|c|k]; reflexivity. Qed.
(** What an infix node in memory is *)
Lemma rep_infix_inv h op l r a F : rep h (NInfix op l r) a F -> exists x y Fl Fr, nth_error h a = Some (HInfix op x y) /\ rep h l x Fl /\ rep h r y Fr /\ F = a :: Fl ++ Fr.
Proof. intros H. inversion H; subst. do 4 eexists. eauto. Qed.
(** A copy of the bonus node with its left side set to the roll list *)
Lemma copy_rep h op l r b x y Fl Fr lst ts tt G : nth_error h b = Some (HInfix op x y) -> rep h l x Fl -> rep h r y Fr -> rep h (NRRollList ts tt) lst G ->
  rep (put (h ++ [HInfix op x y]) (length h) (HInfix op lst y)) (NInfix op (NRRollList ts tt) r) (length h) (length h :: G ++ Fr).
Proof.
  intros E Hl Hr Hg. set (h1 := put _ _ _). assert (evolves [] h h1) as V.
  { split; [unfold h1; rewrite put_len, app_length; lia|]. intros z Hz _. unfold h1. rewrite put_other by lia. apply nth_error_app1. exact Hz. }
  eapply rep_infix; [apply put_same; rewrite app_length; cbn; lia|eapply keeps_rep; eassumption|eapply keeps_rep; eassumption].
Qed.
Lemma copy_evolves h c c' : evolves [] h (put (h ++ [c]) (length h) c').
Proof. split; [rewrite put_len, app_length; lia|]. intros z Hz _. rewrite put_other by lia. apply nth_error_app1. exact Hz. Qed.
Lemma copy_run h c op x y lst s : c = HInfix op x y -> (let! copy := halloc c in let! _ := set_left copy lst in hret copy) h s = (Ok (length h), (put (h ++ [c]) (length h) (HInfix op lst y), s)).
Proof. intros ->. unfold hbind at 1, halloc. unfold hbind. rewrite (set_left_run _ _ op x y) by apply nth_last. reflexivity. Qed.
Lemma sim_copy {A B} F (R : A -> B -> heap -> Prop) h op x y lst (f : nat -> hm A) (g : comp B) :
  sim F R (put (h ++ [HInfix op x y]) (length h) (HInfix op lst y)) (f (length h)) g ->
  sim F R h (let! copy := halloc (HInfix op x y) in let! _ := set_left copy lst in f copy) g.
Proof.
  intros H s. destruct (H s) as (o & h' & E & V & Q). exists o, h'. split; [|split; [|exact Q]].
  - rewrite <- E. unfold hbind, halloc. rewrite (set_left_run _ _ op x y) by apply nth_last. reflexivity.
  - eapply evolves_trans; [eapply evolves_weak; [apply copy_evolves|intros z []]|exact V|]. auto.
Qed.

Section Text.
  Definition nt_at (f : nat) : Prop := forall t a F w h, rep h t a F -> (length F < f)%nat -> sim [] eqr h (h_notation f a w) (clift (infix_notation t w)).
  Lemma nt_prefix f t r F w h : nt_at f -> rep h t r F -> (length F < f)%nat -> sim [] eqr h (h_notation_prefix (h_notation f) r w) (clift (n_prefix t w)).
  Proof.
    intros IH H L. unfold h_notation_prefix, n_prefix. erewrite rep_not_null by exact H. destruct (rep_cell _ _ _ _ H) as (c & E & Ep & _). eapply sim_load; [exact E|]. rewrite Ep.
    destruct (is_primary t); (eapply sim_obind; [eapply IH; eassumption|]); intros s h1 V; apply sim_oret.
  Qed.
  Lemma nt_child f parent t c F assoc w h : nt_at f -> rep h t c F -> (length F < f)%nat -> sim [] eqr h (h_paren_child (h_notation f) parent c assoc w) (clift (n_child parent t assoc w)).
  Proof.
    intros IH H L. unfold h_paren_child, n_child, paren_child.
    assert (sim [] eqr h (h_notation f c w) (clift (infix_notation t w))) as Hw by (eapply IH; eassumption). assert (sim [] eqr h (h_notation f c true) (clift (infix_notation t true))) as Ht by (eapply IH; eassumption).
    destruct t as [| |v|s|ds|t|op l r|ts|ts tt|ts tt b|items|k t]; try (inversion H; subst; eapply sim_load; [eassumption|exact Hw]).
    - inversion H.
    - inversion H; subst. eapply sim_load; [eassumption|]. eapply sim_obind; [exact Hw|]. intros s h1 V. apply sim_oret.
    - inversion H; subst. eapply sim_load; [eassumption|]. cbn beta iota. destruct (_ || _); [|exact Hw]. eapply sim_obind; [exact Ht|]. intros s h1 V. apply sim_oret.
    - destruct (rep_u_inv _ _ _ _ _ _ H) as (lst & bo & G & Fb & E & _). eapply sim_load; [exact E|exact Hw].
  Qed.
  Lemma nt_infix f op l r x y Fl Fr w h : nt_at f -> rep h l x Fl -> rep h r y Fr -> (length Fl + length Fr < f)%nat -> sim [] eqr h (h_notation_infix (h_notation f) op x y w) (clift (n_infix op l r w)).
  Proof.
    intros IH Hl Hr L. unfold h_notation_infix, n_infix. erewrite rep_not_null by exact Hl. destruct (rep_cell _ _ _ _ Hl) as (c & E & _). eapply sim_load; [exact E|]. eapply sim_obind.
    - assert (sim [] eqr h (h_paren_child (h_notation f) op x (op_lassoc op) w) (clift (n_child op l (op_lassoc op) w))) as Hc by (eapply nt_child; [exact IH|exact Hl|lia]).
      destruct l as [| | | | |t| | | | | |]; try (inversion Hl; subst; match goal with Q : nth_error h x = Some _ |- _ => rewrite E in Q; injection Q as -> end; exact Hc).
      inversion Hl; subst. match goal with Q : nth_error h x = Some (HNeg _) |- _ => rewrite E in Q; injection Q as -> end. cbn [length] in L. destruct (w && op_lassoc op); [|exact Hc]. eapply nt_prefix; [exact IH|eassumption|lia].
    - intros ls h1 V1. eapply sim_obind; [eapply nt_child; [exact IH|eapply keeps_rep; eassumption|lia]|]. intros rs h2 V2. apply sim_oret.
  Qed.
  Lemma nt_rolls f ts : nt_at f -> forall l F h, reps h ts l F -> (length F < f)%nat -> sim [] eqr h (h_notations (h_notation f) l) (clift (collect (map n_roll ts))).
  Proof.
    intros IH. induction ts as [|v ts IHts]; intros l F h H L; inversion H as [|k x y ? a rest Fa Fs Ha Hr]; subst; cbn [h_notations map collect]; [apply sim_oret|]. rewrite app_length in L.
    eapply sim_obind; [eapply IH; [exact Ha|lia]|]. intros s h1 V1. eapply sim_obind; [eapply IHts; [eapply keeps_reps; eassumption|lia]|]. intros ss h2 V2. apply sim_oret.
  Qed.
  Lemma notation_sim f : nt_at f.
  Proof.
    induction f as [|f IH]; intros t a F w h H L; [lia|]. cbn [h_notation].
    destruct t as [| |v|s|ds|t|op l r|ts|ts tt|ts tt b|items|k t]; try (inversion H; subst; eapply sim_load; [eassumption|]; (apply sim_err || apply sim_oret)).
    - inversion H.
    - inversion H; subst. cbn [length] in L. eapply sim_load; [eassumption|]. eapply nt_prefix; [exact IH|eassumption|lia].
    - destruct (rep_infix_inv _ _ _ _ _ _ H) as (x & y & Fl & Fr & E & Hl & Hr & ->). cbn [length] in L. rewrite app_length in L. eapply sim_load; [exact E|]. rewrite notation_infix. unfold n_infix_node.
      destruct op as [| | |m|c|k]; try (eapply nt_infix; [exact IH|exact Hl|exact Hr|lia]).
      + eapply sim_obind; [eapply IH; [exact Hl|lia]|]. intros ls h1 V1. eapply sim_obind; [eapply IH; [eapply keeps_rep; eassumption|lia]|]. intros rs h2 V2. apply sim_oret.
      + destruct k; try (eapply nt_infix; [exact IH|exact Hl|exact Hr|lia]). eapply sim_obind; [eapply nt_infix; [exact IH|exact Hl|exact Hr|lia]|]. intros s h1 V1. apply sim_oret.
    - inversion H; subst. cbn [length] in L. eapply sim_load; [eassumption|]. rewrite notation_rolls. eapply sim_obind; [eapply nt_rolls; [exact IH|eassumption|lia]|]. intros s h1 V1. apply sim_oret.
    - inversion H as [| | | | | | |? rolls th ? ? Fr Ft E Hr Ht| | | |]; subst. cbn [length] in L. rewrite app_length in L. eapply sim_load; [exact E|]. rewrite notation_rlist. eapply sim_obind; [eapply nt_rolls; [exact IH|eassumption|lia]|]. intros ss h1 V1.
      pose proof (keeps_rep _ _ _ _ _ V1 Ht) as Ht1. eapply is_nil_sim; [exact Ht1|]. erewrite rep_not_null by exact Ht1. destruct (is_nil tt); [apply sim_oret|]. eapply sim_obind; [eapply IH; [exact Ht1|lia]|]. intros s h2 V2. apply sim_oret.
    - destruct (rep_u_inv _ _ _ _ _ _ H) as (lst & bo & G & Fb & E & Hl & Hb & ->). cbn [length] in L. rewrite app_length in L. eapply sim_load; [exact E|]. rewrite notation_u.
      destruct bo as [x|], b as [[op l r]|]; cbn in Hb; try contradiction; [|eapply IH; [exact Hl|lia]].
      destruct (rep_infix_inv _ _ _ _ _ _ Hb) as (u & v & Fl & Fr & Eb & Hu & Hv & ->). cbn [length] in L. rewrite app_length in L. eapply sim_load; [exact Eb|]. cbn beta iota.
      destruct (is_basic_op op) eqn:Eop; [|apply sim_panic]. apply sim_copy. eapply IH; [eapply copy_rep; eassumption|]. cbn [length]. rewrite app_length. destruct (rep_root _ _ _ _ Hu) as (? & ->). cbn [length] in L. lia.
    - inversion H as [| | | | | | | | | | |? ? e ? G E Hr]; subst. cbn [length] in L. eapply sim_load; [exact E|].
      destruct k; cbn [infix_notation]; try (eapply IH; [exact Hr|lia]). eapply sim_obind; [eapply IH; [exact Hr|lia]|]. intros s h1 V1. apply sim_oret.
  Qed.

  (** ** SExp.  The bonus of every URollExpr must be a node that [util.Clone] can copy. *)
  Fixpoint clonable (t : node) : Prop :=
    let rolls := fix all (l : list vroll) : Prop := match l with [] => True | VRoll _ x y :: rest => (clonable x /\ clonable y) /\ all rest end in
    match t with
    | NNeg r => clonable r
    | NInfix _ l r => clonable l /\ clonable r
    | NBRollList ts => rolls ts
    | NRRollList ts th => rolls ts /\ clonable th
    | NURollExpr ts th b => (rolls ts /\ clonable th) /\ match b with None => True | Some (Bonus op _ r) => is_basic_op op = true /\ clonable r end
    | NCommand _ e => clonable e
    | _ => True
    end.
  Variable printable : Z -> bool.
  Definition sx_at (f : nat) : Prop := forall t a F h, rep h t a F -> clonable t -> (length F < f)%nat -> sim [] eqr h (h_sexp printable f a) (CRet (sexp_with printable t)).
  Definition s_roll (v : vroll) : string := match v with VRoll k l r => sexp_with printable (NInfix (OpVar k) l r) end.
  Lemma sim_text {A C} h (m : hm A) (x : A) (f : A -> hm C) y : sim [] eqr h m (CRet x) -> (forall h1, evolves [] h h1 -> sim [] eqr h1 (f x) (CRet y)) -> sim [] eqr h (hbind m f) (CRet y).
  Proof.
    intros H K s. destruct (H s) as (o & h1 & E & V & Q). cbn in E, Q. destruct o as [a|e|p]; try contradiction. red in Q. rewrite Q in E. destruct (K h1 V s) as (o2 & h2 & E2 & V2 & Q2). unfold hbind. rewrite E.
    exists o2, h2. split; [exact E2|]. split; [eapply keeps_trans; eassumption|exact Q2].
  Qed.
  Lemma sx_rolls f ts : sx_at f -> clonable (NBRollList ts) -> forall l F h, reps h ts l F -> (length F < f)%nat -> sim [] eqr h (h_sexps (h_sexp printable f) l) (CRet (map s_roll ts)).
  Proof.
    intros IH. induction ts as [|v ts IHts]; intros C l F h H L; inversion H as [|k x y ? a rest Fa Fs Ha Hr]; subst; cbn [h_sexps map]; [apply sim_ret; reflexivity|]. rewrite app_length in L. destruct C as (C1 & C2).
    eapply sim_text; [eapply IH; [exact Ha|exact C1|lia]|]. intros h1 V1. eapply sim_text; [eapply IHts; [exact C2|eapply keeps_reps; eassumption|lia]|]. intros h2 V2. apply sim_ret. reflexivity.
  Qed.
  Lemma sexp_u ts th b : sexp_with printable (NURollExpr ts th b) =
    match b with
    | None => ("(URollExpr " ++ sexp_with printable (NRRollList ts th) ++ ")")%string
    | Some (Bonus op _ r) => ("(URollExpr " ++ sexp_with printable (NInfix op (NRRollList ts th) r) ++ ")")%string
    end.
  Proof.
    destruct b as [[op l r]|]; [|reflexivity]. cbn [sexp_with]. set (x := ("(RRollList " ++ _)%string). set (y := op_sexp op). set (z := sexp_with printable r). clearbody x y z.
    change ("(URollExpr (" ++ y ++ " " ++ x ++ " " ++ z ++ "))" = "(URollExpr (" ++ (y ++ " " ++ x ++ " " ++ z ++ ")") ++ ")")%string. f_equal. rewrite <- !FileProofs.app_assoc_s. reflexivity.
  Qed.
  Lemma sexp_sim f : sx_at f.
  Proof.
    induction f as [|f IH]; intros t a F h H C L; [lia|]. cbn [h_sexp].
    destruct t as [| |v|s|ds|t|op l r|ts|ts th|ts th b|items|k t]; try (inversion H; subst; eapply sim_load; [eassumption|]; apply sim_ret; reflexivity).
    - inversion H.
    - inversion H; subst. cbn [length] in L. eapply sim_load; [eassumption|]. eapply sim_text; [eapply IH; [eassumption|exact C|lia]|]. intros h1 V1. apply sim_ret. reflexivity.
    - destruct (rep_infix_inv _ _ _ _ _ _ H) as (x & y & Fl & Fr & E & Hl & Hr & ->). cbn [length] in L. rewrite app_length in L. destruct C as (C1 & C2). eapply sim_load; [exact E|]. cbn beta iota.
      eapply sim_text; [eapply IH; [exact Hl|exact C1|lia]|]. intros h1 V1. eapply sim_text; [eapply IH; [eapply keeps_rep; eassumption|exact C2|lia]|]. intros h2 V2. apply sim_ret. reflexivity.
    - inversion H; subst. cbn [length] in L. eapply sim_load; [eassumption|]. cbn beta iota. eapply sim_text; [eapply sx_rolls; [exact IH|exact C|eassumption|lia]|]. intros h1 V1. apply sim_ret. reflexivity.
    - inversion H as [| | | | | | |? rolls a0 ? ? Fr Ft E Hr Ht| | | |]; subst. cbn [length] in L. rewrite app_length in L. destruct C as (C1 & C2). eapply sim_load; [exact E|]. cbn beta iota.
      eapply sim_text; [eapply sx_rolls; [exact IH|exact C1|exact Hr|lia]|]. intros h1 V1. eapply sim_text; [eapply IH; [eapply keeps_rep; eassumption|exact C2|lia]|]. intros h2 V2. apply sim_ret. reflexivity.
    - destruct (rep_u_inv _ _ _ _ _ _ H) as (lst & bo & G & Fb & E & Hl & Hb & ->). cbn [length] in L. rewrite app_length in L. destruct C as (C1 & C2). eapply sim_load; [exact E|]. cbn beta iota. rewrite sexp_u.
      destruct bo as [x|], b as [[op l r]|]; cbn in Hb; try contradiction.
      2:{ eapply sim_text; [eapply IH; [exact Hl|exact C1|lia]|]. intros h1 V1. apply sim_ret. reflexivity. }
      destruct (rep_infix_inv _ _ _ _ _ _ Hb) as (u & v & Fl & Fr & Eb & Hu & Hv & ->). cbn [length] in L. rewrite app_length in L. eapply sim_load; [exact Eb|]. cbn beta iota. destruct C2 as (Eop & C2). rewrite Eop.
      apply sim_copy. eapply sim_text; [eapply IH; [eapply copy_rep; eassumption|exact (conj C1 C2)|]|].
      + cbn [length]. rewrite app_length. destruct (rep_root _ _ _ _ Hu) as (? & ->). cbn [length] in L. lia.
      + intros h1 V1. apply sim_ret. reflexivity.
    - inversion H as [| | | | | | | | | | |? ? e ? G E Hr]; subst. cbn [length] in L. eapply sim_load; [exact E|]. cbn beta iota. eapply sim_text; [eapply IH; [exact Hr|exact C|lia]|]. intros h1 V1. apply sim_ret. reflexivity.
  Qed.
End Text.
