(** Which trees have an infix notation. *)
From Verif Require Import ProofBase Ast Notation SpecSyntax.
Open Scope list_scope.
Open Scope Z_scope.

Definition is_ok {A} (o : outcome A) : Prop := exists a, o = Ok a.
Lemma is_ok_ok {A} (a : A) : is_ok (Ok a).
Proof. exists a. reflexivity. Qed.
Lemma is_ok_bind {A B} (o : outcome A) (f : A -> outcome B) : is_ok o -> (forall a, o = Ok a -> is_ok (f a)) -> is_ok (obind o f).
Proof. intros (a & ->) H. apply (H a eq_refl). Qed.
#[export] Hint Resolve is_ok_ok : okdb.

Definition notates (n : node) : Prop := forall w, is_ok (infix_notation n w).

Lemma notates_not_null n : notates n -> is_null n = false.
Proof. intros H. destruct n; try reflexivity. destruct (H true) as (s & Hs). discriminate. Qed.

Lemma paren_child_ok op c assoc nl nw : is_ok nl -> is_ok nw -> is_ok (paren_child op c assoc nl nw).
Proof.
  intros Hl Hw. destruct c; cbn [paren_child]; try assumption.
  - apply is_ok_bind; auto with okdb.
  - destruct (_ || _); [apply is_ok_bind; auto with okdb|assumption].
Qed.

Lemma notates_int v : notates (NInt v).
Proof. intros w. apply is_ok_ok. Qed.
Lemma notates_sum ds : notates (NSumRoll ds).
Proof. intros w. apply is_ok_ok. Qed.

Lemma notates_neg r : notates r -> notates (NNeg r).
Proof.
  intros H w. cbn [infix_notation]. rewrite (notates_not_null _ H).
  destruct (is_primary r); apply is_ok_bind; auto with okdb; apply H.
Qed.

(** how an infix expression other than a comparison is printed *)
Definition infix_text (op : infixop) (l r : node) (w : bool) : outcome string :=
  if is_null l then onil
  else
    ls <~ match l with
          | NNeg lr =>
              if w && op_lassoc op then
                (if is_null lr then onil
                 else if is_primary lr then s <~ infix_notation lr w ;; Ok ("-" ++ s)%string
                 else s <~ infix_notation lr true ;; Ok ("-" ++ parenthesize s)%string)
              else paren_child op l (op_lassoc op) (infix_notation l true) (infix_notation l w)
          | _ => paren_child op l (op_lassoc op) (infix_notation l true) (infix_notation l w)
          end ;;
    rs <~ paren_child op r (op_rassoc op) (infix_notation r true) (infix_notation r false) ;;
    Ok (notation_infix_text op ls rs).
Lemma infix_text_ok op l r w : notates l -> notates r -> is_ok (infix_text op l r w).
Proof.
  intros Hl Hr. unfold infix_text. rewrite (notates_not_null _ Hl).
  apply is_ok_bind.
  - destruct l; try (apply paren_child_ok; apply Hl).
    destruct (w && op_lassoc op); [|apply paren_child_ok; apply Hl].
    pose proof (Hl w) as (s & Hs). cbn [infix_notation] in Hs.
    destruct (is_null l); [discriminate|]. destruct (is_primary l); rewrite Hs; apply is_ok_ok.
  - intros ls _. apply is_ok_bind; [apply paren_child_ok; apply Hr|]. intros; apply is_ok_ok.
Qed.

Lemma notation_arith op l r w : infix_notation (NInfix (arith_op op) l r) w = infix_text (arith_op op) l r w.
Proof. destruct op as [| | |m]; reflexivity. Qed.
Lemma notation_var k l r w : k <> KRand -> infix_notation (NInfix (OpVar k) l r) w = infix_text (OpVar k) l r w.
Proof. destruct k; try reflexivity. contradiction. Qed.
Lemma notation_rand l r w :
  infix_notation (NInfix (OpVar KRand) l r) w = (s <~ infix_text (OpVar KRand) l r true ;; Ok ("[" ++ s ++ "]")%string).
Proof. reflexivity. Qed.

Lemma notates_arith op l r : notates l -> notates r -> notates (NInfix (arith_op op) l r).
Proof. intros Hl Hr w. rewrite notation_arith. apply infix_text_ok; assumption. Qed.
Lemma notates_var k l r : notates l -> notates r -> notates (NInfix (OpVar k) l r).
Proof.
  intros Hl Hr w. destruct k; try (rewrite notation_var by discriminate; apply infix_text_ok; assumption).
  rewrite notation_rand. apply is_ok_bind; [apply infix_text_ok; assumption|]. intros; apply is_ok_ok.
Qed.
Lemma notates_cmp op l r : notates l -> notates r -> notates (NInfix (OpCmp op) l r).
Proof.
  intros Hl Hr w. cbn [infix_notation]. apply is_ok_bind; [apply Hl|]. intros. apply is_ok_bind; [apply Hr|]. intros; apply is_ok_ok.
Qed.

Lemma notates_tree {L} (leaf : L -> node) e : (forall l, notates (leaf l)) -> notates (tree leaf e).
Proof.
  intros H. induction e; cbn [tree]; [apply H|apply notates_neg|apply notates_arith]; assumption.
Qed.
Lemma notates_itree e : notates (itree e).
Proof. apply notates_tree. intros. apply notates_int. Qed.
Lemma notates_rtree e : notates (rtree e).
Proof.
  apply notates_tree. intros [v|lo hi]; [apply notates_int|apply notates_var; apply notates_itree].
Qed.
Lemma notates_dtree e : notates (dtree e).
Proof.
  apply notates_tree. intros [v|lo hi|n s]; [apply notates_int|apply notates_var; apply notates_itree|apply notates_var; apply notates_rtree].
Qed.

(** roll lists *)
Definition vroll_notates (v : vroll) : Prop := match v with VRoll k l r => notates l /\ notates r end.
Lemma notates_th th : notates (th_tree th) \/ th_tree th = NNil.
Proof. destruct th; [left; apply notates_itree|right; reflexivity]. Qed.

Lemma collect_ok {A} (l : list (outcome A)) : Forall is_ok l -> is_ok (collect l).
Proof.
  induction 1 as [|o l Ho _ IH]; [apply is_ok_ok|]. cbn [collect].
  apply is_ok_bind; [assumption|]. intros. apply is_ok_bind; [assumption|]. intros; apply is_ok_ok.
Qed.

Definition roll_text (v : vroll) : outcome string :=
  match v with
  | VRoll KRand l r => s <~ infix_text (OpVar KRand) l r true ;; Ok ("[" ++ s ++ "]")%string
  | VRoll k l r => infix_text (OpVar k) l r true
  end.
Lemma roll_text_ok v : vroll_notates v -> is_ok (roll_text v).
Proof.
  destruct v as [k l r]. intros (Hl & Hr).
  destruct k; cbn [roll_text]; try (apply infix_text_ok; assumption).
  apply is_ok_bind; [apply infix_text_ok; assumption|]. intros; apply is_ok_ok.
Qed.
Definition rolls_text (rolls : list vroll) : outcome string := ss <~ collect (map roll_text rolls) ;; Ok (join "+" ss).
Definition rlist_text (rolls : list vroll) (th : node) : outcome string :=
  ss <~ collect (map roll_text rolls) ;;
  if is_null th then onil
  else if is_nil th then Ok (join "+" ss)
  else t <~ infix_notation th true ;; Ok (join "+" ss ++ "[" ++ t ++ "]")%string.
Lemma notation_blist rolls w : infix_notation (NBRollList rolls) w = rolls_text rolls.
Proof. reflexivity. Qed.
Lemma notation_rlist rolls th w : infix_notation (NRRollList rolls th) w = rlist_text rolls th.
Proof. reflexivity. Qed.
Lemma rolls_collect_ok rolls : Forall vroll_notates rolls -> is_ok (collect (map roll_text rolls)).
Proof.
  intros H. apply collect_ok. rewrite Forall_map. eapply Forall_impl; [|exact H]. intros; apply roll_text_ok; assumption.
Qed.
Lemma rlist_text_ok rolls th : Forall vroll_notates rolls -> (notates th \/ th = NNil) -> is_ok (rlist_text rolls th).
Proof.
  intros H Ht. unfold rlist_text. apply is_ok_bind; [apply rolls_collect_ok; assumption|]. intros ss _.
  destruct Ht as [Ht| ->]; [|apply is_ok_ok].
  rewrite (notates_not_null _ Ht). destruct (is_nil th); [apply is_ok_ok|].
  apply is_ok_bind; [apply Ht|]. intros; apply is_ok_ok.
Qed.
Lemma notates_blist rolls : Forall vroll_notates rolls -> notates (NBRollList rolls).
Proof.
  intros H w. rewrite notation_blist. apply is_ok_bind; [apply rolls_collect_ok; assumption|]. intros; apply is_ok_ok.
Qed.
Lemma notates_rlist rolls th : Forall vroll_notates rolls -> (notates th \/ th = NNil) -> notates (NRRollList rolls th).
Proof. intros H Ht w. rewrite notation_rlist. apply rlist_text_ok; assumption. Qed.
Definition bonus_notates (b : option bonus) : Prop :=
  match b with None => True | Some (Bonus op _ r) => (op = OpAdd \/ op = OpSub) /\ notates r end.
Lemma notates_uexpr rolls th b :
  Forall vroll_notates rolls -> (notates th \/ th = NNil) -> bonus_notates b -> notates (NURollExpr rolls th b).
Proof.
  intros H Ht Hb w. destruct b as [[op l r]|].
  - destruct Hb as (Hop & Hr).
    change (infix_notation (NURollExpr rolls th (Some (Bonus op l r))) w) with
      (if is_basic_op op then
            ls <~ rlist_text rolls th ;;
            match op with
            | OpCmp s => rs <~ infix_notation r true ;; Ok (ls ++ s ++ rs)%string
            | _ => rs <~ paren_child op r (op_rassoc op) (infix_notation r true) (infix_notation r false) ;;
                Ok (notation_infix_text op ls rs)
            end
          else Panic "interface conversion").
    destruct Hop as [-> | ->]; cbn [is_basic_op]; (apply is_ok_bind; [apply rlist_text_ok; assumption|]; intros;
      apply is_ok_bind; [apply paren_child_ok; apply Hr|]; intros; apply is_ok_ok).
  - change (infix_notation (NURollExpr rolls th None) w) with (rlist_text rolls th). apply rlist_text_ok; assumption.
Qed.
Lemma notates_command t e : notates e -> notates (NCommand t e).
Proof.
  intros H w. destruct t; cbn [infix_notation]; try apply H. apply is_ok_bind; [apply H|]. intros; apply is_ok_ok.
Qed.

Lemma roll_tree_notates k r : vroll_notates (roll_tree k r).
Proof. split; apply notates_rtree. Qed.
Lemma rolls_notates k rs : Forall vroll_notates (map (roll_tree k) rs).
Proof. apply Forall_map, Forall_forall. intros. apply roll_tree_notates. Qed.
Lemma bonus_tree_notates b : bonus_notates (bonus_tree b).
Proof.
  destruct b as [[[|] e]|]; cbn; [..|exact I]; (split; [tauto|apply notates_itree]).
Qed.
Lemma notates_command_tree c : notates (command_tree c).
Proof.
  destruct c; cbn [command_tree].
  - apply notates_command, notates_itree.
  - apply notates_command, notates_dtree.
  - apply notates_command, notates_cmp; [apply notates_dtree|apply notates_itree].
  - apply notates_blist, rolls_notates.
  - apply notates_command, notates_cmp; [apply notates_blist, rolls_notates|apply notates_itree].
  - apply notates_rlist; [apply rolls_notates|apply notates_th].
  - apply notates_command, notates_cmp; [apply notates_rlist; [apply rolls_notates|apply notates_th]|apply notates_itree].
  - apply notates_uexpr; [apply rolls_notates|apply notates_th|apply bonus_tree_notates].
  - apply notates_command, notates_cmp;
      [apply notates_uexpr; [apply rolls_notates|apply notates_th|apply bonus_tree_notates]|apply notates_itree].
  - intros w. apply is_ok_ok.
Qed.
