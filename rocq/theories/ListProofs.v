(** B, R, U and CHOICE commands: exact characterisations. *)
From Verif Require Import ProofBase Dice SpecDice DiceProofs Comp CompProofs Ast Eval Notation NotationProofs Command
  SpecSyntax ArithProofs SpecRoll SpecLists YieldsProofs DRollProofs.
Open Scope list_scope.
Open Scope Z_scope.

Definition lit_roll (k : vkind) (p : Z * Z) : vroll := VRoll k (NInt (fst p)) (NInt (snd p)).
Definition lit_q (k : vkind) (p : Z * Z) : qroll := QRoll k (Some (CRet (OInt (fst p)))) (Some (CRet (OInt (snd p)))).

(** ** operand evaluation *)
Lemma yields_va_rolls mr k rs : k <> KRand -> Forall roll_ok rs -> forall l ds vs,
  yields l (var_args_rolls mr (map (roll_tree k) rs)) ds vs <-> exists ps, settle_rolls rs ds ps /\ vs = map (lit_roll k) ps.
Proof.
  intros Hk. induction rs as [|(n & s) rs IH]; intros Hok l ds vs.
  - cbn. split.
    + intros (-> & ->). exists []. split; [constructor|reflexivity].
    + intros (ps & H & ->). inversion H; subst. split; reflexivity.
  - inversion Hok as [|? ? (Hn & Hs) Hrs]; subst. specialize (IH Hrs).
    cbn [map roll_tree fst snd var_args_rolls].
    assert (var_args_of_vroll mr k (rtree n) (rtree s) = eval_roll_args mr (rtree n) (rtree s)) as -> by (destruct k; try reflexivity; contradiction).
    rewrite yields_bind. split.
    + intros (d1 & d2 & p & -> & H1 & H2). apply (yields_roll_args _ mr n s _ _ Hn Hs) in H1 as (d3 & d4 & x & y & -> & Hx & Hy & ->).
      apply yields_bind_ret in H2 as (vs' & H2 & ->). apply IH in H2 as (ps & H2 & ->).
      exists ((x, y) :: ps). rewrite <- app_assoc. split; [constructor; assumption|reflexivity].
    + intros (ps & H & ->). inversion H; subst. exists (d1 ++ d2), d3, (NInt x, NInt y). rewrite <- app_assoc. split; [reflexivity|].
      split; [apply (yields_roll_args _ mr n s _ _ Hn Hs); exists d1, d2, x, y; repeat split; assumption|].
      apply yields_bind_ret. eexists. split; [apply IH; eexists; split; [eassumption|reflexivity]|reflexivity].
Qed.
Lemma settle_rolls_length rs ds ps : settle_rolls rs ds ps -> length ps = length rs.
Proof. induction 1; cbn; congruence. Qed.

Definition opt_node (t : option Z) : node := match t with None => NNil | Some v => NInt v end.
Lemma yields_va_threshold mr th : forall l ds n',
  yields l (var_args_threshold mr (th_tree th)) ds n' <-> ds = [] /\ exists t, threshold_value th t /\ n' = opt_node t.
Proof.
  intros l ds n'. destruct th as [e|].
  - unfold var_args_threshold. cbn [th_tree]. rewrite itree_not_null.
    assert (is_nil (itree e) = false) as -> by (destruct e; reflexivity).
    rewrite yields_bind. split.
    + intros (d1 & d2 & o & -> & H1 & H2). apply yields_itree in H1 as (-> & v & -> & Hv). cbn in H2. destruct H2 as (-> & ->).
      split; [reflexivity|]. exists (Some v). split; [exact Hv|reflexivity].
    + intros (-> & t & Ht & ->). destruct t as [v|]; [|contradiction]. exists [], [], (OInt v). split; [reflexivity|].
      split; [apply yields_itree; split; [reflexivity|]; exists v; split; [reflexivity|exact Ht]|]. split; reflexivity.
  - cbn. split.
    + intros (-> & ->). split; [reflexivity|]. exists None. split; [exact I|reflexivity].
    + intros (-> & t & Ht & ->). destruct t; [contradiction|]. split; reflexivity.
Qed.

(** ** notation of settled lists *)
Lemma roll_text_lit k p : k <> KRand -> roll_text (lit_roll k p) = Ok (roll_word (vkind_operator k) p).
Proof. intros Hk. destruct k; try reflexivity. contradiction. Qed.
Lemma collect_map_ok {A B} (f : A -> outcome B) (g : A -> B) l : (forall a, f a = Ok (g a)) -> collect (map f l) = Ok (map g l).
Proof. intros H. induction l as [|a l IH]; [reflexivity|]. cbn [map collect]. rewrite H, IH. reflexivity. Qed.
Lemma collect_lit k ps : k <> KRand -> collect (map roll_text (map (lit_roll k) ps)) = Ok (map (roll_word (vkind_operator k)) ps).
Proof. intros Hk. rewrite map_map. apply collect_map_ok. intros p. apply roll_text_lit, Hk. Qed.
Lemma append_nil_r s : (s ++ "")%string = s.
Proof. induction s as [|a s IH]; cbn; [reflexivity|]. rewrite IH. reflexivity. Qed.
Lemma rlist_text_lit k ps t : k <> KRand ->
  rlist_text (map (lit_roll k) ps) (opt_node t) = Ok (rolls_words (vkind_operator k) ps ++ threshold_word t)%string.
Proof.
  intros Hk. unfold rlist_text. rewrite (collect_lit k ps Hk). cbn [obind]. destruct t; cbn; [reflexivity|].
  rewrite append_nil_r. reflexivity.
Qed.

(** ** B lists *)
Lemma to_qroll_lit mr k ps : map (to_qroll mr) (map (lit_roll k) ps) = map (lit_q k) ps.
Proof. rewrite map_map. reflexivity. Qed.
Lemma eval_blist mr rolls : eval mr (NBRollList rolls) = eval_b_roll_list (map (to_qroll mr) rolls) [].
Proof. reflexivity. Qed.
Lemma eval_qroll_lit k p : k = KB \/ k = KR -> eval_qroll (lit_q k p) = eval_basic_roll (fst p) (snd p).
Proof. intros [->| ->]; reflexivity. Qed.
Definition vals (g : list die) : list obj := map OInt (values g).
Lemma map_vals ds : map (fun d => OInt (die_value d)) ds = vals ds.
Proof. unfold vals, values. rewrite map_map. reflexivity. Qed.
Lemma vals_app a b : vals (a ++ b) = vals a ++ vals b.
Proof. unfold vals, values. rewrite !map_app. reflexivity. Qed.
Lemma yields_basic_roll l x y ds o : yields l (eval_basic_roll x y) ds o <-> rolled x y ds /\ o = OArray (vals ds).
Proof.
  cbn. split.
  - intros (d1 & d2 & -> & Hr & -> & ->). rewrite app_nil_r, map_vals. split; [exact Hr|reflexivity].
  - intros (Hr & ->). exists ds, []. rewrite app_nil_r, map_vals. repeat split; apply Hr.
Qed.
Lemma yields_b_list k ps : k = KB \/ k = KR -> forall l elems ds o,
  yields l (eval_b_roll_list (map (lit_q k) ps) elems) ds o <->
  exists groups, rolled_each ps groups /\ ds = concat groups /\ o = OArray (elems ++ vals ds).
Proof.
  intros Hk. induction ps as [|p ps IH]; intros l elems ds o.
  - cbn. split.
    + intros (-> & ->). exists []. rewrite app_nil_r. split; [constructor|]. split; reflexivity.
    + intros (gs & H & -> & ->). inversion H; subst. cbn. rewrite app_nil_r. split; reflexivity.
  - cbn [map eval_b_roll_list]. rewrite (eval_qroll_lit k p Hk), yields_bind. split.
    + intros (d1 & d2 & q & -> & H1 & H2). apply yields_basic_roll in H1 as (Hr & ->). apply IH in H2 as (gs & Hg & -> & ->).
      exists (d1 :: gs). split; [constructor; assumption|]. split; [reflexivity|]. cbn [concat]. rewrite vals_app, app_assoc. reflexivity.
    + intros (gs & H & -> & ->). inversion H as [|? g ? gs' Hr Hg]; subst. exists g, (concat gs'), (OArray (vals g)). split; [reflexivity|].
      split; [apply yields_basic_roll; split; [exact Hr|reflexivity]|]. apply IH. exists gs'. split; [exact Hg|]. split; [reflexivity|].
      cbn [concat]. rewrite vals_app, app_assoc. reflexivity.
Qed.
Lemma joined_vals sep g : joined_elements sep (vals g) = join sep (map itoa (values g)).
Proof. unfold joined_elements, vals. rewrite map_map. reflexivity. Qed.

Lemma execute_blist mr gid rolls : execute mr gid (NBRollList rolls) = execute_b_roll_list mr gid (NBRollList rolls).
Proof. reflexivity. Qed.

(** the first two steps of a command: operands, then notation *)
Lemma yields_args_notation l mr n ds p :
  yields l (eval_var_args_notation mr n) ds p <->
  exists n' s, yields l (eval_var_args mr n) ds n' /\ infix_notation n' true = Ok s /\ p = (n', s).
Proof.
  unfold eval_var_args_notation. rewrite yields_bind. split.
  - intros (d1 & d2 & n' & -> & H1 & H2). apply yields_clift_bind in H2 as (s & Hs & -> & ->). rewrite app_nil_r.
    exists n', s. repeat split; assumption.
  - intros (n' & s & H1 & Hs & ->). exists ds, [], n'. rewrite app_nil_r. split; [reflexivity|]. split; [exact H1|].
    apply yields_clift_bind. exists s. split; [exact Hs|]. split; reflexivity.
Qed.

Lemma yields_va_blist l mr rs ds n' : Forall roll_ok rs ->
  (yields l (eval_var_args mr (NBRollList (map (roll_tree KB) rs))) ds n' <->
   exists ps, settle_rolls rs ds ps /\ n' = NBRollList (map (lit_roll KB) ps)).
Proof.
  intros Hok. cbn [eval_var_args]. rewrite yields_bind_ret. split.
  - intros (vs & H & ->). apply (yields_va_rolls mr KB rs ltac:(discriminate) Hok) in H as (ps & H & ->). exists ps. split; [exact H|reflexivity].
  - intros (ps & H & ->). eexists. split; [apply (yields_va_rolls mr KB rs ltac:(discriminate) Hok); eexists; split; [exact H|reflexivity]|reflexivity].
Qed.

Lemma gives_blist gid r rs ds res : Forall roll_ok (r :: rs) ->
  (gives gid (command_tree (BList r rs)) ds res <->
   exists ops ps groups,
     settle_rolls (r :: rs) ops ps /\ rolled_each ps groups /\ ds = ops ++ concat groups /\
     res = Result gid [parenthesize (rolls_words "B" ps); values_word (concat groups)] ds Unspecified false).
Proof.
  intros Hok. rewrite gives_yields. cbn [command_tree execute]. unfold execute_b_roll_list. rewrite yields_bind. split.
  - intros (d1 & d2 & p & -> & H1 & H2). apply yields_args_notation in H1 as (n' & s & H1 & Hs & ->).
    apply (yields_va_blist _ _ _ _ _ Hok) in H1 as (ps & Hps & ->).
    rewrite notation_blist in Hs. unfold rolls_text in Hs. rewrite (collect_lit KB ps ltac:(discriminate)) in Hs. injection Hs as <-.
    cbn beta iota in H2. rewrite eval_blist, to_qroll_lit in H2.
    apply yields_bind in H2 as (d3 & d4 & o & -> & H2 & H3).
    apply (yields_b_list KB ps (or_introl eq_refl)) in H2 as (gs & Hg & -> & ->).
    cbn [app] in H3. rewrite joined_vals in H3. cbn in H3. destruct H3 as (-> & ->). rewrite app_nil_r.
    exists d1, ps, gs. split; [exact Hps|]. split; [exact Hg|]. split; [reflexivity|].
    reflexivity.
  - intros (ops & ps & gs & Hps & Hg & -> & ->). exists ops, (concat gs), (NBRollList (map (lit_roll KB) ps), rolls_words "B" ps).
    split; [reflexivity|]. split.
    + apply yields_args_notation. eexists _, _. split; [apply (yields_va_blist _ _ _ _ _ Hok); eexists; split; [exact Hps|reflexivity]|].
      split; [|reflexivity]. rewrite notation_blist. unfold rolls_text. rewrite (collect_lit KB ps ltac:(discriminate)). reflexivity.
    + cbn beta iota. rewrite eval_blist, to_qroll_lit. apply yields_bind. exists (concat gs), [], (OArray (vals (concat gs))).
      rewrite app_nil_r. split; [reflexivity|]. split; [apply (yields_b_list KB ps (or_introl eq_refl)); exists gs; repeat split; assumption|].
      rewrite joined_vals. split; [reflexivity|]. reflexivity.
Qed.

(** ** counting *)
Lemma count_vals op w vs : is_compare_op op -> forall acc,
  count_successes (map OInt vs) op w acc = CRet (acc + matching op w vs).
Proof.
  intros Hop. unfold matching. induction vs as [|v vs IH]; intros acc; cbn [map count_successes filter length].
  - rewrite Z.add_0_r. reflexivity.
  - cbn [obj_int cbind]. rewrite (eval_compare op v w Hop). cbn [cbind]. rewrite IH.
    destruct (compareb op v w); cbn [length]; f_equal; lia.
Qed.
Lemma cmp_va mr op l r : eval_var_args mr (NInfix (OpCmp op) l r) =
  (l' <- eval_var_args mr l ;; ro <- eval mr r ;; rv <- obj_int ro ;; CRet (NInfix (OpCmp op) l' (NInt rv))).
Proof. reflexivity. Qed.
Lemma yields_va_cmp l mr op n t ds n' :
  yields l (eval_var_args mr (NInfix (OpCmp op) n (itree t))) ds n' <->
  exists m w, yields l (eval_var_args mr n) ds m /\ has_value t w /\ n' = NInfix (OpCmp op) m (NInt w).
Proof.
  rewrite cmp_va, yields_bind. split.
  - intros (d1 & d2 & m & -> & H1 & H2). apply yields_bind in H2 as (d3 & d4 & o & -> & H2 & H3).
    apply yields_itree in H2 as (-> & w & -> & Hw). cbn in H3. destruct H3 as (-> & ->). rewrite !app_nil_r. exists m, w. repeat split; assumption.
  - intros (m & w & H1 & Hw & ->). exists ds, [], m. rewrite app_nil_r. split; [reflexivity|]. split; [exact H1|].
    apply yields_bind. exists [], [], (OInt w). split; [reflexivity|]. split; [apply yields_itree; split; [reflexivity|]; exists w; split; [reflexivity|exact Hw]|].
    split; reflexivity.
Qed.

Lemma gives_bcomp gid r rs op t ds res : Forall roll_ok (r :: rs) -> is_compare_op op ->
  (gives gid (command_tree (BComp r rs op t)) ds res <->
   exists ops ps groups w,
     settle_rolls (r :: rs) ops ps /\ rolled_each ps groups /\ ds = ops ++ concat groups /\ has_value t w /\
     res = Result gid [parenthesize (rolls_words "B" ps ++ op ++ itoa w); values_word (concat groups);
                       ("成功数" ++ itoa (matching op w (values (concat groups))))%string] ds Unspecified false).
Proof.
  intros Hok Hop. rewrite gives_yields. cbn [command_tree execute]. unfold execute_b_roll_comp. cbn [is_basic_op]. rewrite yields_bind. split.
  - intros (d1 & d2 & p & -> & H1 & H2). apply yields_args_notation in H1 as (n' & s & H1 & Hs & ->).
    apply yields_va_cmp in H1 as (m & w & H1 & Hw & ->).
    apply (yields_va_blist _ _ _ _ _ Hok) in H1 as (ps & Hps & ->).
    cbn [infix_notation] in Hs. change (collect _) with (collect (map roll_text (map (lit_roll KB) ps))) in Hs.
    rewrite (collect_lit KB ps ltac:(discriminate)) in Hs. cbn [obind] in Hs. injection Hs as <-.
    apply yields_bind in H2 as (d3 & d4 & o & -> & H2 & H3).
    change (eval default_max_rerolls (NCommand CBRollComp (NInfix (OpCmp op) (NBRollList (map (lit_roll KB) ps)) (NInt w)))) with
      (eval_b_roll_comp op (Some (eval default_max_rerolls (NBRollList (map (lit_roll KB) ps)))) (Some (CRet (OInt w)))) in H2.
    unfold eval_b_roll_comp in H2. apply yields_bind in H2 as (d5 & d6 & (vo & wo) & -> & H2 & H4).
    apply yields_operands in H2 as (d7 & d8 & -> & H2 & H5). cbn [fst snd] in *. destruct H5 as (-> & ->).
    rewrite eval_blist, to_qroll_lit in H2. apply (yields_b_list KB ps (or_introl eq_refl)) in H2 as (gs & Hg & -> & ->).
    cbn [app] in H4. unfold vals in H4 at 1. rewrite (count_vals op w _ Hop) in H4. cbn in H4. destruct H4 as (-> & ->).
    rewrite joined_vals in H3. cbn in H3. destruct H3 as (-> & ->). rewrite !app_nil_r.
    exists d1, ps, gs, w. split; [exact Hps|]. split; [exact Hg|]. split; [reflexivity|]. split; [exact Hw|].
    reflexivity.
  - intros (ops & ps & gs & w & Hps & Hg & -> & Hw & ->).
    exists ops, (concat gs), (NInfix (OpCmp op) (NBRollList (map (lit_roll KB) ps)) (NInt w), (rolls_words "B" ps ++ op ++ itoa w)%string).
    split; [reflexivity|]. split.
    + apply yields_args_notation. eexists _, _. split; [apply yields_va_cmp; eexists _, w; split; [apply (yields_va_blist _ _ _ _ _ Hok); eexists; split; [exact Hps|reflexivity]|split; [exact Hw|reflexivity]]|].
      split; [|reflexivity]. cbn [infix_notation]. change (collect _) with (collect (map roll_text (map (lit_roll KB) ps))).
      rewrite (collect_lit KB ps ltac:(discriminate)). reflexivity.
    + cbn beta iota. change (eval default_max_rerolls (NCommand CBRollComp (NInfix (OpCmp op) (NBRollList (map (lit_roll KB) ps)) (NInt w)))) with
      (eval_b_roll_comp op (Some (eval default_max_rerolls (NBRollList (map (lit_roll KB) ps)))) (Some (CRet (OInt w)))).
      apply yields_bind. exists (concat gs), [], (OBRollComp (vals (concat gs)) (matching op w (values (concat gs)))). rewrite app_nil_r. split; [reflexivity|]. split.
      * unfold eval_b_roll_comp. apply yields_bind. exists (concat gs), [], (OArray (vals (concat gs)), OInt w). rewrite app_nil_r. split; [reflexivity|]. split.
        -- apply yields_operands. exists (concat gs), []. rewrite app_nil_r. split; [reflexivity|]. cbn [fst snd]. split; [|split; reflexivity].
           rewrite eval_blist, to_qroll_lit. apply (yields_b_list KB ps (or_introl eq_refl)). exists gs. repeat split; assumption.
        -- unfold vals at 1. rewrite (count_vals op w _ Hop). cbn. split; reflexivity.
      * rewrite joined_vals. cbn. split; reflexivity.
Qed.
