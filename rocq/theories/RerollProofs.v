(** R commands: exact characterisation. *)
From Verif Require Import ProofBase Dice SpecDice DiceProofs Comp CompProofs Ast Eval Notation NotationProofs Command
  SpecSyntax ArithProofs SpecRoll SpecLists YieldsProofs DRollProofs ListProofs.
Open Scope list_scope.
Open Scope Z_scope.

Lemma count_ge_vals t vs : forall acc,
  count_ge t (map OInt vs) acc = Some (acc + Z.of_nat (length (filter (fun v => t <=? v) vs))).
Proof.
  induction vs as [|v vs IH]; intros acc; cbn [map count_ge filter length].
  - rewrite Z.add_0_r. reflexivity.
  - rewrite IH. destruct (t <=? v); cbn [length]; f_equal; lia.
Qed.
Lemma count_ge_at_least t g : count_ge t (vals g) 0 = Some (at_least t g).
Proof. unfold vals, at_least. rewrite count_ge_vals. reflexivity. Qed.

Lemma at_least_nonneg t g : 0 <= at_least t g.
Proof. unfold at_least. lia. Qed.

Definition gvals (groups : list (list die)) : list obj := map (fun g => OArray (vals g)) groups.

Lemma yields_r_loop t n : forall ps l gs ds o,
  yields l (eval_r_loop n t (map (lit_q KR) ps) gs) ds o <->
  exists groups, rerolls t n ps groups /\ ds = concat groups /\ o = OArray (gs ++ gvals groups).
Proof.
  induction n as [|n IH]; intros ps l gs ds o.
  - cbn. split.
    + intros (-> & ->). exists []. cbn. rewrite app_nil_r. split; [constructor|]. split; reflexivity.
    + intros (groups & H & -> & ->). inversion H; subst; cbn; rewrite app_nil_r; split; reflexivity.
  - destruct ps as [|(x & y) ps].
    + cbn. split.
      * intros (-> & ->). exists []. cbn. rewrite app_nil_r. split; [constructor|]. split; reflexivity.
      * intros (groups & H & -> & ->). inversion H; subst; cbn; rewrite app_nil_r; split; reflexivity.
    + cbn [map eval_r_loop]. rewrite (eval_qroll_lit KR (x, y) (or_intror eq_refl)). cbn [fst snd]. rewrite yields_bind. split.
      * intros (d1 & d2 & q & -> & H1 & H2). apply yields_basic_roll in H1 as (Hr & ->). rewrite count_ge_at_least in H2.
        pose proof (at_least_nonneg t d1).
        destruct (0 <? at_least t d1) eqn:E.
        -- change [QRoll KR (Some (CRet (OInt (at_least t d1)))) (q_sides (lit_q KR (x, y)))] with (map (lit_q KR) [(at_least t d1, y)]) in H2.
           rewrite <- map_app in H2. apply IH in H2 as (groups & Hg & -> & ->). exists (d1 :: groups).
           split; [apply rerolls_more; [exact Hr|lia|exact Hg]|]. split; [reflexivity|]. cbn [gvals map]. rewrite <- app_assoc. reflexivity.
        -- apply IH in H2 as (groups & Hg & -> & ->). exists (d1 :: groups).
           split; [apply rerolls_none; [exact Hr|lia|exact Hg]|]. split; [reflexivity|]. cbn [gvals map]. rewrite <- app_assoc. reflexivity.
      * intros (groups & H & -> & ->). inversion H as [| |? ? ? ? g gs' Hr Hz Hg|? ? ? ? g gs' Hr Hz Hg]; subst.
        -- exists g, (concat gs'), (OArray (vals g)). split; [reflexivity|]. split; [apply yields_basic_roll; split; [exact Hr|reflexivity]|].
           rewrite count_ge_at_least. replace (0 <? at_least t g) with false by lia. apply IH. exists gs'. split; [exact Hg|]. split; [reflexivity|].
           cbn [gvals map]. rewrite <- app_assoc. reflexivity.
        -- exists g, (concat gs'), (OArray (vals g)). split; [reflexivity|]. split; [apply yields_basic_roll; split; [exact Hr|reflexivity]|].
           rewrite count_ge_at_least. replace (0 <? at_least t g) with true by lia.
           change [QRoll KR (Some (CRet (OInt (at_least t g)))) (q_sides (lit_q KR (x, y)))] with (map (lit_q KR) [(at_least t g, y)]).
           rewrite <- map_app. apply IH. exists gs'. split; [exact Hg|]. split; [reflexivity|].
           cbn [gvals map]. rewrite <- app_assoc. reflexivity.
Qed.

Lemma yields_va_rlist l mr rs th ds n' : Forall roll_ok rs ->
  (yields l (eval_var_args mr (NRRollList (map (roll_tree KR) rs) (th_tree th))) ds n' <->
   exists ps t, settle_rolls rs ds ps /\ threshold_value th t /\ n' = NRRollList (map (lit_roll KR) ps) (opt_node t)).
Proof.
  intros Hok. cbn [eval_var_args]. rewrite yields_bind2_ret. split.
  - intros (d1 & d2 & th' & vs & -> & H1 & H2 & ->). apply yields_va_threshold in H1 as (-> & t & Ht & ->).
    apply (yields_va_rolls mr KR rs ltac:(discriminate) Hok) in H2 as (ps & H & ->). exists ps, t. repeat split; assumption.
  - intros (ps & t & H & Ht & ->). exists [], ds, (opt_node t), (map (lit_roll KR) ps). split; [reflexivity|].
    split; [apply yields_va_threshold; split; [reflexivity|]; exists t; split; [exact Ht|reflexivity]|].
    split; [|reflexivity]. apply (yields_va_rolls mr KR rs ltac:(discriminate) Hok). exists ps. split; [exact H|reflexivity].
Qed.

Lemma check_r_threshold mr t : check_r_roll_threshold mr (opt_node t) = CRet (hint hint_r t).
Proof.
  destruct t as [v|]; [|reflexivity]. cbn. unfold hint, hint_small. destruct (v <? 2); reflexivity.
Qed.
Lemma check_u_threshold mr t : check_u_roll_threshold mr (opt_node t) = CRet (hint hint_u t).
Proof.
  destruct t as [v|]; [|reflexivity]. cbn. unfold hint, hint_small. destruct (v <? 2); reflexivity.
Qed.

Lemma eval_rlist mr ps v :
  eval mr (NRRollList (map (lit_roll KR) ps) (NInt v)) = eval_r_loop (Z.to_nat mr) v (map (lit_q KR) ps) [].
Proof.
  rewrite <- (to_qroll_lit mr). reflexivity.
Qed.
Lemma format_r groups : format_r_roll_values (gvals groups) = Ok (join " + " (map values_word groups)).
Proof.
  unfold format_r_roll_values.
  assert (format_r_groups (gvals groups) = Ok (map values_word groups)) as ->; [|reflexivity].
  induction groups as [|g groups IH]; [reflexivity|]. cbn [gvals map format_r_groups]. fold (gvals groups).
  rewrite IH. cbn [obind]. rewrite joined_vals. reflexivity.
Qed.

Lemma gives_rlist gid r rs th ds res : Forall roll_ok (r :: rs) ->
  (gives gid (command_tree (RList r rs th)) ds res <->
   exists ops ps t,
     settle_rolls (r :: rs) ops ps /\ threshold_value th t /\
     match hint hint_r t, t with
     | Some h, _ => ds = ops /\ res = Result gid [parenthesize (rolls_words "R" ps ++ threshold_word t); h] [] Unspecified false
     | None, Some v => exists groups, rerolls v cap ps groups /\ ds = ops ++ concat groups /\
         res = Result gid [parenthesize (rolls_words "R" ps ++ threshold_word t); join " + " (map values_word groups)] ds Unspecified false
     | None, None => False
     end).
Proof.
  intros Hok. rewrite gives_yields. cbn [command_tree execute]. unfold execute_r_roll_list. rewrite yields_bind. split.
  - intros (d1 & d2 & p & -> & H1 & H2). apply yields_args_notation in H1 as (n' & s & H1 & Hs & ->).
    apply (yields_va_rlist _ _ _ _ _ _ Hok) in H1 as (ps & t & Hps & Ht & ->).
    rewrite notation_rlist, (rlist_text_lit KR ps t ltac:(discriminate)) in Hs. injection Hs as <-.
    cbn beta iota in H2. rewrite check_r_threshold in H2. cbn [cbind] in H2. exists d1, ps, t. split; [exact Hps|]. split; [exact Ht|].
    destruct (hint hint_r t) as [h|] eqn:Eh.
    + destruct H2 as (-> & ->). rewrite app_nil_r. split; reflexivity.
    + destruct t as [v|]; [|discriminate]. cbn [opt_node] in H2. rewrite eval_rlist in H2.
      apply yields_bind in H2 as (d3 & d4 & o & -> & H2 & H3).
      apply yields_r_loop in H2 as (groups & Hg & -> & ->). cbn [app] in H3. cbn [yields] in H3.
      rewrite format_r in H3. cbn in H3. destruct H3 as (-> & ->). rewrite app_nil_r.
      exists groups. split; [exact Hg|]. split; reflexivity.
  - intros (ops & ps & t & Hps & Ht & H).
    exists ops, (match hint hint_r t with Some _ => [] | None => skipn (length ops) ds end),
      (NRRollList (map (lit_roll KR) ps) (opt_node t), (rolls_words "R" ps ++ threshold_word t)%string).
    assert (yields [] (eval_var_args_notation default_max_rerolls (NRRollList (map (roll_tree KR) (r :: rs)) (th_tree th))) ops
      (NRRollList (map (lit_roll KR) ps) (opt_node t), (rolls_words "R" ps ++ threshold_word t)%string)) as Hy.
    { apply yields_args_notation. eexists _, _. split; [apply (yields_va_rlist _ _ _ _ _ _ Hok); exists ps, t; repeat split; assumption|].
      split; [|reflexivity]. rewrite notation_rlist. apply (rlist_text_lit KR ps t). discriminate. }
    destruct (hint hint_r t) as [h|] eqn:Eh.
    + destruct H as (-> & ->). rewrite app_nil_r. split; [reflexivity|]. split; [exact Hy|]. cbn beta iota. rewrite check_r_threshold, Eh. split; reflexivity.
    + destruct t as [v|]; [|contradiction]. destruct H as (groups & Hg & -> & ->).
      assert (skipn (length ops) (ops ++ concat groups) = concat groups) as ->.
      { clear. induction ops; cbn; [reflexivity|assumption]. }
      split; [reflexivity|]. split; [exact Hy|]. cbn beta iota. rewrite check_r_threshold, Eh. cbn [cbind opt_node]. rewrite eval_rlist.
      apply yields_bind. exists (concat groups), [], (OArray (gvals groups)). rewrite app_nil_r. split; [reflexivity|].
      split; [apply yields_r_loop; exists groups; repeat split; assumption|]. cbn [yields]. rewrite format_r. cbn. split; reflexivity.
Qed.

(** the size of groups, for the sum of the success counts *)
Lemma rerolls_groups t n ps groups : rerolls t n ps groups ->
  (length groups <= n)%nat /\ Forall (fun g => Z.of_nat (length g) <= max_alloc_16) groups.
Proof.
  induction 1 as [q|n|n x y q g gs Hr Hz H (IH1 & IH2)|n x y q g gs Hr Hz H (IH1 & IH2)]; cbn [length].
  - split; [lia|constructor].
  - split; [lia|constructor].
  - split; [lia|]. constructor; [|exact IH2]. destruct Hr as (R1 & R2 & R3 & R4). lia.
  - split; [lia|]. constructor; [|exact IH2]. destruct Hr as (R1 & R2 & R3 & R4). lia.
Qed.
Lemma matching_app op w a b : matching op w (a ++ b) = matching op w a + matching op w b.
Proof. unfold matching. rewrite filter_app, app_length. lia. Qed.
Lemma filter_length_le {A} (f : A -> bool) l : (length (filter f l) <= length l)%nat.
Proof. induction l as [|a l IH]; cbn; [lia|]. destruct (f a); cbn; lia. Qed.
Lemma matching_le op w vs : 0 <= matching op w vs <= Z.of_nat (length vs).
Proof. unfold matching. pose proof (filter_length_le (fun v => compareb op v w) vs). lia. Qed.
Lemma values_app a b : values (a ++ b) = values a ++ values b.
Proof. apply map_app. Qed.
Lemma values_length a : length (values a) = length a.
Proof. apply map_length. Qed.

Lemma count_groups op w groups : is_compare_op op -> forall acc,
  0 <= acc -> acc + Z.of_nat (length (concat groups)) <= max_int ->
  count_group_successes (gvals groups) op w acc = CRet (acc + matching op w (values (concat groups))).
Proof.
  intros Hop. induction groups as [|g groups IH]; intros acc H0 H; cbn [gvals map count_group_successes concat].
  - unfold matching. cbn. rewrite Z.add_0_r. reflexivity.
  - unfold vals at 1. rewrite (count_vals op w _ Hop). cbn [cbind]. fold (gvals groups).
    cbn [concat] in H. rewrite app_length in H. pose proof (matching_le op w (values g)). rewrite values_length in *.
    rewrite wrap64_id by (unfold in_int64, min_int, two63; lia).
    rewrite IH by lia. rewrite values_app, matching_app. f_equal. lia.
Qed.
Lemma concat_length_bound {A} (groups : list (list A)) m : Forall (fun g => Z.of_nat (length g) <= m) groups ->
  Z.of_nat (length (concat groups)) <= m * Z.of_nat (length groups).
Proof.
  induction 1 as [|g gs Hg _ IH]; cbn [concat length]; [lia|]. rewrite app_length. lia.
Qed.
Lemma rerolls_small t ps groups : rerolls t cap ps groups -> Z.of_nat (length (concat groups)) <= max_int.
Proof.
  intros H. apply rerolls_groups in H as (H1 & H2). apply concat_length_bound in H2. unfold cap in H1.
  assert (Z.of_nat (length groups) <= 10000) by lia. unfold max_alloc_16, max_int, two63 in *. lia.
Qed.

Lemma set_threshold mr t w : set_reroll_threshold mr (opt_node t) (NInt w) = CRet (NInt (match t with Some v => v | None => w end)).
Proof. destruct t; reflexivity. Qed.

Lemma gives_rcomp gid r rs th op tg ds res : Forall roll_ok (r :: rs) -> is_compare_op op ->
  (gives gid (command_tree (RComp r rs th op tg)) ds res <->
   exists ops ps given w,
     settle_rolls (r :: rs) ops ps /\ threshold_value th given /\ has_value tg w /\
     let t := match given with Some v => v | None => w end in
     let head := parenthesize (rolls_words "R" ps ++ threshold_word (Some t) ++ op ++ itoa w) in
     match hint hint_r (Some t) with
     | Some h => ds = ops /\ res = Result gid [head; h] [] Unspecified false
     | None => exists groups, rerolls t cap ps groups /\ ds = ops ++ concat groups /\
         res = Result gid [head; join " + " (map values_word groups);
                           ("成功数" ++ itoa (matching op w (values (concat groups))))%string] ds Unspecified false
     end).
Proof.
  intros Hok Hop. rewrite gives_yields. cbn [command_tree execute]. unfold execute_r_roll_comp. cbn [is_basic_op].
  assert (forall ps t w, infix_notation (NCommand CRRollComp (NInfix (OpCmp op) (NRRollList (map (lit_roll KR) ps) (NInt t)) (NInt w))) true
     = Ok (rolls_words "R" ps ++ threshold_word (Some t) ++ op ++ itoa w)%string) as Hnot.
  { intros. change (infix_notation (NCommand CRRollComp (NInfix (OpCmp op) (NRRollList (map (lit_roll KR) ps) (NInt t)) (NInt w))) true) with
      (ls <~ rlist_text (map (lit_roll KR) ps) (opt_node (Some t)) ;; rs <~ Ok (itoa w) ;; Ok (ls ++ op ++ rs)%string).
    rewrite (rlist_text_lit KR ps (Some t) ltac:(discriminate)). cbn [obind]. f_equal.
    cbn [vkind_operator]. generalize (rolls_words "R" ps) as a. generalize (threshold_word (Some t)) as b. clear.
    intros b a. induction a as [|c a IH]; [reflexivity|]. cbn [append]. f_equal. exact IH. }
  assert (forall ps t w, eval default_max_rerolls (NCommand CRRollComp (NInfix (OpCmp op) (NRRollList (map (lit_roll KR) ps) (NInt t)) (NInt w))) =
    eval_r_roll_comp op (Some (eval default_max_rerolls (NRRollList (map (lit_roll KR) ps) (NInt t)))) (Some (CRet (OInt w)))) as Hev by reflexivity.
  rewrite yields_bind. split.
  - intros (d1 & d2 & n' & -> & H1 & H2). apply yields_va_cmp in H1 as (m & w & H1 & Hw & ->).
    apply (yields_va_rlist _ _ _ _ _ _ Hok) in H1 as (ps & t & Hps & Ht & ->).
    rewrite set_threshold in H2. cbn [cbind] in H2. rewrite Hnot in H2. cbn [clift cbind] in H2.
    set (v := match t with Some v => v | None => w end) in *.
    change (NInt v) with (opt_node (Some v)) in H2 at 1. rewrite check_r_threshold in H2. cbn [cbind] in H2.
    exists d1, ps, t, w. split; [exact Hps|]. split; [exact Ht|]. split; [exact Hw|]. fold v. cbv zeta.
    destruct (hint hint_r (Some v)) as [h|] eqn:Eh.
    + destruct H2 as (-> & ->). rewrite app_nil_r. split; reflexivity.
    + rewrite Hev in H2. apply yields_bind in H2 as (d3 & d4 & o & -> & H2 & H3).
      unfold eval_r_roll_comp in H2. apply yields_bind in H2 as (d5 & d6 & (vo & wo) & -> & H2 & H4).
      apply yields_operands in H2 as (d7 & d8 & -> & H2 & H5). cbn [fst snd] in *. destruct H5 as (-> & ->).
      rewrite eval_rlist in H2. apply yields_r_loop in H2 as (groups & Hg & -> & ->). cbn [app] in H4.
      rewrite (count_groups op w groups Hop 0) in H4 by (try lia; apply (rerolls_small v ps); exact Hg).
      cbn in H4. destruct H4 as (-> & ->). cbn [yields] in H3. rewrite format_r in H3. cbn in H3. destruct H3 as (-> & ->).
      rewrite !app_nil_r. exists groups. split; [exact Hg|]. split; reflexivity.
  - intros (ops & ps & t & w & Hps & Ht & Hw & H). cbv zeta in H. set (v := match t with Some v => v | None => w end) in *.
    exists ops, (match hint hint_r (Some v) with Some _ => [] | None => skipn (length ops) ds end),
      (NInfix (OpCmp op) (NRRollList (map (lit_roll KR) ps) (opt_node t)) (NInt w)).
    assert (yields [] (eval_var_args default_max_rerolls (NInfix (OpCmp op) (NRRollList (map (roll_tree KR) (r :: rs)) (th_tree th)) (itree tg))) ops
      (NInfix (OpCmp op) (NRRollList (map (lit_roll KR) ps) (opt_node t)) (NInt w))) as Hy.
    { apply yields_va_cmp. eexists _, w. split; [apply (yields_va_rlist _ _ _ _ _ _ Hok); exists ps, t; repeat split; assumption|]. split; [exact Hw|reflexivity]. }
    assert (ds = ops ++ match hint hint_r (Some v) with Some _ => [] | None => skipn (length ops) ds end) as Hds.
    { destruct (hint hint_r (Some v)); [destruct H as (-> & _); rewrite app_nil_r; reflexivity|].
      destruct H as (groups & _ & -> & _). f_equal. clear. induction ops; cbn; [reflexivity|assumption]. }
    split; [exact Hds|]. split; [exact Hy|].
    rewrite set_threshold. cbn [cbind]. fold v. rewrite Hnot. cbn [clift cbind].
    change (NInt v) with (opt_node (Some v)) at 1. rewrite check_r_threshold. cbn [cbind].
    destruct (hint hint_r (Some v)) as [h|] eqn:Eh.
    + destruct H as (-> & ->). split; reflexivity.
    + destruct H as (groups & Hg & -> & ->). apply app_inv_head in Hds. rewrite <- Hds. rewrite Hev.
      apply yields_bind. exists (concat groups), [], (ORRollComp (gvals groups) (matching op w (values (concat groups)))). rewrite app_nil_r. split; [reflexivity|]. split.
      * unfold eval_r_roll_comp. apply yields_bind. exists (concat groups), [], (OArray (gvals groups), OInt w). rewrite app_nil_r. split; [reflexivity|]. split.
        -- apply yields_operands. exists (concat groups), []. rewrite app_nil_r. split; [reflexivity|]. cbn [fst snd]. split; [|split; reflexivity].
           rewrite eval_rlist. apply yields_r_loop. exists groups. repeat split; assumption.
        -- rewrite (count_groups op w groups Hop 0) by (try lia; apply (rerolls_small v ps); exact Hg). cbn. split; reflexivity.
      * cbn [yields]. rewrite format_r. cbn. split; reflexivity.
Qed.
