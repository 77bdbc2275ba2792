(** U commands and CHOICE: exact characterisation. *)
From Verif Require Import ProofBase Dice SpecDice DiceProofs Comp CompProofs Ast Eval Notation NotationProofs Command
  SpecSyntax ArithProofs SpecRoll SpecLists YieldsProofs DRollProofs ListProofs RerollProofs.
Open Scope list_scope.
Open Scope Z_scope.

(** a chain, built die by die *)
Inductive uchain (t y : Z) : nat -> list die -> Prop :=
| uchain_cap : uchain t y 0 []
| uchain_stop n d : die_sides d = y -> die_value d < t -> uchain t y (S n) [d]
| uchain_go n d ds : die_sides d = y -> die_value d >= t -> uchain t y n ds -> uchain t y (S n) (d :: ds).
Lemma uchain_chain t y n g : uchain t y (S n) g <-> chain t y (S n) g.
Proof.
  revert g. induction n as [|n IH]; intros g.
  - split.
    + intros H. inversion H as [|? d Hs Hv|? d ds Hs Hv H']; subst.
      * split; [repeat constructor; exact Hs|]. exists [], d. split; [reflexivity|]. split; [constructor|]. cbn. split; [lia|tauto].
      * inversion H'; subst. split; [repeat constructor; exact Hs|]. exists [], d. split; [reflexivity|]. split; [constructor|]. cbn. split; [lia|tauto].
    + intros (Hs & init & last & -> & Hi & Hl & Hv). destruct init as [|a [|]]; cbn in Hl; try lia.
      cbn in *. inversion Hs; subst. destruct (Z_lt_ge_dec (die_value last) t); [apply uchain_stop; [reflexivity|assumption]|].
      apply uchain_go; [reflexivity|assumption|constructor].
  - split.
    + intros H. inversion H as [|? d Hs Hv|? d ds Hs Hv H']; subst.
      * split; [repeat constructor; exact Hs|]. exists [], d. split; [reflexivity|]. split; [constructor|]. cbn. split; [lia|tauto].
      * apply IH in H' as (Hs' & init & last & -> & Hi & Hl & Hl2). split; [constructor; [reflexivity|assumption]|].
        exists (d :: init), last. split; [reflexivity|]. split; [constructor; [lia|assumption]|]. cbn [length] in *. split; [lia|]. destruct Hl2; [tauto|]. right. lia.
    + intros (Hs & init & last & -> & Hi & Hl & Hv). destruct init as [|a init].
      * cbn in *. inversion Hs; subst. destruct Hv; [|lia]. apply uchain_stop; [reflexivity|assumption].
      * cbn [app length] in *. inversion Hs; subst. inversion Hi; subst. apply uchain_go; [reflexivity|assumption|]. apply IH.
        split; [assumption|]. exists init, last. split; [reflexivity|]. split; [assumption|]. split; [lia|]. destruct Hv; [tauto|right; lia].
Qed.

Lemma rolled_one y ds : rolled 1 y ds <-> 1 <= y /\ exists d, ds = [d] /\ die_sides d = y.
Proof.
  unfold rolled. split.
  - intros (_ & H2 & H3 & H4). split; [exact H2|]. destruct ds as [|d [|]]; cbn in H3; try lia. inversion H4; subst. exists d. split; reflexivity.
  - intros (H & d & -> & Hd). split; [unfold max_alloc_16; lia|]. split; [exact H|]. split; [reflexivity|]. constructor; [exact Hd|constructor].
Qed.

Lemma yields_u_chain y t : 1 <= y -> forall n l grp ds o,
  yields l (eval_u_chain n y t grp) ds o <-> uchain t y n ds /\ o = grp ++ vals ds.
Proof.
  intros Hy. induction n as [|n IH]; intros l grp ds o; cbn [eval_u_chain yields].
  - split.
    + intros (-> & ->). cbn. rewrite app_nil_r. split; [constructor|reflexivity].
    + intros (H & ->). inversion H; subst. cbn. rewrite app_nil_r. split; reflexivity.
  - split.
    + intros (d1 & d2 & -> & Hr & H). apply rolled_one in Hr as (_ & d & -> & Hd). destruct (die_value d <? t) eqn:E.
      * destruct H as (-> & ->). split; [apply uchain_stop; [exact Hd|lia]|reflexivity].
      * apply IH in H as (H & ->). split; [apply uchain_go; [exact Hd|lia|exact H]|]. rewrite <- app_assoc. reflexivity.
    + intros (H & ->). inversion H as [|? d Hs Hv|? d ds' Hs Hv H']; subst.
      * exists [d], []. split; [reflexivity|]. split; [apply rolled_one; split; [exact Hy|]; exists d; split; reflexivity|].
        replace (die_value d <? t) with true by lia. split; reflexivity.
      * exists [d], ds'. split; [reflexivity|]. split; [apply rolled_one; split; [exact Hy|]; exists d; split; reflexivity|].
        replace (die_value d <? t) with false by lia. apply IH. split; [exact H'|]. rewrite <- app_assoc. reflexivity.
Qed.

Lemma gvals_app a b : gvals (a ++ b) = gvals a ++ gvals b.
Proof. apply map_app. Qed.

Lemma yields_u_groups mr y t : 1 <= y -> forall n l gs ds o,
  yields l (eval_u_groups mr n y t gs) ds o <->
  exists groups, length groups = n /\ Forall (uchain t y (Z.to_nat mr)) groups /\ ds = concat groups /\ o = gs ++ gvals groups.
Proof.
  intros Hy. induction n as [|n IH]; intros l gs ds o; cbn [eval_u_groups].
  - cbn. split.
    + intros (-> & ->). exists []. cbn. rewrite app_nil_r. repeat split. constructor.
    + intros (groups & H & _ & -> & ->). destruct groups; [|discriminate]. cbn. rewrite app_nil_r. split; reflexivity.
  - rewrite yields_bind. split.
    + intros (d1 & d2 & g & -> & H1 & H2). apply (yields_u_chain y t Hy) in H1 as (H1 & ->). apply IH in H2 as (groups & Hl & Hf & -> & ->).
      exists (d1 :: groups). cbn [length concat gvals map]. split; [lia|]. split; [constructor; assumption|]. split; [reflexivity|]. rewrite <- app_assoc. reflexivity.
    + intros (groups & Hl & Hf & -> & ->). destruct groups as [|g groups]; [discriminate|]. injection Hl as Hl. inversion Hf; subst.
      exists g, (concat groups), (vals g). split; [reflexivity|]. split; [apply (yields_u_chain y t Hy); split; [assumption|reflexivity]|].
      apply IH. exists groups. split; [reflexivity|]. split; [assumption|]. split; [reflexivity|]. cbn [gvals map]. rewrite <- app_assoc. reflexivity.
Qed.

Lemma yields_compounding mr t p l ds o :
  yields l (eval_compounding_roll mr (lit_q KU p) t) ds o <->
  1 <= fst p <= max_alloc_16 /\ 1 <= snd p /\
  exists groups, Z.of_nat (length groups) = fst p /\ Forall (uchain t (snd p) (Z.to_nat mr)) groups /\ ds = concat groups /\ o = gvals groups.
Proof.
  unfold eval_compounding_roll. cbn [lit_q q_kind q_num q_sides eval_operands cbind].
  destruct (snd p <? 1) eqn:E1; [cbn; split; [contradiction|]; intros (_ & H & _); lia|].
  destruct (fst p <? 1) eqn:E2; [cbn; split; [contradiction|]; intros (H & _); lia|].
  destruct (max_alloc_16 <? fst p) eqn:E3; [cbn; split; [contradiction|]; intros (H & _); lia|].
  rewrite (yields_u_groups mr (snd p) t ltac:(lia)). split.
  - intros (groups & Hl & Hf & -> & ->). split; [lia|]. split; [lia|]. exists groups. split; [lia|]. repeat split. exact Hf.
  - intros (_ & _ & groups & Hl & Hf & -> & ->). exists groups. split; [lia|]. repeat split. exact Hf.
Qed.

Lemma chains_conv t n g y : Forall (uchain t y (S n)) g <-> Forall (chain t y (S n)) g.
Proof. rewrite !Forall_forall. split; intros H x Hx; apply uchain_chain, H, Hx. Qed.

Lemma cap_S : exists n, cap = S n.
Proof. exists (Z.to_nat 9999). unfold cap. rewrite <- Z2Nat.inj_succ by lia. reflexivity. Qed.

Lemma yields_u_rolls t ps : forall l gs ds o,
  yields l (eval_u_rolls default_max_rerolls (map (lit_q KU) ps) t gs) ds o <->
  exists groups, chains_each t cap ps groups /\ ds = concat (concat groups) /\ o = gs ++ gvals (concat groups).
Proof.
  induction ps as [|p ps IH]; intros l gs ds o.
  - cbn. split.
    + intros (-> & ->). exists []. cbn. rewrite app_nil_r. split; [constructor|]. split; reflexivity.
    + intros (groups & H & -> & ->). inversion H; subst. cbn. rewrite app_nil_r. split; reflexivity.
  - cbn [map eval_u_rolls]. rewrite yields_bind. destruct cap_S as (c & Hc).
    assert (Z.to_nat default_max_rerolls = S c) as Hc' by exact Hc. split.
    + intros (d1 & d2 & g & -> & H1 & H2). apply yields_compounding in H1 as (Hx & Hy & grp & Hl & Hf & -> & ->).
      apply IH in H2 as (groups & Hg & -> & ->). exists (grp :: groups). split.
      * constructor; [|exact Hg]. split; [exact Hx|]. split; [exact Hy|]. split; [exact Hl|]. rewrite Hc. apply chains_conv. rewrite <- Hc'. exact Hf.
      * cbn [concat]. rewrite concat_app, gvals_app, app_assoc. split; reflexivity.
    + intros (groups & H & -> & ->). inversion H as [|? grp ? groups' (Hx & Hy & Hl & Hf) Hg]; subst.
      exists (concat grp), (concat (concat groups')), (gvals grp). cbn [concat]. rewrite concat_app. split; [reflexivity|]. split.
      * apply yields_compounding. split; [exact Hx|]. split; [exact Hy|]. exists grp. split; [exact Hl|]. split; [|split; reflexivity].
        rewrite Hc'. apply chains_conv. rewrite <- Hc. exact Hf.
      * apply IH. exists groups'. split; [exact Hg|]. split; [reflexivity|]. rewrite gvals_app, app_assoc. reflexivity.
Qed.

(** ** the bonus *)
Definition lit_bonus (m : Z) : option bonus :=
  if m =? 0 then None else if 0 <? m then Some (Bonus OpAdd (NInt 0) (NInt m)) else Some (Bonus OpSub (NInt 0) (NInt (wrap64 (- m)))).
Lemma yields_eval_bonus l mr (sgn : bool) e ds o : iok e ->
  (yields l (eval_infix (if sgn then OpAdd else OpSub) (operand mr (NInt 0)) (operand mr (itree e))) ds o <->
   ds = [] /\ exists v, has_value e v /\ o = OInt (if sgn then v else wrap64 (- v))).
Proof.
  intros Hok. unfold operand. rewrite itree_not_null. cbn [is_null]. unfold eval_infix.
  rewrite yields_bind. split.
  - intros (d1 & d2 & (a & b) & -> & H1 & H2). apply yields_operands in H1 as (d3 & d4 & -> & H3 & H4). cbn [fst snd] in *.
    destruct H3 as (-> & ->). apply yields_itree in H4 as (-> & v & -> & Hv).
    assert (in_int64 v) by (apply (mach_range e); [exact Hok|apply has_value_mach; exact Hv]).
    destruct sgn; cbn in H2; destruct H2 as (-> & ->); (split; [reflexivity|]); exists v; (split; [exact Hv|]); f_equal.
    apply wrap64_id. rewrite ?Z.add_0_l; assumption.
  - intros (-> & v & Hv & ->). exists [], [], (OInt 0, OInt v). split; [reflexivity|]. split.
    + apply yields_operands. exists [], []. split; [reflexivity|]. cbn [fst snd]. split; [split; reflexivity|]. apply yields_itree. split; [reflexivity|].
      exists v. split; [reflexivity|exact Hv].
    + assert (in_int64 v) by (apply (mach_range e); [exact Hok|apply has_value_mach; exact Hv]).
      destruct sgn; cbn; (split; [reflexivity|]); f_equal. symmetry. apply wrap64_id. rewrite ?Z.add_0_l; assumption.
Qed.
Lemma yields_va_bonus l mr b ds o : bonus_ok b ->
  (yields l (var_args_bonus mr (bonus_tree b)) ds o <-> ds = [] /\ exists m, bonus_value b m /\ o = lit_bonus m).
Proof.
  intros Hok. destruct b as [[sgn e]|].
  - assert (bonus_tree (Some (sgn, e)) = Some (Bonus (if sgn then OpAdd else OpSub) (NInt 0) (itree e))) as -> by (destruct sgn; reflexivity).
    cbn [var_args_bonus]. rewrite yields_bind. split.
    + intros (d1 & d2 & o1 & -> & H1 & H2). apply (yields_eval_bonus l mr sgn e _ _ Hok) in H1 as (-> & v & Hv & ->).
      cbn in H2. destruct H2 as (-> & ->). split; [reflexivity|]. eexists. split; [|reflexivity]. destruct sgn; cbn; [exact Hv|]. exists v. split; [exact Hv|reflexivity].
    + intros (-> & m & Hm & ->). exists [], [], (OInt m). split; [reflexivity|]. split; [|split; reflexivity].
      apply (yields_eval_bonus l mr sgn e _ _ Hok). split; [reflexivity|]. destruct sgn; cbn in Hm; [exists m; split; [exact Hm|reflexivity]|].
      destruct Hm as (v & Hv & ->). exists v. split; [exact Hv|reflexivity].
  - cbn. split.
    + intros (-> & ->). split; [reflexivity|]. exists 0. split; reflexivity.
    + intros (-> & m & -> & ->). split; reflexivity.
Qed.
Lemma bonus_value_range b m : bonus_ok b -> bonus_value b m -> in_int64 m.
Proof.
  destruct b as [[[|] e]|]; cbn; intros Hok H.
  - apply (mach_range e); [exact Hok|apply has_value_mach; exact H].
  - destruct H as (v & _ & ->). apply wrap64_range.
  - subst m. unfold in_int64, min_int, max_int, two63. lia.
Qed.
(** evaluating the settled bonus gives its value *)
Lemma eval_lit_bonus mr m : in_int64 m ->
  match (match lit_bonus m with None => None | Some (Bonus op l r) => Some (eval_infix op (operand mr l) (operand mr r)) end) with
  | None => CRet 0
  | Some b => o <- b ;; obj_int o
  end = CRet m.
Proof.
  intros Hm. unfold lit_bonus. destruct (m =? 0) eqn:E0; [f_equal; lia|]. destruct (0 <? m) eqn:E1; cbn; f_equal.
  - rewrite ?Z.add_0_l; apply wrap64_id, Hm.
  - unfold wrap64, in_int64, min_int, max_int, two63, two64 in *. lia.
Qed.

Lemma yields_va_uexpr l mr rs th b ds n' : Forall roll_ok rs -> bonus_ok b ->
  (yields l (eval_var_args mr (NURollExpr (map (roll_tree KU) rs) (th_tree th) (bonus_tree b))) ds n' <->
   exists ps t m, settle_rolls rs ds ps /\ threshold_value th t /\ bonus_value b m /\
     n' = NURollExpr (map (lit_roll KU) ps) (opt_node t) (lit_bonus m)).
Proof.
  intros Hok Hb. cbn [eval_var_args]. rewrite yields_bind. split.
  - intros (d1 & d2 & th' & -> & H1 & H2). apply yields_va_threshold in H1 as (-> & t & Ht & ->).
    apply yields_bind2_ret in H2 as (d3 & d4 & vs & b' & -> & H2 & H3 & ->).
    apply (yields_va_rolls mr KU rs ltac:(discriminate) Hok) in H2 as (ps & H & ->).
    apply (yields_va_bonus _ mr b _ _ Hb) in H3 as (-> & m & Hm & ->). rewrite app_nil_r. exists ps, t, m. repeat split; assumption.
  - intros (ps & t & m & H & Ht & Hm & ->). exists [], ds, (opt_node t). split; [reflexivity|].
    split; [apply yields_va_threshold; split; [reflexivity|]; exists t; split; [exact Ht|reflexivity]|].
    apply yields_bind2_ret. exists ds, [], (map (lit_roll KU) ps), (lit_bonus m). rewrite app_nil_r. split; [reflexivity|].
    split; [apply (yields_va_rolls mr KU rs ltac:(discriminate) Hok); exists ps; split; [exact H|reflexivity]|].
    split; [|reflexivity]. apply (yields_va_bonus _ mr b _ _ Hb). split; [reflexivity|]. exists m. split; [exact Hm|reflexivity].
Qed.

Lemma str_app_assoc (a b c : string) : ((a ++ b) ++ c)%string = (a ++ b ++ c)%string.
Proof. induction a as [|x a IH]; [reflexivity|]. cbn. f_equal. exact IH. Qed.
Lemma notation_uexpr_lit ps t m w :
  infix_notation (NURollExpr (map (lit_roll KU) ps) (opt_node t) (lit_bonus m)) w =
  Ok (rolls_words "U" ps ++ threshold_word t ++ bonus_word m)%string.
Proof.
  unfold lit_bonus, bonus_word. destruct (m =? 0) eqn:E0.
  - change (infix_notation (NURollExpr (map (lit_roll KU) ps) (opt_node t) None) w) with (rlist_text (map (lit_roll KU) ps) (opt_node t)).
    rewrite (rlist_text_lit KU ps t ltac:(discriminate)), append_nil_r. reflexivity.
  - destruct (0 <? m) eqn:E1.
    + change (infix_notation (NURollExpr (map (lit_roll KU) ps) (opt_node t) (Some (Bonus OpAdd (NInt 0) (NInt m)))) w) with
        (ls <~ rlist_text (map (lit_roll KU) ps) (opt_node t) ;; rs <~ Ok (itoa m) ;; Ok (ls ++ "+" ++ rs)%string).
      rewrite (rlist_text_lit KU ps t ltac:(discriminate)). cbn [obind vkind_operator]. rewrite str_app_assoc. reflexivity.
    + change (infix_notation (NURollExpr (map (lit_roll KU) ps) (opt_node t) (Some (Bonus OpSub (NInt 0) (NInt (wrap64 (- m)))))) w) with
        (ls <~ rlist_text (map (lit_roll KU) ps) (opt_node t) ;; rs <~ Ok (itoa (wrap64 (- m))) ;; Ok (ls ++ "-" ++ rs)%string).
      rewrite (rlist_text_lit KU ps t ltac:(discriminate)). cbn [obind vkind_operator]. rewrite str_app_assoc. reflexivity.
Qed.

(** ** sums and their presentation *)
Lemma sum_loop_vals vs : forall acc, sum_loop acc (map OInt vs) = Some (fold_left (fun a v => wrap64 (a + v)) vs acc).
Proof. induction vs as [|v vs IH]; intros acc; cbn; [reflexivity|]. apply IH. Qed.
Lemma sum_vals vs : sum_of_integers (map OInt vs) = Some (wrap64 (fold_right Z.add 0 vs)).
Proof. unfold sum_of_integers. rewrite sum_loop_vals. f_equal. apply sum64_spec. Qed.
Lemma sum_groups groups : sum_of_groups (gvals groups) = Ok (map group_sum groups).
Proof.
  induction groups as [|g groups IH]; [reflexivity|]. cbn [gvals map sum_of_groups]. fold (gvals groups). unfold vals at 1. rewrite sum_vals, IH. reflexivity.
Qed.
Lemma format_u groups m : format_u_value_groups (gvals groups) m = Ok (join "," (map group_word groups) ++ modifier_word m)%string.
Proof.
  unfold format_u_value_groups. rewrite sum_groups. cbn [obind].
  assert (format_u_groups (gvals groups) (map group_sum groups) = Ok (map group_word groups)) as ->; [|reflexivity].
  induction groups as [|g groups IH]; [reflexivity|]. cbn [gvals map format_u_groups]. fold (gvals groups). rewrite IH. cbn [obind].
  assert (length (vals g) = length g) as -> by (unfold vals, values; rewrite !map_length; reflexivity).
  assert (inspect_without_spaces (OArray (vals g)) = ("[" ++ values_word g ++ "]")%string) as ->; [|reflexivity].
  cbn [inspect_without_spaces]. unfold vals. rewrite map_map. reflexivity.
Qed.
Lemma max_loop_spec l : forall m, exists v, max_loop m (map OInt l) = Some v /\ is_max v (m :: l).
Proof.
  induction l as [|x l IH]; intros m; cbn [map max_loop].
  - exists m. split; [reflexivity|]. split; [left; reflexivity|]. intros y [<-|[]]. lia.
  - destruct (IH (if m <? x then x else m)) as (v & -> & Hi & Hv). exists v. split; [reflexivity|].
    destruct (m <? x) eqn:E; (split; [destruct Hi as [<-|Hi]; [cbn; tauto|cbn; tauto]|]);
    intros y [<-|[<-|Hy]]; try (apply Hv; right; exact Hy); try (apply Hv; left; reflexivity);
    (assert (m <= v \/ x <= v) as _ by (left; pose proof (Hv _ (or_introl eq_refl)); lia)); pose proof (Hv _ (or_introl eq_refl)); lia.
Qed.
Lemma u_max groups m : groups <> [] ->
  exists v, is_max v (map group_sum groups) /\ u_max_value (gvals groups) m = Ok (wrap64 (v + m)).
Proof.
  intros H. unfold u_max_value. rewrite sum_groups. cbn [obind]. destruct groups as [|g groups]; [contradiction|].
  cbn [map max_integer]. destruct (max_loop_spec (map group_sum groups) (group_sum g)) as (v & -> & Hv). exists v. split; [exact Hv|reflexivity].
Qed.
Lemma is_max_unique a b l : is_max a l -> is_max b l -> a = b.
Proof. intros (H1 & H2) (H3 & H4). apply H2 in H3. apply H4 in H1. lia. Qed.
Lemma total_of_app a b : total_of (a ++ b) = total_of a + total_of b.
Proof. unfold total_of. rewrite values_app. induction (values a) as [|x l IH]; cbn; [lia|]. rewrite IH. lia. Qed.
Lemma wrap_sum_groups groups : wrap64 (fold_right Z.add 0 (map group_sum groups)) = wrap64 (total_of (concat groups)).
Proof.
  induction groups as [|g groups IH]; [reflexivity|]. cbn [map fold_right concat]. rewrite total_of_app.
  rewrite <- (wrap64_add_r _ (fold_right _ _ _)), IH, wrap64_add_r. unfold group_sum. apply wrap64_add_l.
Qed.
Lemma u_sum groups m : u_sum_of_values (gvals groups) m = Ok (wrap64 (total_of (concat groups) + m)).
Proof.
  unfold u_sum_of_values. rewrite sum_groups. cbn [obind]. rewrite sum_vals, wrap64_add_l, <- (wrap64_add_l (fold_right _ _ _)), wrap_sum_groups, wrap64_add_l. reflexivity.
Qed.

Lemma chains_nonempty t n p ps groups : chains_each t n (p :: ps) groups -> concat groups <> [].
Proof.
  intros H. inversion H as [|? g ? gs (H1 & H2 & H3 & H4) Hg]; subst. destruct g as [|c g]; [cbn in H3; lia|]. discriminate.
Qed.

Lemma eval_uexpr ps v m : in_int64 m ->
  eval default_max_rerolls (NURollExpr (map (lit_roll KU) ps) (NInt v) (lit_bonus m)) =
  (groups <- eval_u_rolls default_max_rerolls (map (lit_q KU) ps) v [] ;; CRet (OURollExpr groups m)).
Proof.
  intros Hm. rewrite <- (to_qroll_lit default_max_rerolls).
  change (eval default_max_rerolls (NURollExpr (map (lit_roll KU) ps) (NInt v) (lit_bonus m))) with
    (m0 <- match (match lit_bonus m with None => None | Some (Bonus op l r) => Some (eval_infix op (operand default_max_rerolls l) (operand default_max_rerolls r)) end) with
       | None => CRet 0 | Some b => o <- b ;; obj_int o end ;;
     groups <- eval_u_rolls default_max_rerolls (map (to_qroll default_max_rerolls) (map (lit_roll KU) ps)) v [] ;; CRet (OURollExpr groups m0)).
  rewrite (eval_lit_bonus _ m Hm). reflexivity.
Qed.
Lemma yields_uexpr l ps v m ds o : in_int64 m ->
  (yields l (eval default_max_rerolls (NURollExpr (map (lit_roll KU) ps) (NInt v) (lit_bonus m))) ds o <->
   exists groups, chains_each v cap ps groups /\ ds = concat (concat groups) /\ o = OURollExpr (gvals (concat groups)) m).
Proof.
  intros Hm. rewrite (eval_uexpr ps v m Hm), yields_bind_ret. split.
  - intros (a & H & ->). apply yields_u_rolls in H as (groups & Hg & -> & ->). exists groups. repeat split. exact Hg.
  - intros (groups & Hg & -> & ->). eexists. split; [apply yields_u_rolls; exists groups; repeat split; exact Hg|reflexivity].
Qed.


Lemma skipn_app_self {A} (a b : list A) : skipn (length a) (a ++ b) = b.
Proof. induction a; cbn; [reflexivity|assumption]. Qed.

Lemma settle_cons_ps r rs ops ps : settle_rolls (r :: rs) ops ps -> exists p ps', ps = p :: ps'.
Proof. intros H. inversion H; subst. eexists _, _. reflexivity. Qed.

Lemma gives_uexpr gid r rs th b ds res : Forall roll_ok (r :: rs) -> bonus_ok b ->
  (gives gid (command_tree (UExpr r rs th b)) ds res <->
   exists ops ps t m,
     settle_rolls (r :: rs) ops ps /\ threshold_value th t /\ bonus_value b m /\
     let head := parenthesize (rolls_words "U" ps ++ threshold_word t ++ bonus_word m) in
     match hint hint_u t, t with
     | Some h, _ => ds = ops /\ res = Result gid [head; h] [] Unspecified false
     | None, Some v => exists groups s3, chains_each v cap ps groups /\ ds = ops ++ concat (concat groups) /\
         max_and_total (concat groups) m s3 /\
         res = Result gid [head; (join "," (map group_word (concat groups)) ++ modifier_word m)%string; s3] ds Unspecified false
     | None, None => False
     end).
Proof.
  intros Hok Hb. rewrite gives_yields. cbn [command_tree execute]. unfold execute_u_roll_expr. rewrite yields_bind. split.
  - intros (d1 & d2 & p & -> & H1 & H2). apply yields_args_notation in H1 as (n' & s & H1 & Hs & ->).
    apply (yields_va_uexpr _ _ _ _ _ _ _ Hok Hb) in H1 as (ps & t & m & Hps & Ht & Hm & ->).
    rewrite notation_uexpr_lit in Hs. injection Hs as <-.
    cbn beta iota in H2. rewrite check_u_threshold in H2. cbn [cbind] in H2. exists d1, ps, t, m. split; [exact Hps|]. split; [exact Ht|]. split; [exact Hm|].
    cbv zeta. destruct (hint hint_u t) as [h|] eqn:Eh.
    + destruct H2 as (-> & ->). rewrite app_nil_r. split; reflexivity.
    + destruct t as [v|]; [|discriminate]. cbn [opt_node] in H2.
      apply yields_bind in H2 as (d3 & d4 & o & -> & H2 & H3).
      apply (yields_uexpr _ ps v m _ _ (bonus_value_range _ _ Hb Hm)) in H2 as (groups & Hg & -> & ->). cbn [yields] in H3.
      rewrite format_u in H3. cbn [clift cbind] in H3.
      destruct (settle_cons_ps _ _ _ _ Hps) as (p0 & ps' & ->).
      destruct (u_max (concat groups) m (chains_nonempty _ _ _ _ _ Hg)) as (mx & Hmx & Emx).
      rewrite Emx, u_sum in H3. cbn in H3. destruct H3 as (-> & ->). rewrite app_nil_r.
      eexists groups, _. split; [exact Hg|]. split; [reflexivity|]. split; [exists mx; split; [exact Hmx|reflexivity]|]. reflexivity.
  - intros (ops & ps & t & m & Hps & Ht & Hm & H). cbv zeta in H.
    assert (yields [] (eval_var_args_notation default_max_rerolls (NURollExpr (map (roll_tree KU) (r :: rs)) (th_tree th) (bonus_tree b))) ops
      (NURollExpr (map (lit_roll KU) ps) (opt_node t) (lit_bonus m), (rolls_words "U" ps ++ threshold_word t ++ bonus_word m)%string)) as Hy.
    { apply yields_args_notation. eexists _, _. split; [apply (yields_va_uexpr _ _ _ _ _ _ _ Hok Hb); exists ps, t, m; repeat split; assumption|].
      split; [|reflexivity]. apply notation_uexpr_lit. }
    exists ops, (match hint hint_u t with Some _ => [] | None => skipn (length ops) ds end),
      (NURollExpr (map (lit_roll KU) ps) (opt_node t) (lit_bonus m), (rolls_words "U" ps ++ threshold_word t ++ bonus_word m)%string).
    destruct (hint hint_u t) as [h|] eqn:Eh.
    + destruct H as (-> & ->). rewrite app_nil_r. split; [reflexivity|]. split; [exact Hy|]. cbn beta iota. rewrite check_u_threshold, Eh. split; reflexivity.
    + destruct t as [v|]; [|contradiction]. destruct H as (groups & s3 & Hg & -> & (mx & Hmx & ->) & ->). rewrite skipn_app_self.
      split; [reflexivity|]. split; [exact Hy|]. cbn beta iota. rewrite check_u_threshold, Eh. cbn [cbind opt_node].
      apply yields_bind. exists (concat (concat groups)), [], (OURollExpr (gvals (concat groups)) m). rewrite app_nil_r. split; [reflexivity|].
      split; [apply (yields_uexpr _ ps v m _ _ (bonus_value_range _ _ Hb Hm)); exists groups; repeat split; exact Hg|].
      cbn [yields]. rewrite format_u. cbn [clift cbind].
      destruct (settle_cons_ps _ _ _ _ Hps) as (p0 & ps' & ->).
      destruct (u_max (concat groups) m (chains_nonempty _ _ _ _ _ Hg)) as (mx' & Hmx' & Emx). rewrite (is_max_unique _ _ _ Hmx Hmx').
      rewrite Emx, u_sum. cbn. split; reflexivity.
Qed.

(** number of groups with sum + bonus op target *)
Definition group_hits (op : string) (w m : Z) (groups : list (list die)) : Z :=
  matching op w (map (fun g => wrap64 (group_sum g + m)) groups).

Lemma gives_ucomp gid r rs th b op tg ds res : Forall roll_ok (r :: rs) -> bonus_ok b -> is_compare_op op ->
  (gives gid (command_tree (UComp r rs th b op tg)) ds res <->
   exists ops ps t m w,
     settle_rolls (r :: rs) ops ps /\ threshold_value th t /\ bonus_value b m /\ has_value tg w /\
     let head := parenthesize (rolls_words "U" ps ++ threshold_word t ++ bonus_word m ++ op ++ itoa w) in
     match hint hint_u t, t with
     | Some h, _ => ds = ops /\ res = Result gid [head; h] [] Unspecified false
     | None, Some v => exists groups, chains_each v cap ps groups /\ ds = ops ++ concat (concat groups) /\
         res = Result gid [head; (join "," (map group_word (concat groups)) ++ modifier_word m)%string;
                           ("成功数" ++ itoa (group_hits op w m (concat groups)))%string] ds Unspecified false
     | None, None => False
     end).
Proof.
  intros Hok Hb Hop. rewrite gives_yields. cbn [command_tree execute]. unfold execute_u_roll_comp. cbn [is_basic_op].
  assert (forall ps t m w, infix_notation (NCommand CURollComp (NInfix (OpCmp op) (NURollExpr (map (lit_roll KU) ps) (opt_node t) (lit_bonus m)) (NInt w))) true
     = Ok (rolls_words "U" ps ++ threshold_word t ++ bonus_word m ++ op ++ itoa w)%string) as Hnot.
  { intros. change (infix_notation (NCommand CURollComp (NInfix (OpCmp op) (NURollExpr (map (lit_roll KU) ps) (opt_node t) (lit_bonus m)) (NInt w))) true) with
      (ls <~ infix_notation (NURollExpr (map (lit_roll KU) ps) (opt_node t) (lit_bonus m)) true ;; rs <~ Ok (itoa w) ;; Ok (ls ++ op ++ rs)%string).
    rewrite notation_uexpr_lit. cbn [obind]. rewrite !str_app_assoc. reflexivity. }
  assert (forall ps n v w, eval default_max_rerolls (NCommand CURollComp (NInfix (OpCmp op) (NURollExpr (map (lit_roll KU) ps) n v) (NInt w))) =
    eval_u_roll_comp op (Some (eval default_max_rerolls (NURollExpr (map (lit_roll KU) ps) n v))) (Some (CRet (OInt w)))) as Hev by reflexivity.
  rewrite yields_bind. split.
  - intros (d1 & d2 & n' & -> & H1 & H2). apply yields_va_cmp in H1 as (n1 & w & H1 & Hw & ->).
    apply (yields_va_uexpr _ _ _ _ _ _ _ Hok Hb) in H1 as (ps & t & m & Hps & Ht & Hm & ->).
    rewrite Hnot in H2. cbn [clift cbind] in H2. rewrite check_u_threshold in H2. cbn [cbind] in H2.
    exists d1, ps, t, m, w. split; [exact Hps|]. split; [exact Ht|]. split; [exact Hm|]. split; [exact Hw|]. cbv zeta.
    destruct (hint hint_u t) as [h|] eqn:Eh.
    + destruct H2 as (-> & ->). rewrite app_nil_r. split; reflexivity.
    + destruct t as [v|]; [|discriminate]. cbn [opt_node] in H2. rewrite Hev in H2. apply yields_bind in H2 as (d3 & d4 & o & -> & H2 & H3).
      unfold eval_u_roll_comp in H2. apply yields_bind in H2 as (d5 & d6 & (vo & wo) & -> & H2 & H4).
      apply yields_operands in H2 as (d7 & d8 & -> & H2 & H5). cbn [fst snd] in *. destruct H5 as (-> & ->).
      apply (yields_uexpr _ ps v m _ _ (bonus_value_range _ _ Hb Hm)) in H2 as (groups & Hg & -> & ->).
      rewrite sum_groups in H4. cbn [clift cbind] in H4. rewrite map_map in H4. rewrite <- (map_map (fun g => wrap64 (group_sum g + m)) OInt) in H4.
      rewrite (count_vals op w _ Hop) in H4.
      cbn in H4. destruct H4 as (-> & ->). cbn [yields] in H3. rewrite format_u in H3. cbn in H3. destruct H3 as (-> & ->).
      rewrite !app_nil_r. exists groups. split; [exact Hg|]. split; reflexivity.
  - intros (ops & ps & t & m & w & Hps & Ht & Hm & Hw & H). cbv zeta in H.
    assert (yields [] (eval_var_args default_max_rerolls (NInfix (OpCmp op) (NURollExpr (map (roll_tree KU) (r :: rs)) (th_tree th) (bonus_tree b)) (itree tg))) ops
      (NInfix (OpCmp op) (NURollExpr (map (lit_roll KU) ps) (opt_node t) (lit_bonus m)) (NInt w))) as Hy.
    { apply yields_va_cmp. eexists _, w. split; [apply (yields_va_uexpr _ _ _ _ _ _ _ Hok Hb); exists ps, t, m; repeat split; assumption|]. split; [exact Hw|reflexivity]. }
    exists ops, (match hint hint_u t with Some _ => [] | None => skipn (length ops) ds end),
      (NInfix (OpCmp op) (NURollExpr (map (lit_roll KU) ps) (opt_node t) (lit_bonus m)) (NInt w)).
    assert (ds = ops ++ match hint hint_u t with Some _ => [] | None => skipn (length ops) ds end) as Hds.
    { destruct (hint hint_u t); [destruct H as (-> & _); rewrite app_nil_r; reflexivity|]. destruct t as [v|]; [|contradiction].
      destruct H as (groups & _ & -> & _). rewrite skipn_app_self. reflexivity. }
    split; [exact Hds|]. split; [exact Hy|]. rewrite Hnot. cbn [clift cbind]. rewrite check_u_threshold. cbn [cbind].
    destruct (hint hint_u t) as [h|] eqn:Eh.
    + destruct H as (-> & ->). split; reflexivity.
    + destruct t as [v|]; [|contradiction]. destruct H as (groups & Hg & -> & ->). rewrite skipn_app_self. cbn [opt_node]. rewrite Hev.
      apply yields_bind. exists (concat (concat groups)), [], (OURollComp (gvals (concat groups)) m (group_hits op w m (concat groups))). rewrite app_nil_r. split; [reflexivity|]. split.
      * unfold eval_u_roll_comp. apply yields_bind. exists (concat (concat groups)), [], (OURollExpr (gvals (concat groups)) m, OInt w). rewrite app_nil_r. split; [reflexivity|]. split.
        -- apply yields_operands. exists (concat (concat groups)), []. rewrite app_nil_r. split; [reflexivity|]. cbn [fst snd]. split; [|split; reflexivity].
           apply (yields_uexpr _ ps v m _ _ (bonus_value_range _ _ Hb Hm)). exists groups. repeat split. exact Hg.
        -- rewrite sum_groups. cbn [clift cbind]. rewrite map_map. rewrite <- (map_map (fun g => wrap64 (group_sum g + m)) OInt).
           rewrite (count_vals op w _ Hop). cbn. split; reflexivity.
      * cbn [yields]. rewrite format_u. cbn. split; reflexivity.
Qed.

(** ** CHOICE *)
Lemma gives_choose gid items ds res :
  (gives gid (command_tree (Choose items)) ds res <->
   exists d item, ds = [d] /\ die_sides d = Z.of_nat (length items) /\ items <> [] /\
     0 <= wrap64 (die_value d - 1) /\ nth_error items (Z.to_nat (wrap64 (die_value d - 1))) = Some item /\
     res = Result gid [parenthesize (notation_choice items); item] ds Unspecified false).
Proof.
  rewrite gives_yields. cbn [command_tree execute]. unfold execute_choice. cbn [infix_notation clift cbind eval]. unfold eval_choice. cbn [cbind yields]. split.
  - intros (d1 & d2 & -> & Hr & H). apply rolled_one in Hr as (H1 & d & -> & Hd).
    destruct ((wrap64 (die_value d - 1) <? 0) || (Z.of_nat (length items) <=? wrap64 (die_value d - 1))) eqn:E; [contradiction|].
    destruct (nth_error items (Z.to_nat (wrap64 (die_value d - 1)))) as [item|] eqn:En; [|contradiction].
    cbn in H. destruct H as (-> & ->). exists d, item. split; [reflexivity|]. split; [exact Hd|].
    split; [destruct items; [cbn in H1; lia|discriminate]|]. split; [lia|]. split; [exact En|reflexivity].
  - intros (d & item & -> & Hd & Hne & H0 & En & ->). exists [d], []. split; [reflexivity|].
    split; [apply rolled_one; split; [destruct items; [contradiction|cbn [length]; lia]|]; exists d; split; [reflexivity|exact Hd]|].
    assert (Z.to_nat (wrap64 (die_value d - 1)) < length items)%nat by (apply nth_error_Some; rewrite En; discriminate).
    destruct ((wrap64 (die_value d - 1) <? 0) || (Z.of_nat (length items) <=? wrap64 (die_value d - 1))) eqn:E; [lia|].
    rewrite En. cbn. split; reflexivity.
Qed.
