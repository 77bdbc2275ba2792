(** Property C44: the message of a successful command. *)
From Verif Require Import Grammar ProofBase SpecText Dice SpecDice DiceProofs Comp CompProofs Ast Eval Notation NotationProofs Command BCDice BCDiceProofs
  SpecSyntax SpecArith ArithProofs SpecRoll SpecLists YieldsProofs DRollProofs ListProofs RerollProofs ExplodeProofs ParseSound ParseFacts SpecMessage Prop_arith.
Open Scope list_scope.
Open Scope Z_scope.

(** ** Notation *)
Definition leafy (n : node) : Prop := match n with NInt _ | NSumRoll _ | NInfix (OpVar _) _ _ => True | _ => False end.
Lemma show_bin {L} (word : L -> string) w op a b : show word w (Bin op a b) =
  put op (match a with Leaf l => word l | Neg _ => if w then show word w a else in_parens (show word w a) | Bin c _ _ => if level c <? level op then in_parens (show word true a) else show word w a end)
         (match b with Leaf l => word l | Neg _ => in_parens (show word false b) | Bin c _ _ => if (level c <? level op) || ((level c =? level op) && keeps_right op) then in_parens (show word true b) else show word false b end).
Proof. reflexivity. Qed.
Lemma put_text op l r : notation_infix_text (arith_op op) l r = put op l r.
Proof. destruct op as [| | |[]]; cbn; rewrite ?DecodeProofs.append_nil_r; reflexivity. Qed.
Lemma show_notation {L} (leaf : L -> node) (word : L -> string) : (forall l w, infix_notation (leaf l) w = Ok (word l)) -> (forall l, leafy (leaf l)) ->
  forall e w, infix_notation (tree leaf e) w = Ok (show word w e).
Proof.
  intros Hw Hl. assert (forall e, is_null (tree leaf e) = false) as Hn by (intros [l|e|op a b]; cbn; [specialize (Hl l); destruct (leaf l); try contradiction; reflexivity|reflexivity|reflexivity]).
  assert (forall l, is_primary (leaf l) = true) as Hp by (intros l; specialize (Hl l); destruct (leaf l) as [| | | | | |[]| | | | |]; try contradiction; reflexivity).
  induction e as [l|e IH|op a IHa b IHb]; intros w.
  - apply Hw.
  - change (tree leaf (Neg e)) with (NNeg (tree leaf e)).
    change (infix_notation (NNeg (tree leaf e)) w) with
      (if is_null (tree leaf e) then onil else if is_primary (tree leaf e) then s <~ infix_notation (tree leaf e) w ;; Ok ("-" ++ s)%string else s <~ infix_notation (tree leaf e) true ;; Ok ("-" ++ parenthesize s)%string).
    rewrite Hn, !IH. cbn [obind]. destruct e as [l|e|[| | |m] a b]; cbn [tree arith_op is_primary show]; [rewrite Hp; reflexivity|reflexivity..].
  - change (tree leaf (Bin op a b)) with (NInfix (arith_op op) (tree leaf a) (tree leaf b)). rewrite notation_arith. unfold infix_text. rewrite Hn, show_bin.
    assert (match tree leaf a with
      | NNeg lr =>
          if w && op_lassoc (arith_op op)
          then if is_null lr then onil else if is_primary lr then s <~ infix_notation lr w;; Ok ("-" ++ s)%string else s <~ infix_notation lr true;; Ok ("-" ++ parenthesize s)%string
          else paren_child (arith_op op) (tree leaf a) (op_lassoc (arith_op op)) (infix_notation (tree leaf a) true) (infix_notation (tree leaf a) w)
      | _ => paren_child (arith_op op) (tree leaf a) (op_lassoc (arith_op op)) (infix_notation (tree leaf a) true) (infix_notation (tree leaf a) w)
      end = Ok (match a with Leaf l => word l | Neg _ => if w then show word w a else in_parens (show word w a) | Bin c _ _ => if level c <? level op then in_parens (show word true a) else show word w a end)) as ->.
    { rewrite !IHa. destruct a as [l|a|c a1 a2].
      - cbn [tree]. specialize (Hl l). specialize (Hw l w). destruct (leaf l) as [| | | | | |[]| | | | |]; try contradiction; destruct op as [| | |m]; try destruct k; cbn [arith_op op_prec paren_child show]; reflexivity.
      - cbn [tree]. assert (op_lassoc (arith_op op) = true) as -> by (destruct op; reflexivity). rewrite Bool.andb_true_r. destruct w; [|reflexivity].
        pose proof (IHa true) as K. cbn [tree] in K. rewrite <- K. reflexivity.
      - destruct op as [| | |m], c as [| | |mc]; reflexivity. }
    cbn [obind].
    assert (paren_child (arith_op op) (tree leaf b) (op_rassoc (arith_op op)) (infix_notation (tree leaf b) true) (infix_notation (tree leaf b) false) =
      Ok (match b with Leaf l => word l | Neg _ => in_parens (show word false b) | Bin c _ _ => if (level c <? level op) || ((level c =? level op) && keeps_right op) then in_parens (show word true b) else show word false b end)) as ->.
    { rewrite !IHb. destruct b as [l|b|c b1 b2].
      - cbn [tree]. specialize (Hl l). destruct (leaf l) as [| | | | | |[]| | | | |]; try contradiction; destruct op as [| | |m]; try destruct k; reflexivity.
      - reflexivity.
      - destruct op as [| | |m], c as [| | |mc]; reflexivity. }
    cbn [obind]. rewrite put_text. reflexivity.
Qed.
Lemma show_int e w : infix_notation (itree e) w = Ok (show itoa w e).
Proof. apply show_notation; [reflexivity|intros; exact I]. Qed.
Lemma show_settled e w : infix_notation (tree mleaf_tree e) w = Ok (show mword w e).
Proof. apply show_notation; [intros [v|x y] w'; reflexivity|intros [v|x y]; exact I]. Qed.
Lemma show_rolled e w : infix_notation (tree sleaf_tree e) w = Ok (show sword w e).
Proof.
  apply show_notation; [|intros [v|ds]; exact I]. intros [v|ds] w'; [reflexivity|]. cbn [sleaf_tree infix_notation sword]. unfold notation_sum_roll, values_word, values. rewrite map_map.
  unfold sum_roll_value, group_sum, total_of, values. rewrite sum64_spec. reflexivity.
Qed.

Lemma append_assoc3' (a b c : string) : ((a ++ b) ++ c)%string = (a ++ (b ++ c))%string.
Proof. induction a as [|x a IH]; [reflexivity|]. cbn [append]. rewrite IH. reflexivity. Qed.
(** ** C44 *)
(** The answers of every kind of command, exactly: with the dice ds specified, and only then, a command succeeds with result res taking just these dice, if res is a reply
    as listed in SpecMessage.v. *)
Theorem C44_replies gid c ds res : command_ok c ->
  (gives gid (command_tree c) ds res <-> exists parts reported verdict, reply c ds parts reported verdict /\ res = Result gid parts reported verdict false).
Proof.
  intros Hok. destruct c as [e|e|e op t|r rs|r rs op t|r rs th|r rs th op t|r rs th b|r rs th b op t|items]; cbn [command_ok] in Hok.
  - assert (infix_notation (command_tree (Calculation e)) true = Ok ("C" ++ in_parens (show itoa true e))%string) as Hn.
    { cbn [command_tree]. change (infix_notation (NCommand CCalc (itree e)) true) with (s <~ infix_notation (itree e) true ;; Ok ("C(" ++ s ++ ")")%string). rewrite show_int. reflexivity. }
    split.
    + intros H. destruct (run_calculation gid e (FQueue (ds ++ []))) as (s & Hs & E). rewrite (H []) in E. rewrite Hn in Hs. injection Hs as <-. destruct (mach e) as [v|m|p] eqn:Em; try discriminate E. injection E as -> E.
      rewrite app_nil_r in E. subst ds. do 3 eexists. split; [apply (reply_calculation e v), has_value_mach, Em|]. reflexivity.
    + intros (parts & reported & verdict & H & ->). inversion H as [e' v Hv| | | | | | | | | | | | | |]; subst. intros q. destruct (run_calculation gid e (FQueue ([] ++ q))) as (s & Hs & E). rewrite E. rewrite Hn in Hs. injection Hs as <-.
      apply has_value_mach in Hv. rewrite Hv. reflexivity.
  - rewrite (gives_d_expr gid e ds res Hok). split.
    + intros (ops & rolls & mid & fin & v & s1 & s2 & -> & H & Hs1 & Hs2 & ->). rewrite show_settled in Hs1. rewrite show_rolled in Hs2. injection Hs1 as <-. injection Hs2 as <-.
      do 3 eexists. split; [apply (reply_d e ops rolls mid fin v), H|reflexivity].
    + intros (parts & reported & verdict & H & ->). inversion H; subst. do 7 eexists. split; [reflexivity|]. split; [eassumption|]. split; [apply show_settled|]. split; [apply show_rolled|reflexivity].
  - destruct Hok as (Hd & Hop & Ht). rewrite (gives_d_comp gid e op t ds res Hd Ht Hop). split.
    + intros (Hc & ops & rolls & mid & fin & v & w & s1 & s2 & -> & H & Hw & Hs1 & Hs2 & ->). rewrite show_settled in Hs1. rewrite show_rolled in Hs2. injection Hs1 as <-. injection Hs2 as <-.
      pose proof (compareb_spec op v w Hop) as Hb. destruct (compareb op v w).
      * do 3 eexists. split; [apply (reply_d_success e op t ops rolls mid fin v w); [exact Hc|exact H|exact Hw|apply Hb; reflexivity]|reflexivity].
      * do 3 eexists. split; [apply (reply_d_failure e op t ops rolls mid fin v w); [exact Hc|exact H|exact Hw|intros K; apply Hb in K; discriminate K]|reflexivity].
    + intros (parts & reported & verdict & H & ->).
      inversion H as [ | |e' op' t' ops rolls mid fin v w H1 H2 H3 H4|e' op' t' ops rolls mid fin v w H1 H2 H3 H4| | | | | | | | | | |]; subst; (split; [exact H1|]); pose proof (compareb_spec op v w Hop) as Hb;
      (exists ops, rolls, mid, fin, v, w; do 2 eexists; split; [reflexivity|]; split; [exact H2|]; split; [exact H3|]; split; [apply show_settled|]; split; [apply show_rolled|]).
      * apply Hb in H4. rewrite H4. reflexivity.
      * destruct (compareb op v w); [destruct H4; apply Hb; reflexivity|]. reflexivity.
  - rewrite (gives_blist gid r rs ds res Hok). split.
    + intros (ops & ps & groups & H1 & H2 & -> & ->). do 3 eexists. split; [apply (reply_b r rs ops ps groups); assumption|reflexivity].
    + intros (parts & reported & verdict & H & ->). inversion H; subst. do 3 eexists. split; [eassumption|]. split; [eassumption|]. split; reflexivity.
  - destruct Hok as (Hr & Hop & Ht). rewrite (gives_bcomp gid r rs op t ds res Hr Hop). split.
    + intros (ops & ps & groups & w & H1 & H2 & -> & H3 & ->). do 3 eexists. split; [apply (reply_b_count r rs op t ops ps groups w); assumption|reflexivity].
    + intros (parts & reported & verdict & H & ->). inversion H; subst. do 4 eexists. split; [eassumption|]. split; [eassumption|]. split; [reflexivity|]. split; [eassumption|reflexivity].
  - destruct Hok as (Hr & Hth). rewrite (gives_rlist gid r rs th ds res Hr). split.
    + intros (ops & ps & t & H1 & H2 & H3). destruct (hint hint_r t) as [h|] eqn:Eh.
      * destruct H3 as (-> & ->). do 3 eexists. split; [apply (reply_hint_r r rs th t h ops ps); assumption|reflexivity].
      * destruct t as [v|]; [|contradiction]. destruct H3 as (groups & H3 & -> & ->). destruct th as [e|]; [|contradiction]. cbn in Eh. destruct (v <? 2) eqn:E2; [discriminate|].
        do 3 eexists. split; [apply (reply_r r rs e ops ps v groups); [assumption|exact H2|lia|assumption]|reflexivity].
    + intros (parts & reported & verdict & H & ->). inversion H; subst.
      * exists ops, ps, (Some v). split; [assumption|]. split; [assumption|]. cbn [hint]. replace (v <? 2) with false by lia. eexists. split; [eassumption|]. split; reflexivity.
      * exists ds, ps, t. split; [assumption|]. split; [assumption|]. match goal with H : hint _ _ = Some _ |- _ => rewrite H end. split; reflexivity.
  - destruct Hok as (Hr & Hth & Hop & Ht). rewrite (gives_rcomp gid r rs th op t ds res Hr Hop). cbv zeta. split.
    + intros (ops & ps & given & w & H1 & H2 & H3 & H4). set (v := match given with Some v => v | None => w end) in *.
      assert (match th with Some e => has_value e v | None => v = w end) as Hv by (destruct th, given; cbn in H2; try contradiction; [exact H2|reflexivity]).
      destruct (hint hint_r (Some v)) as [h|] eqn:Eh.
      * destruct H4 as (-> & ->). do 3 eexists. split; [apply (reply_hint_r_count r rs th op t v w h ops ps); assumption|]. cbn [threshold_word]. unfold parenthesize, in_parens. rewrite !append_assoc3'. reflexivity.
      * destruct H4 as (groups & H4 & -> & ->). cbn in Eh. destruct (v <? 2) eqn:E2; [discriminate|]. do 3 eexists. split; [apply (reply_r_count r rs th op t ops ps v w groups); try assumption; lia|]. cbn [threshold_word]. unfold parenthesize, in_parens. rewrite !append_assoc3'. reflexivity.
    + intros (parts & reported & verdict & H & ->).
      inversion H as [ | | | | | | |r' rs' th' op' t' ops ps v w groups H1 H2 H3 H4 H5| | | |r' rs' th' op' t' v w h ops ps H1 H2 H3 H4| | |]; subst.
      * exists ops, ps, (match th with Some _ => Some v | None => None end), w. split; [assumption|]. split; [destruct th; [exact H3|exact I]|]. split; [assumption|].
        assert (match (match th with Some _ => Some v | None => None end) with Some v => v | None => w end = v) as -> by (destruct th; [reflexivity|symmetry; exact H3]).
        cbn [hint]. replace (v <? 2) with false by lia. exists groups. split; [assumption|]. split; [reflexivity|]. cbn [threshold_word]. unfold parenthesize, in_parens. rewrite !append_assoc3'. reflexivity.
      * exists ds, ps, (match th with Some _ => Some v | None => None end), w. split; [assumption|]. split; [destruct th; [exact H3|exact I]|]. split; [assumption|].
        assert (match (match th with Some _ => Some v | None => None end) with Some v => v | None => w end = v) as -> by (destruct th; [reflexivity|symmetry; exact H3]).
        rewrite H4. split; [reflexivity|]. cbn [threshold_word]. unfold parenthesize, in_parens. rewrite !append_assoc3'. reflexivity.
  - destruct Hok as (Hr & Hth & Hb). rewrite (gives_uexpr gid r rs th b ds res Hr Hb). cbv zeta. split.
    + intros (ops & ps & t & m & H1 & H2 & H3 & H4). destruct (hint hint_u t) as [h|] eqn:Eh.
      * destruct H4 as (-> & ->). do 3 eexists. split; [apply (reply_hint_u r rs th b t m h ops ps); assumption|reflexivity].
      * destruct t as [v|]; [|contradiction]. destruct H4 as (groups & s3 & H4 & -> & H5 & ->). destruct th as [e|]; [|contradiction]. cbn in Eh. destruct (v <? 2) eqn:E2; [discriminate|].
        do 3 eexists. split; [apply (reply_u r rs e b ops ps v m groups s3); [assumption|exact H2|lia|assumption..]|]. cbn [threshold_word]. unfold parenthesize, in_parens. rewrite !append_assoc3'. reflexivity.
    + intros (parts & reported & verdict & H & ->). inversion H; subst.
      * exists ops, ps, (Some v), m. split; [assumption|]. split; [assumption|]. split; [assumption|]. cbn [hint]. replace (v <? 2) with false by lia. do 2 eexists. split; [eassumption|]. split; [reflexivity|]. split; [eassumption|].
        cbn [threshold_word]. unfold parenthesize, in_parens. rewrite !append_assoc3'. reflexivity.
      * exists ds, ps, t, m. split; [assumption|]. split; [assumption|]. split; [assumption|]. match goal with H : hint _ _ = Some _ |- _ => rewrite H end. split; reflexivity.
  - destruct Hok as (Hr & Hth & Hb & Hop & Ht). rewrite (gives_ucomp gid r rs th b op t ds res Hr Hb Hop). cbv zeta.
    assert (forall m w groups, group_hits op w m groups = matching op w (map (fun g => wrap64 (total_of g + m)) groups)) as Eg.
    { intros. unfold group_hits. f_equal. apply map_ext. intros g. unfold group_sum. apply wrap64_add_l. }
    split.
    + intros (ops & ps & t' & m & w & H1 & H2 & H3 & H4 & H5). destruct (hint hint_u t') as [h|] eqn:Eh.
      * destruct H5 as (-> & ->). do 3 eexists. split; [apply (reply_hint_u_count r rs th b op t t' m w h ops ps); assumption|reflexivity].
      * destruct t' as [v|]; [|contradiction]. destruct H5 as (groups & H5 & -> & ->). destruct th as [e|]; [|contradiction]. cbn in Eh. destruct (v <? 2) eqn:E2; [discriminate|].
        do 3 eexists. split; [apply (reply_u_count r rs e b op t ops ps v m w groups); [assumption|exact H2|lia|assumption..]|]. rewrite Eg. cbn [threshold_word]. unfold parenthesize, in_parens. rewrite !append_assoc3'. reflexivity.
    + intros (parts & reported & verdict & H & ->). inversion H; subst.
      * exists ops, ps, (Some v), m, w. split; [assumption|]. split; [assumption|]. split; [assumption|]. split; [assumption|]. cbn [hint]. replace (v <? 2) with false by lia. eexists. split; [eassumption|]. split; [reflexivity|].
        rewrite Eg. cbn [threshold_word]. unfold parenthesize, in_parens. rewrite !append_assoc3'. reflexivity.
      * exists ds, ps, t0, m, w. split; [assumption|]. split; [assumption|]. split; [assumption|]. split; [assumption|]. match goal with H : hint _ _ = Some _ |- _ => rewrite H end. split; reflexivity.
  - rewrite gives_choose. split.
    + intros (d & item & -> & H1 & H2 & H3 & H4 & ->). do 3 eexists. split; [apply (reply_choice items d item); assumption|reflexivity].
    + intros (parts & reported & verdict & H & ->). inversion H; subst. do 2 eexists. split; [reflexivity|]. split; [assumption|]. split; [destruct items; [contradiction|discriminate]|]. split; [assumption|]. split; [eassumption|reflexivity].
Qed.
Print Assumptions C44_replies.

(** The message of a successful execution: the identifier of the game, " : ", and the parts of the reply joined by " ＞ ".  The command replied to is the text of the command,
    or its part before the first white space; dice may have been lost before (C06). *)
Theorem C44_message bot input f r f' : execute_command_with bot input f = (Ok r, f') ->
  exists text secret command c lost ds parts,
    check_secret input = (text, secret) /\ (command = text \/ command = first_part text) /\ parse_command command = Ok (command_tree c) /\
    draws f (lost ++ ds) f' /\ reply c ds parts (r_dice r) (r_success r) /\ r_secret r = secret /\
    message r = (db_game_id bot ++ " : " ++ join " ＞ " parts)%string.
Proof.
  assert (forall cmd f1 r1 f2, execute_basic_command bot cmd f1 = (Ok r1, f2) -> exists c ds, parse_command cmd = Ok (command_tree c) /\ draws f1 ds f2 /\
     reply c ds (r_parts r1) (r_dice r1) (r_success r1) /\ r_game_id r1 = db_game_id bot) as Hb.
  { intros cmd f1 r1 f2 E. rewrite execute_basic_eq in E. destruct (parse_command cmd) as [n|e|p] eqn:Ep; try discriminate E. rewrite with_fresh_env_run_command in E.
    pose proof Ep as Ep'. apply parse_spelled in Ep' as (c & -> & Hc). destruct (run_command_gives _ _ _ _ _ E) as (ds & Hd & Hg). apply (C44_replies _ c ds r1 Hc) in Hg as (parts & rep & ver & H & ->).
    exists c, ds. split; [reflexivity|]. split; [exact Hd|]. split; [exact H|reflexivity]. }
  assert (forall (q : result) s parts, r_game_id q = db_game_id bot -> r_parts q = parts -> message (set_secret q s) = (db_game_id bot ++ " : " ++ join " ＞ " parts)%string) as Hm.
  { intros q s parts <- <-. reflexivity. }
  rewrite execute_command_with_eq. destruct (check_secret input) as [text secret]. destruct (execute_basic_command bot text f) as [[r1|e1|p1] f1] eqn:E1; intros H; try discriminate H.
  - injection H as <- <-. apply Hb in E1 as (c & ds & Hp & Hd & Hr & Hi). exists text, secret, text, c, [], ds, (r_parts r1). repeat split; try assumption; [left; reflexivity|]. apply Hm; [assumption|reflexivity].
  - destruct (execute_basic_draws _ _ _ _ _ E1) as (lost & Hl). destruct (execute_basic_command bot (first_part text) f1) as [[r2|e2|p2] f2] eqn:E2; try discriminate H.
    injection H as <- <-. apply Hb in E2 as (c & ds & Hp & Hd & Hr & Hi). exists text, secret, (first_part text), c, lost, ds, (r_parts r2). repeat split; try assumption; [right; reflexivity|eapply draws_app; eassumption|]. apply Hm; [assumption|reflexivity].
Qed.
Print Assumptions C44_message.
(** The echo in the first part: of a calculation as entered, of a roll with its operands computed. *)
Example C44_cases :
  (match execute_command_with basic_bot "s(1+2)D(2*3)-(1-(-2))*3>=10 yes" (FQueue [Die 3 6; Die 4 6; Die 5 6]) with (Ok r, _) => message r | _ => ""%string end) = "DiceBot : (3D6-(1-(-2))*3>=10) ＞ 12[3,4,5]-(1-(-2))*3 ＞ 3 ＞ 失敗"%string /\
  (match execute_command_with basic_bot "C(1-(2+3)/2U)" (FQueue []) with (Ok r, _) => message r | _ => ""%string end) = "DiceBot : C(1-(2+3)/2U) ＞ 計算結果 ＞ -2"%string /\
  (match execute_command_with basic_bot "2R6" (FQueue []) with (Ok r, _) => message r | _ => ""%string end) = ("DiceBot : (2R6) ＞ " ++ hint_r)%string.
Proof. vconj. Qed.
