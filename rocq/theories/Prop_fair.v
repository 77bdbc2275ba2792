(** Property C74: the dice are as fair as the source of random numbers. *)
From Coq Require Import Reals Permutation.
From Verif Require Import Grammar ProofBase Dice SpecDice DiceProofs Comp CompProofs Ast Eval Notation NotationProofs Command
  SpecSyntax SpecArith ArithProofs SpecRoll SpecTotals SpecLists SpecFair YieldsProofs DRollProofs NumberText BCDice CommandProofs ExecProofs BCDiceProofs
  Prop_droll Prop_lists Prop_exec Prop_exec2 Prop_totals.
Open Scope list_scope.
Open Scope Z_scope.

(** ** Every die is one answer *)
Lemma draws_answers f ds f' : draws f ds f' -> forall intn k, f = FRandom intn k -> intn_contract intn ->
  f' = FRandom intn (k + length ds) /\ forall i d, nth_error ds i = Some d -> die_value d = intn (k + i)%nat (die_sides d) + 1.
Proof.
  induction 1 as [f|f sides d f1 ds f2 H1 H2 IH]; intros intn k -> Hc.
  - rewrite Nat.add_0_r. split; [reflexivity|]. intros [|i] d; discriminate.
  - destruct (feeder_next_random _ _ _ _ _ Hc H1) as (_ & Hs & ->). destruct (IH intn (S k) eq_refl Hc) as (-> & Hi). cbn [length]. split; [f_equal; lia|].
    intros [|i] x; cbn [nth_error].
    + intros [= <-]. rewrite Hs, Nat.add_0_r. cbn in H1. destruct (sides <=? 0) eqn:E; [discriminate|]. injection H1 as <-. cbn [die_value]. pose proof (Hc k sides ltac:(lia)) as Hk.
      rewrite wrap64_id; [lia|]. unfold in_int64, min_int, max_int, two63 in *. lia.
    + intros Hx. rewrite (Hi i x Hx). f_equal. f_equal. lia.
Qed.
(** C74: whatever the input, and whatever comes of it, the numbers used are the next answers of the source, in order, each for exactly one die and asked for with
    the number of sides of that die; no answer is skipped or used twice.  The dice reported are the last of these dice. *)
Theorem C74_one_answer_each bot intn k input o f' : intn_contract intn -> execute_command_with bot input (FRandom intn k) = (o, f') ->
  exists ds, f' = FRandom intn (k + length ds) /\
    (forall i d, nth_error ds i = Some d -> die_value d = intn (k + i)%nat (die_sides d) + 1) /\
    (forall r, o = Ok r -> exists lost, ds = lost ++ r_dice r \/ r_dice r = []).
Proof.
  intros Hc H. destruct o as [r|e|p].
  - destruct (execute_command_reported _ _ _ _ _ H) as (lost & ds & Hd & Hr). destruct (draws_answers _ _ _ Hd intn k eq_refl Hc) as (-> & Hi). exists (lost ++ ds). split; [reflexivity|]. split; [exact Hi|].
    intros r0 [= <-]. exists lost. destruct Hr as [-> | ->]; auto.
  - destruct (execute_command_draws _ _ _ _ _ H) as (ds & Hd). destruct (draws_answers _ _ _ Hd intn k eq_refl Hc) as (-> & Hi). exists ds. split; [reflexivity|]. split; [exact Hi|]. discriminate.
  - destruct (execute_command_draws _ _ _ _ _ H) as (ds & Hd). destruct (draws_answers _ _ _ Hd intn k eq_refl Hc) as (-> & Hi). exists ds. split; [reflexivity|]. split; [exact Hi|]. discriminate.
Qed.
Print Assumptions C74_one_answer_each.

(** ** Running on given answers *)
Definition answers_to (intn : nat -> Z -> Z) (k : nat) (ds : list die) : Prop := forall i d, nth_error ds i = Some d -> wrap64 (1 + intn (k + i)%nat (die_sides d)) = die_value d.
Lemma answers_app intn k a b : answers_to intn k (a ++ b) -> answers_to intn k a /\ answers_to intn (k + length a) b.
Proof.
  intros H. split; intros i d Hi.
  - apply H. rewrite nth_error_app1; [exact Hi|]. apply nth_error_Some. congruence.
  - rewrite <- Nat.add_assoc. apply H. rewrite nth_error_app2 by lia. replace (length a + i - length a)%nat with i by lia. exact Hi.
Qed.
Lemma source_roll intn ds : forall k num sides, answers_to intn k ds -> Forall (fun d => die_sides d = sides) ds -> 1 <= sides ->
  roll_loop (length ds) num sides [] (FRandom intn k) = (Ok ds, FRandom intn (k + length ds)).
Proof.
  induction ds as [|d ds IH]; intros k num sides Ha Hy H1; [cbn; rewrite Nat.add_0_r; reflexivity|]. inversion_clear Hy. cbn [length roll_loop feeder_next]. destruct (sides <=? 0) eqn:E0; [lia|].
  pose proof (Ha 0%nat d eq_refl) as Hd. rewrite Nat.add_0_r, H in Hd. rewrite Hd. replace (Die (die_value d) sides) with d by (destruct d; cbn in *; congruence). rewrite H, Z.eqb_refl.
  rewrite roll_loop_acc. rewrite (IH (S k) num sides); [cbn; repeat f_equal; lia| |exact H0|exact H1]. intros i x Hi. replace (S k + i)%nat with (k + S i)%nat by lia. apply Ha. exact Hi.
Qed.
Lemma run_source {A} (c : comp A) intn : forall s a s' ds k, run c s = (Ok a, s') -> es_log s' = es_log s ++ ds -> answers_to intn k ds ->
  run c (EState (FRandom intn k) (es_log s)) = (Ok a, EState (FRandom intn (k + length ds)) (es_log s')).
Proof.
  induction c as [a0|e|p|num sides kk IH|kk IH]; intros s a s' ds k H Hl Hs; cbn [run] in *; try discriminate.
  - injection H as <- <-. rewrite <- (app_nil_r (es_log s)) in Hl at 1. apply app_inv_head in Hl. subst ds. rewrite Nat.add_0_r. reflexivity.
  - destruct (roll_dice num sides (es_feeder s)) as [[ds1|e|p] f'] eqn:E; try discriminate.
    destruct (run_ok_draws _ _ _ _ H) as (ds2 & H1 & _). cbn [es_log] in H1.
    assert (ds = ds1 ++ ds2) as ->. { rewrite Hl in H1. rewrite <- app_assoc in H1. apply app_inv_head in H1. assumption. }
    destruct (answers_app _ _ _ _ Hs) as (S1 & S2). apply roll_dice_ok in E as (E1 & E2 & E3 & E4 & _). cbn [es_feeder es_log].
    pose proof (source_roll intn ds1 k num sides S1 E4 E3) as Hr. specialize (IH ds1 _ _ _ ds2 (k + length ds1)%nat H H1 S2). cbn [es_log] in IH.
    unfold roll_dice. destruct (sides <? 1) eqn:T1; [lia|]. destruct (num <? 1) eqn:T2; [lia|]. destruct (max_alloc_16 <? num) eqn:T3; [lia|].
    replace (Z.to_nat num) with (length ds1) by lia. rewrite Hr. rewrite app_length, Nat.add_assoc. exact IH.
  - cbn [es_log]. apply (IH (es_log s) _ _ _ ds k H Hl Hs).
Qed.
Lemma gives_source gid n ds r intn k : gives gid n ds r -> answers_to intn k ds -> run_command gid n (FRandom intn k) = (Ok r, FRandom intn (k + length ds)).
Proof.
  intros H Ha. specialize (H []). rewrite app_nil_r in H. apply run_command_ok in H as (ds' & H & Hd). apply draws_queue in Hd as (q & E2 & E). injection E2 as <-. rewrite app_nil_r in E. subst ds'.
  pose proof (run_source _ intn _ _ _ ds k H eq_refl Ha) as Hr. cbn [es_log] in Hr. unfold run_command. rewrite Hr. reflexivity.
Qed.
(** ** Lists of answers *)
Definition answered (n : nat) (s : Z) (rs : list Z) : Prop := length rs = n /\ Forall (fun a => 0 <= a < s) rs.
Lemma in_below s a : In a (below s) <-> 0 <= a < s.
Proof.
  unfold below. rewrite in_map_iff. split.
  - intros (x & <- & Hx). apply in_seq in Hx. lia.
  - intros H. exists (Z.to_nat a). split; [lia|]. apply in_seq. lia.
Qed.
Lemma below_nodup s : NoDup (below s).
Proof. unfold below. apply FinFun.Injective_map_NoDup; [intros x y; lia|apply seq_NoDup]. Qed.
Lemma in_all n s : forall rs, In rs (all_answers n s) <-> answered n s rs.
Proof.
  unfold answered. induction n as [|n IH]; intros rs; cbn [all_answers].
  - cbn [In]. split; [intros [<-|[]]; auto|]. intros (H & _). destruct rs; [auto|discriminate].
  - rewrite in_flat_map. split.
    + intros (a & Ha & Hr). apply in_map_iff in Hr as (l & <- & Hl). apply IH in Hl as (H1 & H2). apply in_below in Ha. cbn [length]. split; [lia|]. constructor; assumption.
    + intros (H1 & H2). destruct rs as [|a rs]; [discriminate|]. inversion_clear H2. exists a. split; [apply in_below; assumption|]. apply in_map. apply IH. split; [cbn in H1; lia|assumption].
Qed.
Lemma count_map {A B} (p : B -> bool) (g : A -> B) l : count p (map g l) = count (fun a => p (g a)) l.
Proof. unfold count. induction l as [|a l IH]; [reflexivity|]. cbn [map filter]. destruct (p (g a)); cbn [length]; rewrite IH; reflexivity. Qed.
Lemma count_flat_map {A B} (p : B -> bool) (g : A -> list B) l : count p (flat_map g l) = list_sum (map (fun a => count p (g a)) l).
Proof. unfold count. induction l as [|a l IH]; [reflexivity|]. cbn [flat_map map]. rewrite filter_app, app_length, IH. reflexivity. Qed.
Lemma count_ext {A} (p q : A -> bool) l : (forall a, In a l -> p a = q a) -> count p l = count q l.
Proof. intros H. unfold count. rewrite (filter_ext_in p q l H). reflexivity. Qed.
Lemma list_sum_ext {A} (g h : A -> nat) l : (forall a, In a l -> g a = h a) -> list_sum (map g l) = list_sum (map h l).
Proof. intros H. f_equal. apply map_ext_in. exact H. Qed.
(** C74: [all_answers n s] lists every possible list of answers exactly once; there are s^n of them. *)
Lemma all_nodup n s : NoDup (all_answers n s).
Proof.
  induction n as [|n IH]; cbn [all_answers]; [constructor; [intros []|constructor]|].
  generalize (below_nodup s). induction (below s) as [|a l IHl]; intros H; cbn [flat_map]; [constructor|]. inversion_clear H.
  assert (forall l1 l2 : list (list Z), NoDup l1 -> NoDup l2 -> (forall x, In x l1 -> ~ In x l2) -> NoDup (l1 ++ l2)) as Happ.
  { induction l1 as [|x l1 I1]; intros l2 N1 N2 Hd; [exact N2|]. inversion_clear N1. cbn. constructor.
    - rewrite in_app_iff. intros [X|X]; [contradiction|]. apply (Hd x); [left; reflexivity|exact X].
    - apply I1; try assumption. intros y Hy. apply Hd. right. exact Hy. }
  apply Happ; [apply FinFun.Injective_map_NoDup; [intros x y E; injection E; auto|exact IH]|apply IHl; assumption|].
  intros x Hx Hx'. apply in_map_iff in Hx as (y & <- & _). apply in_flat_map in Hx' as (b & Hb & Hx'). apply in_map_iff in Hx' as (z & E & _). injection E as -> _. contradiction.
Qed.
Lemma all_length n s : length (all_answers n s) = (Z.to_nat s ^ n)%nat.
Proof.
  induction n as [|n IH]; [reflexivity|]. cbn [all_answers Nat.pow]. rewrite <- IH.
  assert (forall l, length (flat_map (fun a => map (cons a) (all_answers n s)) l) = (length l * length (all_answers n s))%nat) as E.
  { induction l as [|a l IHl]; [reflexivity|]. cbn [flat_map length]. rewrite app_length, map_length, IHl. lia. }
  rewrite E. unfold below. rewrite map_length, seq_length. reflexivity.
Qed.
Theorem C74_all_answers n s : NoDup (all_answers n s) /\ length (all_answers n s) = (Z.to_nat s ^ n)%nat /\
  forall rs, In rs (all_answers n s) <-> length rs = n /\ Forall (fun a => 0 <= a < s) rs.
Proof. split; [apply all_nodup|]. split; [apply all_length|apply in_all]. Qed.
Print Assumptions C74_all_answers.

Definition faces (s : Z) (rs : list Z) : list die := map (fun a => Die (a + 1) s) rs.
Lemma answers_faces n s rs : s <= max_int -> answered n s rs -> answers_to (source rs) 0 (faces s rs).
Proof.
  intros Hs (_ & H) i d Hi. unfold faces in Hi. rewrite nth_error_map in Hi. destruct (nth_error rs i) as [a|] eqn:E; [|discriminate]. injection Hi as <-. cbn [die_sides die_value].
  unfold source. cbn [Nat.add]. rewrite (nth_error_nth rs i 0 E). rewrite Forall_forall in H. specialize (H a (nth_error_In _ _ E)). rewrite wrap64_id; [lia|]. unfold in_int64, min_int, max_int, two63 in *. lia.
Qed.
Lemma faces_rolled n s rs : (1 <= n)%nat -> Z.of_nat n <= max_alloc_16 -> 1 <= s -> answered n s rs -> rolled (Z.of_nat n) s (faces s rs).
Proof.
  intros H1 H2 H3 (H & _). unfold rolled, faces. rewrite map_length, H. repeat (split; [lia|]). apply Forall_map. apply Forall_forall. reflexivity.
Qed.
Definition sumz (l : list Z) : Z := fold_right Z.add 0 l.
Lemma faces_sum s rs : sumz (map die_value (faces s rs)) = sumz rs + Z.of_nat (length rs).
Proof. unfold faces, sumz. rewrite map_map. cbn [die_value]. induction rs as [|a rs IH]; [reflexivity|]. cbn [map fold_right length] in *. lia. Qed.
Lemma answered_range n s rs : answered n s rs -> 0 <= sumz rs <= Z.of_nat n * (s - 1).
Proof. intros (<- & H). unfold sumz. induction H as [|a rs Ha _ IH]; [cbn; lia|]. cbn [fold_right length]. nia. Qed.

(** ** Totals *)
Definition plain_roll (n : nat) (s : Z) : SpecSyntax.dexpr := Leaf (DDice (Leaf (RInt (Z.of_nat n))) (Leaf (RInt s))).
Lemma plain_ok n s : Z.of_nat n <= max_alloc_16 -> 1 <= s <= max_int -> dok (plain_roll n s).
Proof. intros H1 H2. cbn. unfold max_alloc_16, in_int64, max_int, min_int, two63 in *. lia. Qed.
Lemma operand_int w : operand_value (Leaf (RInt w)) [] w.
Proof. exists (Leaf w). split; [constructor; cbn; auto|apply has_value_mach; reflexivity]. Qed.
Lemma plain_value n s rs : (1 <= n)%nat -> Z.of_nat n <= max_alloc_16 -> 1 <= s -> Z.of_nat n * s <= max_int -> answered n s rs ->
  d_value (plain_roll n s) [] (faces s rs) (Leaf (MDice (Z.of_nat n) s)) (Leaf (SRoll (faces s rs))) (sumz rs + Z.of_nat n).
Proof.
  intros H1 H2 H3 H4 Ha. split; [|split].
  - constructor. exists [], []. split; [reflexivity|]. split; apply operand_int.
  - constructor. split; [reflexivity|]. apply faces_rolled; assumption.
  - apply has_value_mach. cbn. fold (sumz (map die_value (faces s rs))). rewrite faces_sum. destruct Ha as (Hl & Hr). rewrite Hl. f_equal. apply wrap64_id.
    pose proof (answered_range n s rs (conj Hl Hr)). unfold in_int64, min_int, max_int, two63 in *. nia.
Qed.
(** The reply to a command on given answers *)
Definition reply (gid : string) (c : command) (rs : list Z) : option result :=
  match run_command gid (command_tree c) (FRandom (source rs) 0) with (Ok r, _) => Some r | _ => None end.
Definition part_is (i : nat) (text : string) (r : option result) : bool :=
  match r with Some r => match nth_error (r_parts r) i with Some s => String.eqb s text | None => false end | None => false end.
Lemma plain_reply gid n s rs : (1 <= n)%nat -> Z.of_nat n <= max_alloc_16 -> 1 <= s -> Z.of_nat n * s <= max_int -> answered n s rs ->
  exists s1 s2, reply gid (DExpr (plain_roll n s)) rs = Some (Result gid [s1; s2; itoa (sumz rs + Z.of_nat n)] (faces s rs) Unspecified false).
Proof.
  intros H1 H2 H3 H4 Ha. assert (1 <= s <= max_int) as Hs by nia.
  destruct (infix_notation (tree mleaf_tree (Leaf (MDice (Z.of_nat n) s))) true) as [s1|e|p] eqn:E1; [|discriminate E1|discriminate E1].
  destruct (infix_notation (tree sleaf_tree (Leaf (SRoll (faces s rs)))) true) as [s2|e|p] eqn:E2; [|discriminate E2|discriminate E2].
  assert (gives gid (command_tree (DExpr (plain_roll n s))) (faces s rs) (Result gid [parenthesize s1; s2; itoa (sumz rs + Z.of_nat n)] (faces s rs) Unspecified false)) as Hg.
  { apply C15_d_expr_exact; [apply plain_ok; assumption|]. exists [], (faces s rs), (Leaf (MDice (Z.of_nat n) s)), (Leaf (SRoll (faces s rs))), (sumz rs + Z.of_nat n), s1, s2.
    split; [reflexivity|]. split; [apply plain_value; assumption|]. auto. }
  exists (parenthesize s1), s2. unfold reply. rewrite (gives_source _ _ _ _ _ _ Hg (answers_faces n s rs (proj2 Hs) Ha)). reflexivity.
Qed.
Lemma count_sum n s : forall v, count (fun rs => sumz rs + Z.of_nat n =? v) (all_answers n s) = ways n s v.
Proof.
  induction n as [|n IH]; intros v; cbn [all_answers ways].
  - unfold count. cbn [filter]. change (sumz [] + Z.of_nat 0) with 0. destruct (Z.eqb_spec 0 v), (Z.eqb_spec v 0); try (exfalso; lia); reflexivity.
  - rewrite count_flat_map. apply list_sum_ext. intros a _. rewrite count_map, <- IH. apply count_ext. intros rs _. unfold sumz. cbn [fold_right]. lia.
Qed.
(** C74: the distribution of the total of nDs.  Of the s^n equally likely lists of answers, exactly [ways n s v] lead to the total v. *)
Theorem C74_totals_distribution gid n s v : (1 <= n)%nat -> Z.of_nat n <= max_alloc_16 -> 1 <= s -> Z.of_nat n * s <= max_int ->
  count (fun rs => part_is 2 (itoa v) (reply gid (DExpr (plain_roll n s)) rs)) (all_answers n s) = ways n s v.
Proof.
  intros H1 H2 H3 H4. rewrite <- count_sum. apply count_ext. intros rs Hrs. apply in_all in Hrs. destruct (plain_reply gid n s rs H1 H2 H3 H4 Hrs) as (s1 & s2 & ->). cbn [part_is r_parts nth_error].
  destruct (String.eqb_spec (itoa (sumz rs + Z.of_nat n)) (itoa v)) as [E|E]; [apply itoa_inj in E|]; destruct (sumz rs + Z.of_nat n =? v) eqn:E2; try reflexivity; [lia|].
  exfalso. apply E. f_equal. lia.
Qed.
Print Assumptions C74_totals_distribution.
(** ** Chances of success *)
Definition succeeded (r : option result) : bool := match r with Some r => match r_success r with Success => true | _ => false end | None => false end.
Lemma count_or {A} (p q : A -> bool) l : (forall a, In a l -> p a = true -> q a = false) -> count (fun a => p a || q a) l = (count p l + count q l)%nat.
Proof.
  unfold count. induction l as [|a l IH]; intros H; [reflexivity|]. cbn [filter]. specialize (IH (fun x Hx => H x (or_intror Hx))). pose proof (H a (or_introl eq_refl)) as Ha.
  destruct (p a); [rewrite (Ha eq_refl)|destruct (q a)]; cbn [orb length]; rewrite ?IH; cbn [length]; lia.
Qed.
Lemma count_none {A} (p : A -> bool) l : (forall a, In a l -> p a = false) -> count p l = 0%nat.
Proof. intros H. unfold count. induction l as [|a l IH]; [reflexivity|]. cbn [filter]. rewrite (H a (or_introl eq_refl)). apply IH. intros x Hx. apply H. right. exact Hx. Qed.
Lemma count_among {A} (g : A -> Z) l vs : NoDup vs -> count (fun a => existsb (Z.eqb (g a)) vs) l = list_sum (map (fun v => count (fun a => g a =? v) l) vs).
Proof.
  induction 1 as [|v vs Hv _ IH]; [apply count_none; reflexivity|]. cbn [existsb map list_sum fold_right]. rewrite count_or; [unfold list_sum in IH; rewrite IH; reflexivity|].
  intros a _ E. destruct (existsb (Z.eqb (g a)) vs) eqn:Ex; [|reflexivity]. apply existsb_exists in Ex as (x & Hx & Ex). exfalso. apply Hv. replace v with x by lia. exact Hx.
Qed.
Lemma compare_some gid n s op t w rs : (1 <= n)%nat -> Z.of_nat n <= max_alloc_16 -> 1 <= s -> Z.of_nat n * s <= max_int -> is_compare_op op -> iok t -> has_value t w -> answered n s rs ->
  exists parts, reply gid (DComp (plain_roll n s) op t) rs = Some (Result gid parts (faces s rs) (if compareb op (sumz rs + Z.of_nat n) w then Success else Failure) false).
Proof.
  intros H1 H2 H3 H4 Hop Ht Hw Ha. assert (1 <= s <= max_int) as Hs by nia.
  destruct (infix_notation (tree mleaf_tree (Leaf (MDice (Z.of_nat n) s))) true) as [s1|e|p] eqn:E1; [|discriminate E1|discriminate E1].
  destruct (infix_notation (tree sleaf_tree (Leaf (SRoll (faces s rs)))) true) as [s2|e|p] eqn:E2; [|discriminate E2|discriminate E2].
  set (b := compareb op (sumz rs + Z.of_nat n) w).
  assert (gives gid (command_tree (DComp (plain_roll n s) op t)) (faces s rs) (Result gid [parenthesize (s1 ++ op ++ itoa w); s2; itoa (sumz rs + Z.of_nat n); if b then "成功" else "失敗"]%string (faces s rs) (if b then Success else Failure) false)) as Hg.
  { apply C16_d_comp_exact; [apply plain_ok; assumption|assumption|assumption|]. split; [exact I|]. exists [], (faces s rs), (Leaf (MDice (Z.of_nat n) s)), (Leaf (SRoll (faces s rs))), (sumz rs + Z.of_nat n), w, s1, s2, b.
    split; [reflexivity|]. split; [apply plain_value; assumption|]. split; [exact Hw|]. split; [apply compareb_spec, Hop|]. auto. }
  unfold reply. rewrite (gives_source _ _ _ _ _ _ Hg (answers_faces n s rs (proj2 Hs) Ha)). eexists. reflexivity.
Qed.
Lemma compare_reply gid n s op t w rs : (1 <= n)%nat -> Z.of_nat n <= max_alloc_16 -> 1 <= s -> Z.of_nat n * s <= max_int -> is_compare_op op -> iok t -> has_value t w -> answered n s rs ->
  succeeded (reply gid (DComp (plain_roll n s) op t) rs) = compareb op (sumz rs + Z.of_nat n) w.
Proof.
  intros. destruct (compare_some gid n s op t w rs) as (parts & ->); try assumption. cbn [succeeded r_success]. destruct (compareb op (sumz rs + Z.of_nat n) w); reflexivity.
Qed.
(** C74: the chance of success of nDs compared with a number: the lists of answers that lead to SUCCESS are those of the totals that satisfy the comparison. *)
Theorem C74_chance_of_success gid n s op t w totals : (1 <= n)%nat -> Z.of_nat n <= max_alloc_16 -> 1 <= s -> Z.of_nat n * s <= max_int ->
  is_compare_op op -> iok t -> has_value t w ->
  NoDup totals -> (forall v, In v totals <-> Z.of_nat n <= v <= Z.of_nat n * s /\ compares op v w) ->
  count (fun rs => succeeded (reply gid (DComp (plain_roll n s) op t) rs)) (all_answers n s) = list_sum (map (ways n s) totals).
Proof.
  intros H1 H2 H3 H4 Hop Ht Hw Hn Hin. transitivity (count (fun rs => existsb (Z.eqb (sumz rs + Z.of_nat n)) totals) (all_answers n s)).
  - apply count_ext. intros rs Hrs. apply in_all in Hrs. rewrite (compare_reply gid n s op t w rs) by assumption. pose proof (answered_range _ _ _ Hrs) as Hr.
    apply Bool.eq_iff_eq_true. rewrite (compareb_spec op _ w Hop), existsb_exists. split.
    + intros Hc. exists (sumz rs + Z.of_nat n). split; [|apply Z.eqb_refl]. apply Hin. split; [nia|exact Hc].
    + intros (x & Hx & E). apply Z.eqb_eq in E. rewrite E. apply Hin. exact Hx.
  - rewrite (count_among (fun rs => sumz rs + Z.of_nat n)) by exact Hn. apply list_sum_ext. intros v _. apply count_sum.
Qed.
Print Assumptions C74_chance_of_success.

(** ** Numbers of successes of B rolls *)
Lemma count_le {A} (h : A -> bool) l : (count h l <= length l)%nat.
Proof. unfold count. induction l as [|a l IH]; [constructor|]. cbn [filter length]. destruct (h a); cbn [length]; lia. Qed.
Lemma sum_cases (h : Z -> bool) X Y l : list_sum (map (fun a => if h a then X else Y) l) = (count h l * X + (length l - count h l) * Y)%nat.
Proof.
  induction l as [|a l IH]; [reflexivity|]. cbn [map list_sum fold_right]. unfold list_sum in IH. rewrite IH. pose proof (count_le h l) as Hle.
  assert (count h (a :: l) = if h a then S (count h l) else count h l) as -> by (unfold count; cbn [filter]; destruct (h a); reflexivity). cbn [length].
  destruct (h a); [replace (S (length l) - S (count h l))%nat with (length l - count h l)%nat by lia; cbn; lia|].
  replace (S (length l) - count h l)%nat with (S (length l - count h l)) by lia. cbn. lia.
Qed.
Lemma binomial_over n : forall k, (n < k)%nat -> binomial n k = 0%nat.
Proof. induction n as [|n IH]; intros [|k] H; try lia; [reflexivity|]. cbn [binomial]. rewrite !IH by lia. reflexivity. Qed.
Lemma count_hits (h : Z -> bool) s n : forall k,
  count (fun rs => Nat.eqb (count h rs) k) (all_answers n s) = (binomial n k * count h (below s) ^ k * (length (below s) - count h (below s)) ^ (n - k))%nat.
Proof.
  induction n as [|n IH]; intros k; cbn [all_answers].
  - destruct k as [|k]; reflexivity.
  - rewrite count_flat_map.
    assert (forall a, count (fun rs => Nat.eqb (count h rs) k) (map (cons a) (all_answers n s)) =
              if h a then match k with O => O | S k' => count (fun rs => Nat.eqb (count h rs) k') (all_answers n s) end else count (fun rs => Nat.eqb (count h rs) k) (all_answers n s)) as E.
    { intros a. rewrite count_map. destruct (h a) eqn:Ha.
      - destruct k as [|k']; [apply count_none; intros rs _|apply count_ext; intros rs _]; unfold count at 1; cbn [filter]; rewrite Ha; reflexivity.
      - apply count_ext. intros rs _. unfold count at 1. cbn [filter]. rewrite Ha. reflexivity. }
    rewrite (list_sum_ext _ _ _ (fun a _ => E a)), sum_cases. set (m := count h (below s)). set (q := (length (below s) - m)%nat). destruct k as [|k].
    + rewrite IH. fold m q. rewrite !Nat.sub_0_r. cbn [binomial Nat.pow]. destruct n; cbn [binomial]; lia.
    + rewrite !IH. fold m q. cbn [binomial Nat.sub]. destruct (Nat.ltb_spec k n) as [Hk|Hk].
      * replace (n - k)%nat with (S (n - S k)) by lia. cbn [Nat.pow]. ring.
      * rewrite (binomial_over n (S k)) by lia. cbn [Nat.pow]. ring.
Qed.
Lemma length_below s : length (below s) = Z.to_nat s.
Proof. unfold below. rewrite map_length, seq_length. reflexivity. Qed.
Lemma hits_count op w s hits : is_compare_op op -> NoDup hits -> (forall v, In v hits <-> 1 <= v <= s /\ compares op v w) ->
  count (fun a => compareb op (a + 1) w) (below s) = length hits.
Proof.
  intros Hop Hn Hin. unfold count. rewrite <- (map_length (fun a => a + 1)). apply Permutation_length. apply NoDup_Permutation.
  - apply FinFun.Injective_map_NoDup; [intros x y; lia|]. apply NoDup_filter, below_nodup.
  - exact Hn.
  - intros v. rewrite in_map_iff, Hin. split.
    + intros (a & <- & Ha). apply filter_In in Ha as (Ha & Hc). apply in_below in Ha. split; [lia|]. apply compareb_spec; assumption.
    + intros (Hv & Hc). exists (v - 1). split; [lia|]. apply filter_In. split; [apply in_below; lia|]. replace (v - 1 + 1) with v by lia. apply compareb_spec; assumption.
Qed.
Definition plain_b (n : nat) (s : Z) : roll := (Leaf (RInt (Z.of_nat n)), Leaf (RInt s)).
Lemma b_reply gid n s op t w rs : (1 <= n)%nat -> Z.of_nat n <= max_alloc_16 -> 1 <= s <= max_int -> is_compare_op op -> has_value t w -> answered n s rs ->
  exists s1 s2, reply gid (BComp (plain_b n s) [] op t) rs = Some (Result gid [s1; s2; ("成功数" ++ itoa (Z.of_nat (count (fun a => compareb op (a + 1) w) rs)))%string] (faces s rs) Unspecified false).
Proof.
  intros H1 H2 H3 Hop Hw Ha.
  assert (Z.of_nat (count (fun a => compareb op (a + 1) w) rs) = matching op w (values (concat [faces s rs]))) as ->.
  { unfold matching, values, faces. cbn [concat]. rewrite app_nil_r, map_map. cbn [die_value]. f_equal. change (length (filter (fun v => compareb op v w) (map (fun a => a + 1) rs))) with (count (fun v => compareb op v w) (map (fun a => a + 1) rs)). rewrite count_map. reflexivity. }
  assert (gives gid (command_tree (BComp (plain_b n s) [] op t)) (faces s rs) (Result gid [parenthesize (rolls_words "B" [(Z.of_nat n, s)] ++ op ++ itoa w); values_word (concat [faces s rs]); ("成功数" ++ itoa (matching op w (values (concat [faces s rs]))))%string] (faces s rs) Unspecified false)) as Hg.
  { apply C22_success_count; [apply Forall_cons; [|apply Forall_nil]; unfold roll_ok, plain_b, rok; cbn; unfold max_alloc_16, in_int64, max_int, min_int, two63 in *; lia|exact Hop|].
    exists [], [(Z.of_nat n, s)], [faces s rs], w. split; [|split; [|split; [|split; [exact Hw|reflexivity]]]].
    - change (@nil die) with (@nil die ++ [] ++ []) at 1. constructor; [apply operand_int|apply operand_int|constructor].
    - constructor; [apply faces_rolled; try assumption; lia|constructor].
    - cbn [concat app]. rewrite app_nil_r. reflexivity. }
  eexists. eexists. unfold reply. rewrite (gives_source _ _ _ _ _ _ Hg (answers_faces n s rs (proj2 H3) Ha)). reflexivity.
Qed.
Lemma prefix_inj (p a b : string) : (p ++ a)%string = (p ++ b)%string -> a = b.
Proof. induction p as [|c p IH]; cbn; [auto|]. intros H. injection H as H. auto. Qed.
(** C74: the number of successes of nBs compared with a number is binomially distributed: if m of the s faces satisfy the comparison, exactly
    binomial(n,k) * m^k * (s-m)^(n-k) lists of answers lead to k successes. *)
Theorem C74_successes_distribution gid n s op t w hits k : (1 <= n)%nat -> Z.of_nat n <= max_alloc_16 -> 1 <= s <= max_int ->
  is_compare_op op -> has_value t w ->
  NoDup hits -> (forall v, In v hits <-> 1 <= v <= s /\ compares op v w) ->
  count (fun rs => part_is 2 ("成功数" ++ itoa (Z.of_nat k)) (reply gid (BComp (plain_b n s) [] op t) rs)) (all_answers n s) =
    (binomial n k * length hits ^ k * (Z.to_nat s - length hits) ^ (n - k))%nat.
Proof.
  intros H1 H2 H3 Hop Hw Hn Hin. rewrite <- (hits_count op w s hits Hop Hn Hin), <- (length_below s), <- count_hits. apply count_ext. intros rs Hrs. apply in_all in Hrs.
  destruct (b_reply gid n s op t w rs H1 H2 H3 Hop Hw Hrs) as (s1 & s2 & ->). cbn [part_is r_parts nth_error].
  set (c := count (fun a => compareb op (a + 1) w) rs). destruct (String.eqb_spec ("成功数" ++ itoa (Z.of_nat c)) ("成功数" ++ itoa (Z.of_nat k))) as [E|E].
  - apply prefix_inj, itoa_inj in E. symmetry. apply Nat.eqb_eq. lia.
  - symmetry. apply Nat.eqb_neq. intros ->. apply E. reflexivity.
Qed.
Print Assumptions C74_successes_distribution.

(** ** CHOICE *)
Lemma choice_reply gid items i item : Z.of_nat (length items) <= max_int -> nth_error items i = Some item ->
  exists s1, reply gid (Choose items) [Z.of_nat i] = Some (Result gid [s1; item] [Die (Z.of_nat i + 1) (Z.of_nat (length items))] Unspecified false).
Proof.
  intros Hn Hi. assert (i < length items)%nat as Hl by (apply nth_error_Some; congruence).
  destruct (C31_every_legal_die gid items (Die (Z.of_nat i + 1) (Z.of_nat (length items))) Hn) as (x & Hx & Hg); [split; cbn; lia|reflexivity|].
  cbn [die_value] in Hx. replace (Z.to_nat (Z.of_nat i + 1 - 1)) with i in Hx by lia. rewrite Hi in Hx. injection Hx as <-. eexists. unfold reply. rewrite (gives_source _ _ _ _ (source [Z.of_nat i]) 0 Hg); [reflexivity|].
  intros [|j] d Hd; [|destruct j; discriminate Hd]. injection Hd as <-. cbn [die_sides die_value source Nat.add nth]. unfold source. cbn [nth]. rewrite wrap64_id; [lia|]. unfold in_int64, min_int, max_int, two63 in *. lia.
Qed.
Lemma count_positions (item : string) items : count (fun i => match nth_error items i with Some x => String.eqb x item | None => false end) (seq 0 (length items)) = count_occ string_dec items item.
Proof.
  induction items as [|x items IH]; [reflexivity|]. cbn [length seq count_occ]. rewrite <- seq_shift.
  assert (forall (p : nat -> bool) l, count p (0%nat :: map S l) = ((if p 0%nat then 1 else 0) + count (fun i => p (S i)) l)%nat) as E.
  { intros p l. rewrite <- (count_map p S). unfold count. cbn [filter]. destruct (p 0%nat); reflexivity. }
  rewrite E. cbn [nth_error]. rewrite IH. destruct (string_dec x item) as [->|Hne]; [rewrite String.eqb_refl; reflexivity|]. apply String.eqb_neq in Hne. rewrite Hne. reflexivity.
Qed.
(** C74: CHOICE is fair: the source is asked once for a number below the number of items, and each item is chosen by as many of the answers as it occurs in the list. *)
Theorem C74_choice_distribution gid items item : Z.of_nat (length items) <= max_int ->
  count (fun rs => part_is 1 item (reply gid (Choose items) rs)) (all_answers 1 (Z.of_nat (length items))) = count_occ string_dec items item.
Proof.
  intros Hn. rewrite <- count_positions. cbn [all_answers map]. unfold below. rewrite Nat2Z.id.
  assert (forall l, flat_map (fun a : Z => [[a]]) (map Z.of_nat l) = map (fun i => [Z.of_nat i]) l) as -> by (induction l as [|i l IH]; [reflexivity|]; cbn [map flat_map app]; rewrite IH; reflexivity).
  rewrite count_map. apply count_ext. intros i Hi. apply in_seq in Hi. destruct (nth_error items i) as [x|] eqn:E; [|apply nth_error_None in E; lia].
  destruct (choice_reply gid items i x Hn E) as (s1 & ->). reflexivity.
Qed.
Print Assumptions C74_choice_distribution.

(** 2D6: 36 lists of answers, 6 of them give 7, 21 give at least 7; 3B6>=5: 48 of 216 give exactly two successes. *)
Example C74_example :
  length (all_answers 2 6) = 36%nat /\ ways 2 6 7 = 6%nat /\ ways 2 6 13 = 0%nat /\
  parse_command "2D6" = Ok (command_tree (DExpr (plain_roll 2 6))) /\
  count (fun rs => part_is 2 "7" (reply "DiceBot" (DExpr (plain_roll 2 6)) rs)) (all_answers 2 6) = 6%nat /\
  count (fun rs => succeeded (reply "DiceBot" (DComp (plain_roll 2 6) ">=" (Leaf 7)) rs)) (all_answers 2 6) = 21%nat /\
  count (fun rs => part_is 2 "成功数2" (reply "DiceBot" (BComp (plain_b 3 6) [] ">=" (Leaf 5)) rs)) (all_answers 3 6) = 48%nat /\ (binomial 3 2 * 2 ^ 2 * 4 ^ 1 = 48)%nat /\
  count (fun rs => part_is 1 "a" (reply "DiceBot" (Choose ["a"; "b"; "a"]%string) rs)) (all_answers 1 3) = 2%nat.
Proof. vconj. Qed.
Example C74_hypotheses : has_value (Leaf 7) 7 /\ NoDup [7; 8; 9; 10; 11; 12] /\ (forall v, In v [7; 8; 9; 10; 11; 12] <-> Z.of_nat 2 <= v <= Z.of_nat 2 * 6 /\ compares ">=" v 7) /\
  list_sum (map (ways 2 6) [7; 8; 9; 10; 11; 12]) = 21%nat.
Proof.
  split; [apply has_value_mach; reflexivity|]. split; [repeat constructor; cbn; lia|]. split; [|vmc]. intros v. cbn [In]. unfold compares. split.
  - intros H. split; [lia|]. do 4 right. left. split; [reflexivity|lia].
  - intros (H1 & H2). assert (v >= 7); [|lia]. decompose [or and] H2; try discriminate; lia.
Qed.
