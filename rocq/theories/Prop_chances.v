(** Property C82: when re-rolls and exploding dice come to an end, and how likely that is. *)
From Coq Require Import Reals.
From Verif Require Import Grammar ProofBase Dice SpecDice DiceProofs Comp CompProofs Ast Eval Notation Command
  SpecSyntax SpecArith ArithProofs SpecRoll SpecLists SpecFair SpecChances YieldsProofs DRollProofs NumberText BCDice CommandProofs
  Prop_droll Prop_lists Prop_fair StopProofs.
Open Scope list_scope.
Open Scope Z_scope.

Definition pairs (s : Z) (ns : list nat) : list (Z * Z) := map (fun n => (Z.of_nat n, s)) ns.
Lemma settle_plain s ns : settle_rolls (map (dice_of s) ns) [] (pairs s ns).
Proof. induction ns as [|n ns IH]; cbn [map pairs]; [constructor|]. change (@nil die) with (@nil die ++ [] ++ []) at 1. constructor; [apply operand_int|apply operand_int|exact IH]. Qed.
Lemma begins_ok s n r rs : 1 <= s <= max_int -> begins s n r rs -> Forall roll_ok (r :: rs).
Proof.
  intros Hs (n1 & ns & -> & -> & _ & H). change (Forall roll_ok (map (dice_of s) (n1 :: ns))). apply Forall_map. eapply Forall_impl; [|exact H]. intros a Ha.
  unfold roll_ok, dice_of, rok. cbn. unfold max_alloc_16, in_int64, max_int, min_int, two63 in *. lia.
Qed.
Lemma total_pairs s ns : Z.to_nat (total (pairs s ns)) = list_sum ns.
Proof. unfold total, pairs. assert (forall l, fold_right Z.add 0 (map fst (map (fun n => (Z.of_nat n, s)) l)) = Z.of_nat (list_sum l)) as ->; [|lia]. induction l as [|a l IH]; [reflexivity|]. cbn [map fold_right list_sum fst] in *. unfold list_sum in IH. lia. Qed.
(** the settled rolls of such a list *)
Lemma begins_settled s n r rs : 1 <= s <= max_int -> begins s n r rs -> exists ps, fine_rolls s ps /\ Z.to_nat (total ps) = n /\ (1 <= n)%nat /\ (length ps <= n)%nat /\
  settle_rolls (r :: rs) [] ps /\ forall ops ps', settle_rolls (r :: rs) ops ps' -> ops = [] /\ ps' = ps.
Proof.
  intros Hs Hb. pose proof (begins_ok _ _ _ _ Hs Hb) as Hok. destruct Hb as (n1 & ns & -> & -> & E & H). exists (pairs s (n1 :: ns)). split; [|split; [|split; [|split; [|split]]]].
  - unfold fine_rolls, pairs. apply Forall_map. eapply Forall_impl; [|exact H]. intros a Ha. cbn [fst snd]. split; [exact Ha|reflexivity].
  - rewrite total_pairs. exact E.
  - inversion_clear H. lia.
  - rewrite <- E. change (n1 + list_sum ns)%nat with (list_sum (n1 :: ns)). unfold pairs. rewrite map_length. clear E Hok. induction H as [|a l Ha _ IH]; [constructor|]. cbn [length list_sum fold_right] in *. unfold list_sum in IH. lia.
  - exact (settle_plain s (n1 :: ns)).
  - intros ops ps' Hs'. change (dice_of s n1 :: map (dice_of s) ns) with (map (dice_of s) (n1 :: ns)) in *.
    destruct (settle_rolls_fun _ _ _ _ _ [] ops Hok Hs' (settle_plain s (n1 :: ns)) (app_nil_r _)) as (-> & -> & _). auto.
Qed.
Lemma max_exists (groups : list (list die)) m : groups <> [] -> exists s3, max_and_total groups m s3.
Proof.
  intros H. assert (exists mx, is_max mx (map group_sum groups)) as (mx & Hm); [|eexists; exists mx; split; [exact Hm|reflexivity]].
  assert (map group_sum groups <> []) as Hn by (destruct groups; [contradiction|discriminate]). induction (map group_sum groups) as [|a l IH]; [contradiction|].
  destruct l as [|b l]; [exists a; split; [left; reflexivity|]; intros x [->|[]]; lia|]. destruct (IH ltac:(discriminate)) as (mx & Hi & Hx). destruct (Z.leb_spec a mx).
  - exists mx. split; [right; exact Hi|]. intros x [->|Hx']; [lia|apply Hx, Hx'].
  - exists a. split; [left; reflexivity|]. intros x [->|Hx']; [lia|]. specialize (Hx x Hx'). lia.
Qed.
(** What the dice of such a command are *)
Lemma repeating_dice s t n c gid ds res : 1 <= s <= max_int -> t >= 2 -> repeating s t n c -> gives gid (command_tree c) ds res -> r_dice res = ds.
Proof.
  intros Hs Ht Hr H. destruct Hr as [r rs th Hb Hv|r rs th op e w Hb Hv Hop Hw|r rs op e Hb Hop Hw|r rs th b m Hb Hv Hbo Hm|r rs th b m op e w Hb Hv Hbo Hm Hop Hw];
    pose proof (begins_ok _ _ _ _ Hs Hb) as Hok.
  - apply (C23_reroll_exact gid r rs th t ds res Hok Hv Ht) in H as (ops & ps & groups & _ & _ & _ & ->). reflexivity.
  - apply (C26_r_comparison gid r rs (Some th) op e t w ds res Hok Hop Hw Hv Ht) in H as (ops & ps & groups & _ & _ & _ & ->). reflexivity.
  - apply (C26_r_comparison gid r rs None op e t t ds res Hok Hop Hw eq_refl Ht) in H as (ops & ps & groups & _ & _ & _ & ->). reflexivity.
  - apply (C27_u_expr_exact gid r rs th b t ds res Hok Hbo Hv Ht) in H as (ops & ps & m' & groups & s3 & _ & _ & _ & _ & _ & ->). reflexivity.
  - apply (C29_u_comparison gid r rs th b op e t w ds res Hok Hbo Hop Hv Ht Hw) in H as (ops & ps & m' & groups & _ & _ & _ & _ & ->). reflexivity.
Qed.
Lemma cap_lt (ds : list die) : Z.of_nat (length ds) < 10000 -> (length ds < cap)%nat.
Proof. unfold cap. lia. Qed.
(** C82: R and U rolls with written numbers and a threshold t of at least 2, which begin with n dice of s sides.  As long as fewer than 10000 dice are
    taken, they take exactly the dice up to the n-th one below t: they succeed with the dice ds and use them all up if and only if
    these are s-sided dice of which exactly n are below t, the last one among them. *)
Theorem C82_until_miss gid s t n c ds : 1 <= s <= max_int -> t >= 2 -> repeating s t n c -> Z.of_nat (length ds) < 10000 ->
  ((exists res, gives gid (command_tree c) ds res) <-> Forall (fun d => die_sides d = s) ds /\ until_miss t n ds).
Proof.
  intros Hs Ht Hr Hk. apply cap_lt in Hk.
  destruct Hr as [r rs th Hb Hv|r rs th op e w Hb Hv Hop Hw|r rs op e Hb Hop Hw|r rs th b m Hb Hv Hbo Hm|r rs th b m op e w Hb Hv Hbo Hm Hop Hw];
    pose proof (begins_ok _ _ _ _ Hs Hb) as Hok; destruct (begins_settled _ _ _ _ Hs Hb) as (ps & Hf & Htot & Hn & _ & Hset & Hfun); rewrite <- (stops_until t n ds Hn), <- Htot.
  1-3: rewrite <- (rerolls_stops t s cap ltac:(lia) ps ds Hf Hk).
  4-5: rewrite <- (chains_each_stops t s cap ps ds ltac:(lia) Hf Hk).
  - split.
    + intros (res & H). apply (C23_reroll_exact gid r rs th t ds res Hok Hv Ht) in H as (ops & ps' & groups & H1 & H2 & H3 & _). destruct (Hfun _ _ H1) as (-> & ->). exists groups. auto.
    + intros (groups & H1 & H2). eexists. apply (C23_reroll_exact gid r rs th t ds _ Hok Hv Ht). exists [], ps, groups. repeat (split; [eauto|]). reflexivity.
  - split.
    + intros (res & H). apply (C26_r_comparison gid r rs (Some th) op e t w ds res Hok Hop Hw Hv Ht) in H as (ops & ps' & groups & H1 & H2 & H3 & _). destruct (Hfun _ _ H1) as (-> & ->). exists groups. auto.
    + intros (groups & H1 & H2). eexists. apply (C26_r_comparison gid r rs (Some th) op e t w ds _ Hok Hop Hw Hv Ht). exists [], ps, groups. repeat (split; [eauto|]). reflexivity.
  - split.
    + intros (res & H). apply (C26_r_comparison gid r rs None op e t t ds res Hok Hop Hw eq_refl Ht) in H as (ops & ps' & groups & H1 & H2 & H3 & _). destruct (Hfun _ _ H1) as (-> & ->). exists groups. auto.
    + intros (groups & H1 & H2). eexists. apply (C26_r_comparison gid r rs None op e t t ds _ Hok Hop Hw eq_refl Ht). exists [], ps, groups. repeat (split; [eauto|]). reflexivity.
  - split.
    + intros (res & H). apply (C27_u_expr_exact gid r rs th b t ds res Hok Hbo Hv Ht) in H as (ops & ps' & m' & groups & s3 & H1 & _ & H2 & H3 & _ & _). destruct (Hfun _ _ H1) as (-> & ->). exists groups. auto.
    + intros (groups & H1 & H2). assert (concat groups <> []) as Hne. { pose proof (chains_number _ _ _ _ H1) as E. fold (total ps) in E. intros E0. rewrite E0 in E. cbn in E. lia. }
      destruct (max_exists (concat groups) m Hne) as (s3 & H3). eexists. apply (C27_u_expr_exact gid r rs th b t ds _ Hok Hbo Hv Ht). exists [], ps, m, groups, s3. repeat (split; [eauto|]). reflexivity.
  - split.
    + intros (res & H). apply (C29_u_comparison gid r rs th b op e t w ds res Hok Hbo Hop Hv Ht Hw) in H as (ops & ps' & m' & groups & H1 & _ & H2 & H3 & _). destruct (Hfun _ _ H1) as (-> & ->). exists groups. auto.
    + intros (groups & H1 & H2). eexists. apply (C29_u_comparison gid r rs th b op e t w ds _ Hok Hbo Hop Hv Ht Hw). exists [], ps, m, groups. repeat (split; [eauto|]). reflexivity.
Qed.
Print Assumptions C82_until_miss.

(** ** Counting *)
Definition stopb (h : Z -> bool) (n : nat) (rs : list Z) : bool := Nat.eqb (count h rs) n && match rs with [] => true | _ => h (last rs 0) end.
Lemma count_cons (h : Z -> bool) a l : count h (a :: l) = ((if h a then 1 else 0) + count h l)%nat.
Proof. unfold count. cbn [filter]. destruct (h a); reflexivity. Qed.
Lemma stopb_cons h n a b rs : stopb h n (a :: b :: rs) = (if h a then match n with O => false | S n' => stopb h n' (b :: rs) end else stopb h n (b :: rs)).
Proof. unfold stopb. rewrite count_cons. change (last (a :: b :: rs) 0) with (last (b :: rs) 0). destruct (h a); [destruct n|]; reflexivity. Qed.
Lemma last_count h rs a : h (last (a :: rs) 0) = true -> (1 <= count h (a :: rs))%nat.
Proof.
  revert a. induction rs as [|b rs IH]; intros a H; rewrite count_cons; [cbn [last] in H; rewrite H; lia|].
  change (last (a :: b :: rs) 0) with (last (b :: rs) 0) in H. specialize (IH b H). lia.
Qed.
Lemma stopb_zero h a rs : stopb h 0 (a :: rs) = false.
Proof. unfold stopb. destruct (h (last (a :: rs) 0)) eqn:E; [|apply Bool.andb_false_r]. pose proof (last_count h rs a E). destruct (count h (a :: rs)); [lia|reflexivity]. Qed.
Lemma count_stops (h : Z -> bool) s k : forall j,
  count (stopb h (S j)) (all_answers (S k) s) = (binomial k j * count h (below s) ^ S j * (length (below s) - count h (below s)) ^ (k - j))%nat.
Proof.
  induction k as [|k IH]; intros j.
  - cbn [all_answers]. rewrite count_flat_map. cbn [map].
    rewrite (list_sum_ext _ (fun a => if h a then (match j with O => 1 | _ => 0 end)%nat else 0%nat)).
    + rewrite sum_cases. destruct j as [|j]; cbn; lia.
    + intros a _. unfold count at 1, stopb. cbn [filter last]. rewrite count_cons. change (count h []) with 0%nat. destruct (h a); destruct j; reflexivity.
  - set (m := count h (below s)) in *. set (q := (length (below s) - m)%nat) in *.
    change (all_answers (S (S k)) s) with (flat_map (fun a => map (cons a) (all_answers (S k) s)) (below s)). rewrite count_flat_map.
    assert (forall rs, In rs (all_answers (S k) s) -> exists b l, rs = b :: l) as Hne.
    { intros rs Hr. apply in_all in Hr as (Hl & _). destruct rs as [|b l]; [discriminate|eauto]. }
    rewrite (list_sum_ext _ (fun a => if h a then match j with O => 0%nat | S j' => count (stopb h (S j')) (all_answers (S k) s) end else count (stopb h (S j)) (all_answers (S k) s))).
    + rewrite sum_cases. fold m. fold q. destruct j as [|j].
      * rewrite IH. replace (binomial (S k) 0) with 1%nat by reflexivity. replace (binomial k 0) with 1%nat by (destruct k; reflexivity). replace (k - 0)%nat with k by lia. replace (S k - 0)%nat with (S k) by lia.
        rewrite (Nat.pow_succ_r' q k). nia.
      * rewrite !IH. change (binomial (S k) (S j)) with (binomial k j + binomial k (S j))%nat. replace (S k - S j)%nat with (k - j)%nat by lia.
        destruct (Nat.ltb_spec k (S j)) as [Hj|Hj].
        -- rewrite (binomial_over k (S j)) by lia. rewrite (Nat.pow_succ_r' m (S j)). nia.
        -- replace (k - j)%nat with (S (k - S j)) by lia. rewrite (Nat.pow_succ_r' m (S j)), (Nat.pow_succ_r' q (k - S j)). set (M := (m ^ S j)%nat). set (Q := (q ^ (k - S j))%nat). nia.
    + intros a _. rewrite count_map. destruct (h a) eqn:Ea; [destruct j as [|j]; [apply count_none|apply count_ext]|apply count_ext]; intros rs Hr; destruct (Hne rs Hr) as (b & l & ->); rewrite stopb_cons, Ea; [apply stopb_zero|reflexivity|reflexivity].
Qed.
Lemma misses_faces t s rs : misses t (faces s rs) = count (fun a => a + 1 <? t) rs.
Proof. unfold misses, values, faces. rewrite map_map. cbn [die_value]. change (length (filter ?p ?l)) with (count p l). rewrite count_map. reflexivity. Qed.
Lemma stopb_until t s n rs : (1 <= n)%nat -> stopb (fun a => a + 1 <? t) n rs = true <-> until_miss t n (faces s rs).
Proof.
  intros Hn. unfold stopb. rewrite Bool.andb_true_iff, Nat.eqb_eq, <- (misses_faces t s), <- (stops_until t n _ Hn). unfold stops. apply and_iff_compat_l. destruct rs as [|a rs].
  - split; [auto|reflexivity].
  - destruct (exists_last (l := a :: rs) ltac:(discriminate)) as (i & l & E). rewrite E, last_last. unfold faces. rewrite map_app. cbn [map].
    split.
    + intros H. right. eexists. eexists. split; [reflexivity|]. cbn [die_value]. lia.
    + intros [H|(i' & l' & H & Hl)]; [destruct (map (fun a0 : Z => Die (a0 + 1) s) i); discriminate|]. apply app_inj_tail in H as (_ & <-). cbn [die_value] in Hl. lia.
Qed.
Lemma count_below t s : 1 <= t <= s + 1 -> count (fun a => a + 1 <? t) (below s) = Z.to_nat (t - 1).
Proof.
  intros H. unfold below. rewrite count_map. replace (Z.to_nat s) with (Z.to_nat (t - 1) + (Z.to_nat s - Z.to_nat (t - 1)))%nat by lia. rewrite seq_app. unfold count. rewrite filter_app, app_length.
  assert (forall (p : nat -> bool) l, (forall x, In x l -> p x = true) -> filter p l = l) as Hall by (intros p l; induction l as [|x l IH]; intros Hp; [reflexivity|]; cbn; rewrite (Hp x (or_introl eq_refl)), IH; [reflexivity|]; intros; apply Hp; right; assumption).
  rewrite Hall; [rewrite seq_length|intros x Hx; apply in_seq in Hx; lia].
  assert (forall (p : nat -> bool) l, (forall x, In x l -> p x = false) -> filter p l = []) as Hno by (intros p l; induction l as [|x l IH]; intros Hp; [reflexivity|]; cbn; rewrite (Hp x (or_introl eq_refl)), IH; [reflexivity|]; intros; apply Hp; right; assumption).
  rewrite Hno; [cbn; lia|intros x Hx; apply in_seq in Hx; lia].
Qed.
(** ** Replies *)
Lemma draws_source f ds f' : draws f ds f' -> forall intn k, f = FRandom intn k -> forall i d, nth_error ds i = Some d -> die_value d = wrap64 (1 + intn (k + i)%nat (die_sides d)).
Proof.
  induction 1 as [f|f sides d f1 ds f2 H1 H2 IH]; intros intn k ->; [intros [|i] d; discriminate|].
  cbn [feeder_next] in H1. destruct (sides <=? 0); [discriminate|]. injection H1 as <- <-.
  intros [|i] x; cbn [nth_error]; [intros [= <-]; cbn [die_value die_sides]; rewrite Nat.add_0_r; reflexivity|]. intros Hx. rewrite (IH intn (S k) eq_refl i x Hx). f_equal. f_equal. f_equal. lia.
Qed.
Lemma source_faces s rs n ds f' : s <= max_int -> answered n s rs -> draws (FRandom (source rs) 0) ds f' -> Forall (fun d => die_sides d = s) ds -> length ds = n -> ds = faces s rs.
Proof.
  intros Hs (Hl & Hr) Hd Hy He. pose proof (draws_source _ _ _ Hd (source rs) 0%nat eq_refl) as H. clear Hd. unfold source in H. cbn [Nat.add] in H. rewrite <- He in Hl. clear He n.
  revert ds Hy Hl H. induction Hr as [|a rs Ha _ IH]; intros ds Hy Hl H; destruct ds as [|d ds]; try discriminate Hl; [reflexivity|]. inversion Hy as [|d' ds' Hd Hds]. subst. injection Hl as Hl. cbn [faces map]. f_equal.
  - pose proof (H 0%nat d eq_refl) as E. cbn [nth] in E. rewrite wrap64_id in E by (unfold in_int64, min_int, max_int, two63 in *; lia). destruct d. cbn in *. f_equal. lia.
  - apply IH; try assumption. intros i x Hx. exact (H (S i) x Hx).
Qed.
Lemma until_length t n ds : until_miss t n ds -> (n <= length ds)%nat.
Proof. intros (i & l & -> & _ & H). pose proof (misses_le t i). rewrite app_length. cbn. lia. Qed.
Lemma stops_reply gid s t n c rs : 1 <= s <= max_int -> t >= 2 -> repeating s t n c -> answered (length rs) s rs -> Z.of_nat (length rs) < 10000 -> until_miss t n (faces s rs) ->
  exists res, reply gid c rs = Some res /\ gives gid (command_tree c) (faces s rs) res /\ r_dice res = faces s rs.
Proof.
  intros Hs Ht Hr Ha Hk Hu. assert (Forall (fun d => die_sides d = s) (faces s rs)) as Hf by (unfold faces; apply Forall_map, Forall_forall; reflexivity).
  assert (length (faces s rs) = length rs) as El by (unfold faces; apply map_length).
  destruct (proj2 (C82_until_miss gid s t n c (faces s rs) Hs Ht Hr ltac:(lia)) (conj Hf Hu)) as (res & Hg). exists res.
  split; [|split; [exact Hg|apply (repeating_dice s t n c gid _ _ Hs Ht Hr Hg)]]. unfold reply. rewrite (gives_source _ _ _ _ _ _ Hg (answers_faces _ s rs (proj2 Hs) Ha)). reflexivity.
Qed.
Lemma reply_stops gid s t n c rs res : 1 <= s <= max_int -> t >= 2 -> repeating s t n c -> answered (length rs) s rs -> Z.of_nat (length rs) < 10000 ->
  reply gid c rs = Some res -> length (r_dice res) = length rs -> until_miss t n (faces s rs) /\ gives gid (command_tree c) (faces s rs) res.
Proof.
  intros Hs Ht Hr Ha Hk H Hl. unfold reply in H. destruct (run_command gid (command_tree c) (FRandom (source rs) 0)) as [[r|e|p] f'] eqn:E; try discriminate. injection H as ->.
  destruct (run_command_gives _ _ _ _ _ E) as (ds & Hd & Hg). rewrite (repeating_dice s t n c gid _ _ Hs Ht Hr Hg) in Hl.
  destruct (proj1 (C82_until_miss gid s t n c ds Hs Ht Hr ltac:(lia)) (ex_intro _ res Hg)) as (Hy & Hu).
  rewrite (source_faces s rs (length rs) ds f' (proj2 Hs) Ha Hd Hy Hl) in Hu, Hg. auto.
Qed.
Definition dice_taken (k : nat) (r : option result) : bool := match r with Some r => Nat.eqb (length (r_dice r)) k | None => false end.
(** C82: how many dice such a command takes.  Of the s^k equally likely lists of k answers of the source, k below 10000, it takes exactly k dice in
    binomial(k-1, n-1) * (t-1)^n * (s-t+1)^(k-n) cases. *)
Theorem C82_dice_taken gid s t n c k : 1 <= s <= max_int -> 2 <= t <= s + 1 -> repeating s t n c -> (1 <= k)%nat -> Z.of_nat k < 10000 ->
  count (fun rs => dice_taken k (reply gid c rs)) (all_answers k s) =
    (binomial (k - 1) (n - 1) * Z.to_nat (t - 1) ^ n * Z.to_nat (s - t + 1) ^ (k - n))%nat.
Proof.
  intros Hs Ht Hr Hk1 Hk.
  assert (1 <= n)%nat as Hn. { destruct Hr; match goal with H : begins _ _ _ _ |- _ => destruct (begins_settled _ _ _ _ Hs H) as (_ & _ & _ & H' & _); exact H' end. }
  destruct k as [|k]; [lia|]. destruct n as [|n]; [lia|]. replace (S k - 1)%nat with k by lia. replace (S n - 1)%nat with n by lia. replace (S k - S n)%nat with (k - n)%nat by lia.
  rewrite <- (count_below t s) by lia. replace (Z.to_nat (s - t + 1)) with (length (below s) - count (fun a => a + 1 <? t)%Z (below s))%nat by (rewrite (count_below t s), length_below by lia; lia).
  rewrite <- count_stops. apply count_ext. intros rs Hrs. apply in_all in Hrs. pose proof (proj1 Hrs) as Hl. rewrite <- Hl in Hrs, Hk.
  apply Bool.eq_iff_eq_true. rewrite (stopb_until t s (S n) rs) by lia. split.
  - unfold dice_taken. destruct (reply gid c rs) as [res|] eqn:E; [|discriminate]. rewrite Nat.eqb_eq. intros H. apply (reply_stops gid s t (S n) c rs res); try assumption; lia.
  - intros H. destruct (stops_reply gid s t (S n) c rs) as (res & -> & _ & Hd); try assumption; [lia|]. cbn [dice_taken]. rewrite Hd. unfold faces. rewrite map_length. apply Nat.eqb_eq. exact Hl.
Qed.
Print Assumptions C82_dice_taken.

(** ** The number of successes of nRs>=t *)
Definition given_or_target (th : option iexpr) (t : Z) : Prop := match th with Some e => has_value e t | None => True end.
Lemma r_successes gid s t n r rs th e ds res : 1 <= s <= max_int -> t >= 2 -> begins s n r rs -> given_or_target th t -> has_value e t ->
  gives gid (command_tree (RComp r rs th ">=" e)) ds res ->
  exists s1 s2 j, r_parts res = [s1; s2; ("成功数" ++ itoa (Z.of_nat j))%string] /\
    (Z.of_nat n + Z.of_nat j < 10000 -> length ds = (n + j)%nat) /\ (Z.of_nat (length ds) < 10000 -> length ds = (n + j)%nat).
Proof.
  intros Hs Ht Hb Hth He H. pose proof (begins_ok _ _ _ _ Hs Hb) as Hok. destruct (begins_settled _ _ _ _ Hs Hb) as (ps & Hf & Htot & Hn & Hlen & Hset & Hfun).
  assert (match th with Some e => has_value e t | None => t = t end) as Hth' by (destruct th; [exact Hth|reflexivity]).
  assert (is_compare_op ">=") as Hop by (unfold is_compare_op; cbn; tauto).
  apply (C26_r_comparison gid r rs th ">=" e t t ds res Hok Hop He Hth' Ht) in H as (ops & ps' & groups & H1 & H2 & -> & ->). destruct (Hfun _ _ H1) as (-> & ->). cbn [app r_parts].
  assert (matching ">=" t (values (concat groups)) = at_least t (concat groups)) as -> by reflexivity.
  assert (0 <= at_least t (concat groups)) as Hp by (unfold at_least; lia). eexists _, _, (Z.to_nat (at_least t (concat groups))). split; [rewrite Z2Nat.id by exact Hp; reflexivity|].
  destruct (rerolls_count _ _ _ _ H2) as (C1 & C2). pose proof (total_nonneg _ _ Hf) as Hnn.
  assert ((length groups < cap)%nat -> length (concat groups) = (n + Z.to_nat (at_least t (concat groups)))%nat) as Hc.
  { intros Hl. pose proof (rerolls_conservation _ _ _ _ H2 Hl) as E. fold (total ps) in E. lia. }
  split; intros Hx; apply Hc; unfold cap; lia.
Qed.
(** C82: the chance of j successes of nRs>=t (re-rolls at the target, or at the same threshold given explicitly; n + j below 10000): of the s^(n+j) equally likely lists of
    answers, binomial(n+j-1, n-1) * (t-1)^n * (s-t+1)^j lead to it. *)
Theorem C82_reroll_successes gid s t n r rs th e j : 1 <= s <= max_int -> 2 <= t <= s + 1 -> begins s n r rs -> given_or_target th t -> has_value e t -> Z.of_nat (n + j) < 10000 ->
  count (fun rs' => part_is 2 ("成功数" ++ itoa (Z.of_nat j)) (reply gid (RComp r rs th ">=" e) rs')) (all_answers (n + j) s) =
    (binomial (n + j - 1) (n - 1) * Z.to_nat (t - 1) ^ n * Z.to_nat (s - t + 1) ^ j)%nat.
Proof.
  intros Hs Ht Hb Hth He Hk. assert (is_compare_op ">=") as Hop by (unfold is_compare_op; cbn; tauto).
  assert (repeating s t n (RComp r rs th ">=" e)) as Hr by (destruct th; [eapply rep_r_given; eassumption|apply rep_r_target; assumption]).
  destruct (begins_settled _ _ _ _ Hs Hb) as (_ & _ & _ & Hn & _).
  replace (Z.to_nat (s - t + 1) ^ j)%nat with (Z.to_nat (s - t + 1) ^ (n + j - n))%nat by (f_equal; lia). rewrite <- (C82_dice_taken gid s t n _ (n + j) Hs Ht Hr ltac:(lia) Hk). apply count_ext. intros rs' Hrs. apply in_all in Hrs as (Hl & _).
  unfold reply. destruct (run_command gid (command_tree (RComp r rs th ">=" e)) (FRandom (source rs') 0)) as [[res|er|p] f'] eqn:E; try reflexivity.
  destruct (run_command_gives _ _ _ _ _ E) as (ds & _ & Hg). cbn [dice_taken]. rewrite (repeating_dice s t n _ gid ds res Hs ltac:(lia) Hr Hg).
  destruct (r_successes gid s t n r rs th e ds res Hs ltac:(lia) Hb Hth He Hg) as (s1 & s2 & i & Hp & E1 & E2). unfold part_is. rewrite Hp. cbn [nth_error].
  apply Bool.eq_iff_eq_true. rewrite Nat.eqb_eq, String.eqb_eq. split.
  - intros H. apply prefix_inj, itoa_inj in H. assert (i = j) as -> by lia. apply E1. lia.
  - intros H. f_equal. f_equal. rewrite H in E2. specialize (E2 ltac:(lia)). lia.
Qed.
Print Assumptions C82_reroll_successes.

(** 2R6>=5: no success in 16 of 36 cases, one success in 64 of 216; 2U6[5] takes three dice in 64 of 216 cases. *)
Example C82_example :
  let r := RComp (dice_of 6 2) [] None ">=" (Leaf 5) in let u := UExpr (dice_of 6 2) [] (Some (Leaf 5)) None in
  parse_command "2R6>=5" = Ok (command_tree r) /\ parse_command "2U6[5]" = Ok (command_tree u) /\
  count (fun rs => part_is 2 "成功数0" (reply "DiceBot" r rs)) (all_answers 2 6) = 16%nat /\ (binomial 1 1 * 4 ^ 2 * 2 ^ 0 = 16)%nat /\
  count (fun rs => part_is 2 "成功数1" (reply "DiceBot" r rs)) (all_answers 3 6) = 64%nat /\ (binomial 2 1 * 4 ^ 2 * 2 ^ 1 = 64)%nat /\
  count (fun rs => dice_taken 3 (reply "DiceBot" u rs)) (all_answers 3 6) = 64%nat.
Proof. vconj. Qed.
Example C82_hypotheses : repeating 6 5 2 (RComp (dice_of 6 2) [] None ">=" (Leaf 5)) /\ repeating 6 5 3 (UExpr (dice_of 6 2) [dice_of 6 1] (Some (Leaf 5)) (Some (false, Leaf 1))) /\
  until_miss 5 2 [Die 5 6; Die 3 6; Die 6 6; Die 2 6].
Proof.
  split; [|split].
  - apply rep_r_target; [|unfold is_compare_op; cbn; tauto|apply has_value_mach; reflexivity]. exists 2%nat, []. repeat split. repeat constructor; vm_compute; discriminate.
  - eapply rep_u with (m := -1); [|apply has_value_mach; reflexivity|cbn; unfold in_int64, min_int, max_int, two63; lia|exists 1; split; [apply has_value_mach; reflexivity|reflexivity]].
    exists 2%nat, [1%nat]. repeat split. repeat constructor; vm_compute; discriminate.
  - exists [Die 5 6; Die 3 6; Die 6 6], (Die 2 6). repeat split.
Qed.
