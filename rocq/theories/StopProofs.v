(** When re-rolls and exploding dice come to an end. *)
From Verif Require Import ProofBase Dice SpecDice SpecSyntax SpecRoll SpecLists SpecChances ExplodeProofs RerollProofs Prop_lists.
Open Scope list_scope.
Open Scope Z_scope.

Lemma misses_app t a b : misses t (a ++ b) = (misses t a + misses t b)%nat.
Proof. unfold misses, values. rewrite map_app, filter_app, app_length. reflexivity. Qed.
Lemma misses_cons t d l : misses t (d :: l) = ((if (die_value d <? t)%Z then 1 else 0) + misses t l)%nat.
Proof. unfold misses, values. cbn [map filter]. destruct (die_value d <? t); reflexivity. Qed.
Lemma misses_le t l : (misses t l <= length l)%nat.
Proof. induction l as [|d l IH]; [constructor|]. rewrite misses_cons. cbn [length]. destruct (die_value d <? t); lia. Qed.
Lemma misses_hits t l : Z.of_nat (misses t l) + at_least t l = Z.of_nat (length l).
Proof.
  unfold at_least, values. induction l as [|d l IH]; [reflexivity|]. rewrite misses_cons. cbn [map filter length]. destruct (Z.ltb_spec (die_value d) t), (Z.leb_spec t (die_value d)); cbn [length]; lia.
Qed.
(** [until_miss], with the empty list for 0 *)
Definition stops (t : Z) (n : nat) (ds : list die) : Prop := misses t ds = n /\ (ds = [] \/ exists init last, ds = init ++ [last] /\ die_value last < t).
Lemma stops_until t n ds : (1 <= n)%nat -> (stops t n ds <-> until_miss t n ds).
Proof.
  intros Hn. split.
  - intros (H & [-> |(i & l & -> & Hl)]); [cbn in H; lia|]. exists i, l. split; [reflexivity|]. split; [exact Hl|]. rewrite misses_app, misses_cons in H. replace (die_value l <? t) with true in H by lia. cbn in H. lia.
  - intros (i & l & -> & Hl & H). split; [|right; exists i, l; auto]. rewrite misses_app, misses_cons. replace (die_value l <? t) with true by lia. cbn. lia.
Qed.
Lemma stops_tail t n a b : stops t n (a ++ b) -> stops t (n - misses t a) b.
Proof.
  intros (H & Hl). rewrite misses_app in H. split; [lia|]. destruct b as [|d b]; [auto|]. right. destruct Hl as [E|(i & l & E & Hl)]; [destruct a; discriminate|].
  destruct (exists_last (l := d :: b) ltac:(discriminate)) as (i' & l' & E'). rewrite E' in E |- *. rewrite app_assoc in E. apply app_inj_tail in E as (_ & <-). exists i', l'. auto.
Qed.
Definition total (q : list (Z * Z)) : Z := fold_right Z.add 0 (map fst q).
Definition fine_rolls (s : Z) (q : list (Z * Z)) : Prop := Forall (fun p => 1 <= fst p <= max_alloc_16 /\ snd p = s) q.
Lemma total_nonneg s q : fine_rolls s q -> 0 <= total q.
Proof. unfold total. induction 1 as [|p q H _ IH]; cbn; lia. Qed.
Lemma total_app a b : total (a ++ b) = total a + total b.
Proof. unfold total. induction a as [|p a IH]; cbn; lia. Qed.

Lemma rerolls_sides t k q groups s : rerolls t k q groups -> Forall (fun p => snd p = s) q -> Forall (fun d => die_sides d = s) (concat groups).
Proof.
  induction 1 as [q|k|k x y q g gs Hr Hz H IH|k x y q g gs Hr Hz H IH]; intros Hq; cbn [concat]; try constructor; inversion_clear Hq; apply Forall_app; destruct Hr as (_ & _ & _ & Hr); cbn [snd] in *; subst; (split; [exact Hr|]); apply IH; [assumption|].
  apply Forall_app. split; [assumption|]. constructor; [reflexivity|constructor].
Qed.
Lemma rerolls_last t k q groups : rerolls t k q groups -> (length groups < k)%nat -> concat groups = [] \/ exists init last, concat groups = init ++ [last] /\ die_value last < t.
Proof.
  induction 1 as [q|k|k x y q g gs Hr Hz H IH|k x y q g gs Hr Hz H IH]; intros Hl; cbn [concat length] in *; auto; right.
  - destruct (IH ltac:(lia)) as [E|(i & l & E & Hm)]; rewrite E; [|exists (g ++ i), l; rewrite app_assoc; auto]. rewrite app_nil_r.
    assert (g <> []) as Hg by (intros ->; destruct Hr as (? & _ & Hr & _); cbn in Hr; lia). destruct (exists_last Hg) as (i & l & ->). exists i, l. split; [reflexivity|].
    pose proof (misses_hits t (i ++ [l])) as M. rewrite Hz in M. pose proof (misses_le t i). rewrite misses_app, misses_cons, app_length in M. cbn [length misses values map filter] in M.
    change (misses t []) with 0%nat in M. destruct (Z.ltb_spec (die_value l) t); [assumption|lia].
  - destruct (IH ltac:(lia)) as [E|(i & l & E & Hm)]; rewrite E; [|exists (g ++ i), l; rewrite app_assoc; auto]. exfalso. inversion H; subst; cbn [length] in *; try lia.
    + destruct q; discriminate.
    + cbn [concat] in E. apply app_eq_nil in E as (-> & _). match goal with R : rolled _ _ [] |- _ => destruct R as (? & _ & R & _); cbn in R; lia end.
    + cbn [concat] in E. apply app_eq_nil in E as (-> & _). match goal with R : rolled _ _ [] |- _ => destruct R as (? & _ & R & _); cbn in R; lia end.
Qed.
Lemma rerolls_count t k q groups : rerolls t k q groups -> (length groups <= length q + Z.to_nat (at_least t (concat groups)))%nat /\ (length groups <= length (concat groups))%nat.
Proof.
  assert (forall a b, at_least t (a ++ b) = at_least t a + at_least t b) as Happ by (intros; unfold at_least; rewrite values_app, filter_app, app_length; lia).
  assert (forall a, 0 <= at_least t a) as Hp by (intros; unfold at_least; lia).
  induction 1 as [q|k|k x y q g gs Hr Hz H IH|k x y q g gs Hr Hz H IH]; cbn [concat length]; try lia; rewrite Happ, !app_length in *; destruct Hr as (? & _ & Hr & _); pose proof (Hp g); pose proof (Hp (concat gs)); cbn [length] in IH; lia.
Qed.
(** R: the dice taken end with the last miss. *)
Lemma rerolls_stops t s k : 1 <= s -> forall q ds, fine_rolls s q -> (length ds < k)%nat ->
  ((exists groups, rerolls t k q groups /\ concat groups = ds) <-> Forall (fun d => die_sides d = s) ds /\ stops t (Z.to_nat (total q)) ds).
Proof.
  intros Hs q ds Hq Hk. split.
  - intros (groups & H & <-). pose proof (rerolls_count _ _ _ _ H) as (_ & Hc). split; [apply (rerolls_sides _ _ _ _ _ H), (Forall_impl _ (fun p Hp => proj2 Hp) Hq)|].
    split; [|apply (rerolls_last _ _ _ _ H); lia]. pose proof (rerolls_conservation _ _ _ _ H ltac:(lia)) as E. fold (total q) in E. pose proof (misses_hits t (concat groups)). lia.
  - revert q ds Hq Hk. induction k as [|k IH]; intros q ds Hq Hk (Hd & Hst); [lia|]. destruct q as [|[x y] q].
    + exists []. split; [constructor|]. destruct Hst as (Hm & [-> |(i & l & -> & Hl)]); [reflexivity|]. rewrite misses_app, misses_cons in Hm. replace (die_value l <? t) with true in Hm by lia. cbn in Hm. lia.
    + inversion Hq as [|p q' (Hx & Hy) Hq']. subst p q'. cbn [fst snd] in Hx, Hy. subst y. pose proof (total_nonneg _ _ Hq') as Hn. change (total ((x, s) :: q)) with (x + total q) in Hst.
      pose proof (misses_le t ds) as Hle. pose proof (proj1 Hst) as Hm. set (g := firstn (Z.to_nat x) ds). set (ds' := skipn (Z.to_nat x) ds).
      assert (ds = g ++ ds') as E by (symmetry; apply firstn_skipn). assert (length g = Z.to_nat x) as Hlg by (unfold g; rewrite firstn_length; lia).
      rewrite E in Hst, Hk, Hd. rewrite app_length in Hk. apply Forall_app in Hd as (Hd1 & Hd2). pose proof (stops_tail _ _ _ _ Hst) as Hst'.
      assert (rolled x s g) as Hr by (repeat split; try lia; exact Hd1). pose proof (misses_hits t g) as Hg. assert (0 <= at_least t g) as Ha by (unfold at_least; lia).
      destruct (Z.eq_dec (at_least t g) 0) as [Hz|Hz].
      * destruct (IH q ds' Hq' ltac:(lia)) as (gs & Hgs & Eg); [split; [exact Hd2|]; replace (Z.to_nat (total q)) with (Z.to_nat (x + total q) - misses t g)%nat by lia; exact Hst'|].
        exists (g :: gs). split; [apply rerolls_none; assumption|]. cbn [concat]. rewrite Eg. symmetry. exact E.
      * destruct (IH (q ++ [(at_least t g, s)]) ds') as (gs & Hgs & Eg); [apply Forall_app; split; [exact Hq'|]; apply Forall_cons; [|apply Forall_nil]; cbn [fst snd]; pose proof (misses_le t g); split; [lia|reflexivity]|lia| |].
        { split; [exact Hd2|]. rewrite total_app. change (total [(at_least t g, s)]) with (at_least t g + 0). replace (Z.to_nat (total q + (at_least t g + 0))) with (Z.to_nat (x + total q) - misses t g)%nat by lia. exact Hst'. }
        exists (g :: gs). split; [apply rerolls_more; try assumption; lia|]. cbn [concat]. rewrite Eg. symmetry. exact E.
Qed.
(** U: the same *)
Lemma chain_misses t s k g : chain t s k g -> (length g < k)%nat -> stops t 1 g.
Proof.
  intros (_ & i & l & -> & Hi & _ & [Hl|E]) Hk; [|lia]. split; [|right; exists i, l; auto]. rewrite misses_app, misses_cons. replace (die_value l <? t) with true by lia.
  assert (misses t i = 0%nat) as ->; [|reflexivity]. clear - Hi. induction Hi as [|d i Hd _ IH]; [reflexivity|]. rewrite misses_cons, IH. replace (die_value d <? t) with false by lia. reflexivity.
Qed.
Lemma first_miss t ds : (1 <= misses t ds)%nat -> exists init last rest, ds = init ++ [last] ++ rest /\ Forall (fun d => die_value d >= t) init /\ die_value last < t.
Proof.
  induction ds as [|d ds IH]; intros H; [cbn in H; lia|]. rewrite misses_cons in H. destruct (Z.ltb_spec (die_value d) t) as [Hd|Hd].
  - exists [], d, ds. repeat split; [constructor|exact Hd].
  - destruct (IH H) as (i & l & r & -> & Hi & Hl). exists (d :: i), l, r. repeat split; [|exact Hl]. constructor; [lia|exact Hi].
Qed.
Lemma chains_stops t s k N : forall ds, (length ds < k)%nat ->
  ((exists gs, length gs = N /\ Forall (chain t s k) gs /\ concat gs = ds) <-> Forall (fun d => die_sides d = s) ds /\ stops t N ds).
Proof.
  induction N as [|N IH]; intros ds Hk; split.
  - intros (gs & Hl & _ & <-). destruct gs; [|discriminate]. split; [constructor|]. split; [reflexivity|auto].
  - intros (_ & Hm & [-> |(i & l & -> & Hl)]); [exists []; repeat split; constructor|]. rewrite misses_app, misses_cons in Hm. replace (die_value l <? t) with true in Hm by lia. cbn in Hm. lia.
  - intros (gs & Hl & Hc & <-). destruct gs as [|g gs]; [discriminate|]. injection Hl as Hl. inversion Hc as [|g' gs' Hg Hgs]. subst g' gs'. cbn [concat] in *. rewrite app_length in Hk.
    destruct (proj1 (IH (concat gs) ltac:(lia)) (ex_intro _ gs (conj Hl (conj Hgs eq_refl)))) as (Hs & Hst). split; [apply Forall_app; split; [apply Hg|exact Hs]|].
    destruct (chain_misses _ _ _ _ Hg ltac:(lia)) as (M1 & L1). destruct Hst as (M2 & L2). split; [rewrite misses_app; lia|]. right.
    destruct L2 as [->|(i & l & -> & L2)]; [rewrite app_nil_r; destruct L1 as [->|L1]; [discriminate M1|exact L1]|]. exists (g ++ i), l. rewrite app_assoc. auto.
  - intros (Hs & Hst). destruct (first_miss t ds) as (i & l & r & -> & Hi & Hl); [rewrite (proj1 Hst); lia|]. rewrite app_assoc in *. apply Forall_app in Hs as (Hs1 & Hs2). rewrite app_length in Hk.
    assert (stops t 1 (i ++ [l])) as H1. { apply (chain_misses t s k); [|lia]. split; [exact Hs1|]. exists i, l. repeat split; [exact Hi|lia|left; exact Hl]. }
    apply stops_tail in Hst. rewrite (proj1 H1) in Hst. replace (S N - 1)%nat with N in Hst by lia. destruct (proj2 (IH r ltac:(lia)) (conj Hs2 Hst)) as (gs & Hgl & Hgs & <-).
    exists ((i ++ [l]) :: gs). split; [cbn; lia|]. split; [|reflexivity]. constructor; [|exact Hgs]. split; [exact Hs1|]. exists i, l. repeat split; [exact Hi|lia|left; exact Hl].
Qed.
Lemma chains_each_stops t s k ps ds : 1 <= s -> fine_rolls s ps -> (length ds < k)%nat ->
  ((exists groups, chains_each t k ps groups /\ concat (concat groups) = ds) <-> Forall (fun d => die_sides d = s) ds /\ stops t (Z.to_nat (total ps)) ds).
Proof.
  intros Hs Hq Hk. rewrite <- (chains_stops t s k _ ds Hk). split.
  - intros (groups & H & <-). exists (concat groups). pose proof (chains_number _ _ _ _ H) as E. fold (total ps) in E. split; [lia|]. split; [|reflexivity]. clear Hk E.
    induction H as [|p g ps gs (_ & _ & _ & H4) _ IH]; cbn [concat]; [constructor|]. inversion Hq as [|p' ps' (_ & Hy) Hq']. subst. apply Forall_app. split; [exact H4|apply IH, Hq'].
  - intros (gs & Hl & Hc & <-). clear Hk. revert gs Hl Hc. induction Hq as [|[x y] ps (Hx & Hy) Hq IH]; intros gs Hl Hc.
    + destruct gs; [|discriminate]. exists []. split; [constructor|reflexivity].
    + cbn [fst snd] in Hx, Hy. subst y. pose proof (total_nonneg _ _ Hq). change (total ((x, s) :: ps)) with (x + total ps) in Hl.
      destruct (IH (skipn (Z.to_nat x) gs)) as (rest & Hr & Er); [rewrite skipn_length; lia|rewrite <- (firstn_skipn (Z.to_nat x) gs) in Hc; apply Forall_app in Hc; apply Hc|].
      exists (firstn (Z.to_nat x) gs :: rest). split.
      * constructor; [|exact Hr]. cbn [fst snd]. split; [lia|]. split; [lia|]. split; [rewrite firstn_length; lia|]. rewrite <- (firstn_skipn (Z.to_nat x) gs) in Hc. apply Forall_app in Hc. apply Hc.
      * cbn [concat]. rewrite concat_app, Er, <- concat_app, firstn_skipn. reflexivity.
Qed.
