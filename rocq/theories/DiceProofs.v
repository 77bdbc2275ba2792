From Verif Require Import ProofBase Dice SpecDice.
Open Scope list_scope.
Open Scope Z_scope.

Lemma feeder_next_queue q sides :
  feeder_next (FQueue q) sides =
  match q with [] => (Err "取り出せるダイスがありません"%string, FQueue []) | d :: q' => (Ok d, FQueue q') end.
Proof. destruct q; reflexivity. Qed.

(** ** The loop of the roller *)
Lemma roll_loop_acc n : forall num sides acc f,
  roll_loop n num sides acc f =
  match roll_loop n num sides [] f with
  | (Ok ds, f') => (Ok (acc ++ ds), f')
  | r => r
  end.
Proof.
  induction n as [|n IH]; intros num sides acc f; cbn [roll_loop].
  - rewrite app_nil_r. reflexivity.
  - destruct (feeder_next f sides) as [[d|e|p] f1]; try reflexivity.
    destruct (die_sides d =? sides) eqn:Hd; [|reflexivity].
    rewrite IH, (IH _ _ ([] ++ [d])). cbn [app].
    destruct (roll_loop n num sides [] f1) as [[ds|e|p] f2]; try reflexivity.
    rewrite <- app_assoc. reflexivity.
Qed.

Lemma roll_loop_S n num sides f :
  roll_loop (S n) num sides [] f =
  match feeder_next f sides with
  | (Ok d, f1) =>
      if die_sides d =? sides then
        match roll_loop n num sides [] f1 with
        | (Ok ds, f') => (Ok (d :: ds), f')
        | r => r
        end
      else (Err ("RollDice(num: " ++ itoa num ++ ", sides: " ++ itoa sides ++ ") -> "
                     ++ itoa (die_value d) ++ "/" ++ itoa (die_sides d)
                     ++ ": ダイスの面数が指定と一致しません")%string, f1)
  | (Err e, f1) => (Err e, f1)
  | (Panic p, f1) => (Panic p, f1)
  end.
Proof.
  cbn [roll_loop]. destruct (feeder_next f sides) as [[d|e|p] f1]; try reflexivity.
  destruct (die_sides d =? sides); [|reflexivity].
  rewrite roll_loop_acc. cbn [app]. destruct (roll_loop n num sides [] f1) as [[ds|e|p] f2]; reflexivity.
Qed.

Lemma roll_loop_ok n : forall num sides f ds f',
  roll_loop n num sides [] f = (Ok ds, f') ->
  length ds = n /\ Forall (fun d => die_sides d = sides) ds /\ supplies sides f ds f'.
Proof.
  induction n as [|n IH]; intros num sides f ds f' H.
  - cbn in H. injection H as <- <-. repeat split; constructor.
  - rewrite roll_loop_S in H.
    destruct (feeder_next f sides) as [[d|e|p] f1] eqn:Hn; try discriminate.
    destruct (die_sides d =? sides) eqn:Hd; [|discriminate].
    destruct (roll_loop n num sides [] f1) as [[ds1|e|p] f2] eqn:Hl; try discriminate.
    injection H as <- <-. destruct (IH _ _ _ _ _ Hl) as (H1 & H2 & H3).
    repeat split.
    + cbn [length]. lia.
    + constructor; [lia|assumption].
    + econstructor; eassumption.
Qed.

(** Success on a queue depends on the first [n] dice only. *)
Lemma roll_loop_queue n : forall num sides q,
  (n <= length q)%nat -> Forall (fun d => die_sides d = sides) (firstn n q) ->
  roll_loop n num sides [] (FQueue q) = (Ok (firstn n q), FQueue (skipn n q)).
Proof.
  induction n as [|n IH]; intros num sides q Hl Hf; [reflexivity|].
  destruct q as [|d q]; [cbn in Hl; lia|].
  rewrite roll_loop_S, feeder_next_queue. cbn [firstn skipn] in *.
  inversion Hf as [|? ? H1 H2]; subst. rewrite Z.eqb_refl.
  rewrite IH; [reflexivity| cbn in Hl; lia | assumption].
Qed.

Lemma supplies_draws sides f ds f' : supplies sides f ds f' -> draws f ds f'.
Proof. induction 1; econstructor; eauto. Qed.

Lemma draws_queue q ds f' : draws (FQueue q) ds f' <-> exists q', f' = FQueue q' /\ q = ds ++ q'.
Proof.
  split.
  - remember (FQueue q) as f eqn:Hf. intros H; revert q Hf.
    induction H as [f|f sides d f1 ds f2 Hn H IH]; intros q Hf; subst.
    + exists q. split; reflexivity.
    + rewrite feeder_next_queue in Hn. destruct q as [|d0 q]; [discriminate|].
      injection Hn as <- <-. destruct (IH q eq_refl) as (q' & H1 & H2).
      exists q'. split; [assumption|]. rewrite H2. reflexivity.
  - intros (q' & -> & ->). induction ds as [|d ds IH]; [constructor|].
    apply draws_cons with (sides := 0) (f1 := FQueue (ds ++ q')); [reflexivity|assumption].
Qed.

Lemma draws_app f ds1 f1 ds2 f2 : draws f ds1 f1 -> draws f1 ds2 f2 -> draws f (ds1 ++ ds2) f2.
Proof. induction 1; cbn [app]; intros; [assumption|]. econstructor; eauto. Qed.

Lemma roll_dice_ok num sides f ds f' :
  roll_dice num sides f = (Ok ds, f') ->
  Z.of_nat (length ds) = num /\ 1 <= num <= max_alloc_16 /\ 1 <= sides /\
  Forall (fun d => die_sides d = sides) ds /\ supplies sides f ds f'.
Proof.
  unfold roll_dice. intros H.
  destruct (sides <? 1) eqn:H1; [discriminate|].
  destruct (num <? 1) eqn:H2; [discriminate|].
  destruct (max_alloc_16 <? num) eqn:H3; [discriminate|].
  apply roll_loop_ok in H as (Ha & Hb & Hc).
  repeat split; try assumption; lia.
Qed.

Lemma roll_dice_queue num sides q :
  1 <= num <= max_alloc_16 -> 1 <= sides -> num <= Z.of_nat (length q) ->
  Forall (fun d => die_sides d = sides) (firstn (Z.to_nat num) q) ->
  roll_dice num sides (FQueue q) = (Ok (firstn (Z.to_nat num) q), FQueue (skipn (Z.to_nat num) q)).
Proof.
  intros Hn Hs Hl Hf. unfold roll_dice.
  destruct (sides <? 1) eqn:H1; [lia|].
  destruct (num <? 1) eqn:H2; [lia|].
  destruct (max_alloc_16 <? num) eqn:H3; [lia|].
  apply roll_loop_queue; [lia|assumption].
Qed.

Lemma roll_dice_queue_iff num sides q ds f' :
  roll_dice num sides (FQueue q) = (Ok ds, f') <->
  1 <= num <= max_alloc_16 /\ 1 <= sides /\ Z.of_nat (length ds) = num /\
  Forall (fun d => die_sides d = sides) ds /\
  exists q', f' = FQueue q' /\ q = ds ++ q'.
Proof.
  split.
  - intros H. apply roll_dice_ok in H as (H1 & H2 & H3 & H4 & H5).
    repeat split; try assumption; try lia.
    apply draws_queue. eapply supplies_draws; eassumption.
  - intros (H1 & H2 & H3 & H4 & q' & -> & ->).
    assert (Hnat : Z.to_nat num = length ds) by lia.
    rewrite roll_dice_queue; rewrite ?Hnat, ?firstn_app, ?skipn_app, ?Nat.sub_diag, ?firstn_all, ?skipn_all; cbn;
      rewrite ?app_nil_r; auto.
    rewrite app_length. lia.
Qed.

(** On a queue a call never panics except for an absurd count *)
Lemma roll_loop_queue_no_panic n : forall num sides q p f',
  roll_loop n num sides [] (FQueue q) <> (Panic p, f').
Proof.
  induction n as [|n IH]; intros num sides q p f' H; [discriminate|].
  rewrite roll_loop_S, feeder_next_queue in H. destruct q as [|d q]; [discriminate|].
  destruct (die_sides d =? sides); [|discriminate].
  destruct (roll_loop n num sides [] (FQueue q)) as [[ds|e|p1] f2] eqn:E; try discriminate.
  injection H as -> ->. exact (IH _ _ _ _ _ E).
Qed.

Lemma roll_loop_no_panic n : forall num sides f p f',
  1 <= sides -> roll_loop n num sides [] f <> (Panic p, f').
Proof.
  induction n as [|n IH]; intros num sides f p f' Hs H; [discriminate|].
  rewrite roll_loop_S in H.
  destruct (feeder_next f sides) as [[d|e|p1] f1] eqn:E; try discriminate.
  - destruct (die_sides d =? sides); [|discriminate].
    destruct (roll_loop n num sides [] f1) as [[ds|e|p2] f2] eqn:E2; try discriminate.
    injection H as -> ->. exact (IH _ _ _ _ _ Hs E2).
  - destruct f as [[|d q]|intn k]; cbn in E; try discriminate.
    destruct (sides <=? 0) eqn:E3; [lia|discriminate].
Qed.

Lemma roll_dice_no_panic num sides f p f' :
  num <= max_alloc_16 -> roll_dice num sides f <> (Panic p, f').
Proof.
  unfold roll_dice. intros Hn.
  destruct (sides <? 1) eqn:H1; [discriminate|].
  destruct (num <? 1) eqn:H2; [discriminate|].
  destruct (max_alloc_16 <? num) eqn:H3; [lia|].
  apply roll_loop_no_panic. lia.
Qed.

(** What a failed call leaves in a queue: a suffix *)
Lemma roll_loop_queue_suffix n : forall num sides q o f',
  roll_loop n num sides [] (FQueue q) = (o, f') -> exists ds q', f' = FQueue q' /\ q = ds ++ q' /\ (length ds <= n)%nat.
Proof.
  induction n as [|n IH]; intros num sides q o f' H.
  - cbn in H. injection H as _ <-. exists [], q. repeat split; cbn; lia.
  - rewrite roll_loop_S, feeder_next_queue in H. destruct q as [|d q].
    + injection H as _ <-. exists [], []. repeat split; cbn; lia.
    + destruct (die_sides d =? sides).
      * destruct (roll_loop n num sides [] (FQueue q)) as [o2 f2] eqn:E.
        destruct (IH _ _ _ _ _ E) as (ds & q' & H1 & H2 & H3).
        exists (d :: ds), q'. rewrite H2. repeat split; cbn; try lia.
        destruct o2; injection H as _ <-; assumption.
      * injection H as _ <-. exists [d], q. repeat split; cbn; lia.
Qed.

(** Errors do not depend on the tail of the queue unless it ran out; the simplest useful fact: a prefix determines success. *)
Lemma roll_dice_replay num sides f ds f' rest :
  roll_dice num sides f = (Ok ds, f') ->
  roll_dice num sides (FQueue (ds ++ rest)) = (Ok ds, FQueue rest).
Proof.
  intros H. apply roll_dice_ok in H as (H1 & H2 & H3 & H4 & _).
  apply roll_dice_queue_iff. repeat split; try assumption; try lia. exists rest. split; reflexivity.
Qed.

(** ** Legal dice from the random feeder *)
Lemma feeder_next_random intn k sides d f' :
  intn_contract intn -> feeder_next (FRandom intn k) sides = (Ok d, f') ->
  legal d /\ die_sides d = sides /\ f' = FRandom intn (S k).
Proof.
  intros Hc H. unfold feeder_next in H. destruct (sides <=? 0) eqn:E; [discriminate|].
  injection H as <- <-. assert (Hb : 0 <= intn k sides < Z.min sides max_int) by (apply Hc; lia).
  unfold legal. cbn [die_value die_sides]. rewrite wrap64_id.
  - split; [split; lia|]. split; reflexivity.
  - unfold in_int64, max_int, min_int, two63 in *. lia.
Qed.

(** Every die drawn from the random feeder is legal *)
Definition good_feeder (f : feeder) : Prop := match f with FQueue q => Forall legal q | FRandom intn _ => intn_contract intn end.

Lemma draws_legal f ds f' : draws f ds f' -> good_feeder f -> Forall legal ds /\ good_feeder f'.
Proof.
  induction 1 as [f|f sides d f1 ds f2 Hn H IH]; intros Hg; [split; [constructor|assumption]|].
  assert (Hd : legal d /\ good_feeder f1).
  { destruct f as [q|intn k].
    - rewrite feeder_next_queue in Hn. destruct q as [|d0 q]; [discriminate|]. injection Hn as <- <-.
      cbn in Hg. inversion Hg; subst. split; assumption.
    - cbn in Hg. destruct (feeder_next_random _ _ _ _ _ Hg Hn) as (H1 & _ & ->). split; assumption. }
  destruct Hd as [Hd Hf]. destruct (IH Hf) as [H1 H2]. split; [constructor; assumption|assumption].
Qed.

Lemma roll_loop_draws n : forall num sides f o f', roll_loop n num sides [] f = (o, f') -> exists ds, draws f ds f'.
Proof.
  induction n as [|n IH]; intros num sides f o f' H.
  - cbn in H. injection H as _ <-. exists []. constructor.
  - rewrite roll_loop_S in H.
    destruct (feeder_next f sides) as [[d|e|p] f1] eqn:E.
    + destruct (die_sides d =? sides).
      * destruct (roll_loop n num sides [] f1) as [o2 f2] eqn:E2.
        destruct (IH _ _ _ _ _ E2) as (ds & Hd). exists (d :: ds). econstructor; [eassumption|].
        destruct o2; injection H as _ <-; assumption.
      * injection H as _ <-. exists [d]. econstructor; [eassumption|constructor].
    + injection H as _ <-. destruct f as [[|d q]|intn k]; cbn in E; try discriminate.
      * injection E as _ <-. exists []. constructor.
      * destruct (sides <=? 0); discriminate.
    + injection H as _ <-. destruct f as [[|d q]|intn k]; cbn in E; try discriminate.
      destruct (sides <=? 0); [|discriminate]. injection E as _ <-. exists []. constructor.
Qed.
Lemma roll_dice_draws num sides f o f' : roll_dice num sides f = (o, f') -> exists ds, draws f ds f'.
Proof.
  unfold roll_dice. intros H.
  destruct (sides <? 1); [injection H as _ <-; exists []; constructor|].
  destruct (num <? 1); [injection H as _ <-; exists []; constructor|].
  destruct (max_alloc_16 <? num); [injection H as _ <-; exists []; constructor|].
  eapply roll_loop_draws; eassumption.
Qed.

(** ** Queues and fifos *)
Lemma queue_append_app ds : forall q, queue_append q ds = q ++ ds.
Proof.
  unfold queue_append. induction ds as [|d ds IH]; intros q; cbn [fold_left].
  - rewrite app_nil_r. reflexivity.
  - rewrite IH. unfold queue_push. rewrite <- app_assoc. reflexivity.
Qed.

Lemma skipn_nth {A} (l : list A) : forall n, skipn n l = match nth_error l n with Some x => x :: skipn (S n) l | None => [] end.
Proof.
  induction l as [|a l IH]; intros [|n]; cbn [skipn nth_error]; try reflexivity.
  rewrite IH. destruct (nth_error l n); reflexivity.
Qed.

Lemma queue_fifo_outputs ops : forall s,
  (taken s <= length (put s))%nat ->
  outputs queue_step (skipn (taken s) (put s)) ops = outputs fifo_step s ops.
Proof.
  induction ops as [|o ops IH]; intros [l k] Hk; cbn [outputs put taken] in *; [reflexivity|].
  assert (Happ : forall ds, skipn k l ++ ds = skipn k (l ++ ds)).
  { intros ds. rewrite skipn_app. replace (k - length l)%nat with 0%nat by lia. reflexivity. }
  destruct o as [d|ds|ds| |sides| | |]; cbn [queue_step fifo_step put taken].
  - f_equal. unfold queue_push. rewrite Happ. apply (IH (Fifo (l ++ [d]) k)). cbn. rewrite app_length. lia.
  - f_equal. rewrite queue_append_app, Happ. apply (IH (Fifo (l ++ ds) k)). cbn. rewrite app_length. lia.
  - f_equal. apply (IH (Fifo ds 0)). cbn. lia.
  - f_equal. apply (IH (Fifo [] 0)). cbn. lia.
  - rewrite feeder_next_queue, skipn_nth. destruct (nth_error l k) as [d|] eqn:E.
    + f_equal. apply (IH (Fifo l (S k))). cbn. apply nth_error_Some. congruence.
    + f_equal. replace (@nil die) with (skipn k l) by (rewrite skipn_nth, E; reflexivity).
      apply (IH (Fifo l k)). exact Hk.
  - f_equal. apply (IH (Fifo l k)). exact Hk.
  - f_equal; [|apply (IH (Fifo l k)); exact Hk].
    unfold queue_remaining. rewrite skipn_length. f_equal. lia.
  - f_equal; [|apply (IH (Fifo l k)); exact Hk].
    unfold queue_is_empty, queue_remaining. rewrite skipn_length. f_equal. lia.
Qed.
