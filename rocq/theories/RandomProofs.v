(** Proofs about math/rand and the generator. *)
From Verif Require Import Grammar ProofBase Dice SpecDice DiceProofs Comp CompProofs Command CommandProofs BCDice BCDiceProofs SpecFair SpecRandom Random Prop_fair.
Open Scope list_scope.
Open Scope Z_scope.

(** ** Powers of two *)
Lemma power_of_two n : 1 <= n -> Z.land n (n - 1) = 0 -> n = 2 ^ Z.log2 n.
Proof.
  intros H1 H. pose proof (Z.log2_spec n ltac:(lia)) as (L1 & L2). rewrite Z.pow_succ_r in L2 by apply Z.log2_nonneg. set (k := Z.log2 n) in *.
  assert (0 <= k) as Hk by apply Z.log2_nonneg. destruct (Z.eq_dec n (2 ^ k)) as [E|E]; [exact E|exfalso].
  assert (Z.log2 (n - 1) = k) as Hl. { apply Z.log2_unique; [exact Hk|]. rewrite Z.pow_succ_r by exact Hk. lia. }
  assert (Z.testbit (Z.land n (n - 1)) k = true) as Hb.
  { rewrite Z.land_spec. unfold k at 1. rewrite Z.bit_log2 by lia. rewrite <- Hl. rewrite Z.bit_log2 by (pose proof (Z.pow_pos_nonneg 2 k); lia). reflexivity. }
  rewrite H, Z.bits_0 in Hb. discriminate.
Qed.
(** One draw of the rejection method *)
Definition one_draw (N n v : Z) : option Z := if v <? N / n * n then Some (v mod n) else None.
Section OneSource.
  Context {S : Type}.
  Variable int63 : S -> Z * S.
  Fixpoint first_accepted (tries : nat) (N n : Z) (draw : S -> Z * S) (s : S) : option (Z * S) :=
    match tries with
    | O => None
    | Datatypes.S t => let '(v, s') := draw s in match one_draw N n v with Some r => Some (r, s') | None => first_accepted t N n draw s' end
    end.
  Lemma rand_n_spec tries bits draw n s : 0 <= bits -> 1 <= n <= 2 ^ bits -> (forall s, 0 <= fst (draw s) < 2 ^ bits) ->
    rand_n (Datatypes.S tries) bits draw n s = first_accepted (Datatypes.S tries) (2 ^ bits) n draw s.
  Proof.
    intros Hb Hn Hd. unfold rand_n. destruct (Z.land n (n - 1) =? 0) eqn:E.
    - apply Z.eqb_eq in E. apply power_of_two in E; [|lia]. set (k := Z.log2 n) in *. assert (0 <= k) as Hk by apply Z.log2_nonneg.
      assert (k <= bits) as Hkb. { apply (Z.pow_le_mono_r_iff 2); [lia|exact Hb|]. rewrite <- E. lia. }
      cbn [first_accepted]. specialize (Hd s). destruct (draw s) as [v s']. cbn [fst] in Hd. unfold one_draw.
      assert (2 ^ bits / n * n = 2 ^ bits) as ->. { rewrite E. replace bits with (bits - k + k) by lia. rewrite Z.pow_add_r by lia. rewrite Z.div_mul by (pose proof (Z.pow_pos_nonneg 2 k); lia). reflexivity. }
      replace (v <? 2 ^ bits) with true by lia. do 2 f_equal.
      replace (n - 1) with (Z.ones k) by (rewrite Z.ones_equiv, <- E; lia). rewrite Z.land_ones by exact Hk. rewrite <- E. reflexivity.
    - assert (forall t s0, match reject t draw (2 ^ bits - 1 - 2 ^ bits mod n) s0 with Some (v, s') => Some (Z.rem v n, s') | None => None end = first_accepted t (2 ^ bits) n draw s0) as H; [|apply H].
      induction t as [|t IH]; intros s0; [reflexivity|]. cbn [reject first_accepted]. specialize (Hd s0). destruct (draw s0) as [v s']. cbn [fst] in Hd. unfold one_draw.
      pose proof (Z.div_mod (2 ^ bits) n ltac:(lia)) as Hdm. pose proof (Z.mod_pos_bound (2 ^ bits) n ltac:(lia)) as Hm. set (q := 2 ^ bits / n) in *.
      destruct (v <? q * n) eqn:Ev; destruct (2 ^ bits - 1 - 2 ^ bits mod n <? v) eqn:Em; [lia| |apply IH|lia]. rewrite Z.rem_mod_nonneg by lia. reflexivity.
  Qed.
  Lemma int31_range : int63_contract int63 -> forall s, 0 <= fst (rand_int31 int63 s) < 2 ^ 31.
  Proof.
    intros H s. specialize (H s). unfold rand_int31. destruct (int63 s) as [v s']. cbn [fst] in *. rewrite Z.shiftr_div_pow2 by lia. change (2 ^ 63) with (2 ^ 31 * 2 ^ 32) in H.
    split; [apply Z.div_pos; lia|apply Z.div_lt_upper_bound; lia].
  Qed.
  (** Intn as a sequence of draws: each number from the source is x; small bounds use its upper 31 bits *)
  Definition accepts (n x : Z) : option Z := if n <=? 2 ^ 31 - 1 then one_draw (2 ^ 31) n (x / 2 ^ 32) else one_draw (2 ^ 63) n x.
  Fixpoint first_of (tries : nat) (n : Z) (s : S) : option (Z * S) :=
    match tries with
    | O => None
    | Datatypes.S t => let '(x, s') := int63 s in match accepts n x with Some r => Some (r, s') | None => first_of t n s' end
    end.
  Lemma intn_spec tries n s : int63_contract int63 -> 1 <= n <= max_int -> rand_intn int63 (Datatypes.S tries) n s = first_of (Datatypes.S tries) n s.
  Proof.
    intros Hc Hn. unfold rand_intn. change (2147483647) with (2 ^ 31 - 1). destruct (n <=? 2 ^ 31 - 1) eqn:E.
    - rewrite rand_n_spec by (try apply int31_range, Hc; lia). generalize (Datatypes.S tries). intros t. revert s. induction t as [|t IH]; intros s; [reflexivity|].
      cbn [first_accepted first_of]. unfold rand_int31. destruct (int63 s) as [x s']. unfold accepts. rewrite E. rewrite Z.shiftr_div_pow2 by lia. destruct (one_draw (2 ^ 31) n (x / 2 ^ 32)); [reflexivity|apply IH].
    - rewrite rand_n_spec; [|lia|unfold max_int, two63 in Hn; change (2 ^ 63) with 9223372036854775808; lia|exact Hc]. generalize (Datatypes.S tries). intros t. revert s. induction t as [|t IH]; intros s; [reflexivity|].
      cbn [first_accepted first_of]. destruct (int63 s) as [x s']. unfold accepts. rewrite E. destruct (one_draw (2 ^ 63) n x); [reflexivity|apply IH].
  Qed.
  Lemma one_draw_range N n v r : 1 <= n -> one_draw N n v = Some r -> 0 <= r < n.
  Proof. intros Hn. unfold one_draw. destruct (v <? N / n * n); [|discriminate]. intros [= <-]. apply Z.mod_pos_bound. lia. Qed.
  Lemma first_of_range n : 1 <= n -> forall tries s v s', first_of tries n s = Some (v, s') -> 0 <= v < n.
  Proof.
    intros Hn. induction tries as [|t IH]; intros s v s'; cbn [first_of]; [discriminate|]. destruct (int63 s) as [x s1]. destruct (accepts n x) as [r|] eqn:E; [|apply IH]. intros [= <- _].
    unfold accepts in E. destruct (n <=? 2 ^ 31 - 1); eapply one_draw_range; eassumption.
  Qed.
  Lemma intn_range tries n s v s' : int63_contract int63 -> 1 <= n <= max_int -> rand_intn int63 tries n s = Some (v, s') -> 0 <= v < n.
  Proof.
    intros Hc Hn H. destruct tries as [|t]; [|rewrite intn_spec in H by assumption; eapply first_of_range; [|exact H]; lia].
    revert H. unfold rand_intn, rand_n. cbn [reject].
    assert (forall (draw : S -> Z * S) bits, 0 <= bits -> (forall s, 0 <= fst (draw s) < 2 ^ bits) -> n <= 2 ^ bits -> (if Z.land n (n - 1) =? 0 then let '(x, s1) := draw s in Some (Z.land x (n - 1), s1) else None) = Some (v, s') -> 0 <= v < n) as G.
    { intros draw bits Hb Hd Hle H. pose proof (rand_n_spec 0 bits draw n s Hb ltac:(lia) Hd) as K. unfold rand_n in K. destruct (Z.land n (n - 1) =? 0); [|discriminate]. destruct (draw s) as [x s1] eqn:Ed. injection H as H1 H2. rewrite H1, H2 in K.
      symmetry in K. cbn [first_accepted] in K. rewrite Ed in K. destruct (one_draw (2 ^ bits) n x) as [r|] eqn:E; [|discriminate]. injection K as <- _. eapply one_draw_range; [|exact E]. lia. }
    destruct (n <=? 2147483647) eqn:E; [apply (G _ 31)|apply (G _ 63)]; try lia; [apply int31_range, Hc|exact Hc|]. unfold max_int, two63 in Hn. change (2 ^ 63) with 9223372036854775808. lia.
  Qed.
End OneSource.

(** ** Counting *)
Lemma below_app a b : 0 <= a -> 0 <= b -> below (a + b) = below a ++ map (fun x => a + x) (below b).
Proof.
  intros Ha Hb. unfold below. rewrite Z2Nat.inj_add by lia. rewrite seq_app, map_app. f_equal. cbn [Nat.add]. rewrite map_map.
  assert (forall m k, map Z.of_nat (seq (Z.to_nat a + k) m) = map (fun x => a + Z.of_nat x) (seq k m)) as H; [|specialize (H (Z.to_nat b) 0%nat); rewrite Nat.add_0_r in H; exact H].
  induction m as [|m IH]; intros k; [reflexivity|]. cbn [seq map]. f_equal; [lia|]. rewrite <- IH. f_equal. f_equal. lia.
Qed.
Lemma count_app {A} (p : A -> bool) l l' : count p (l ++ l') = (count p l + count p l')%nat.
Proof. unfold count. rewrite filter_app, app_length. reflexivity. Qed.
Lemma count_const {A} (c : bool) (l : list A) : count (fun _ => c) l = if c then length l else 0%nat.
Proof. unfold count. destruct c; induction l as [|x l IH]; cbn; congruence. Qed.
(** [p (x / b)] on [0, a*b) *)
Lemma count_blocks (p : Z -> bool) b : 1 <= b -> forall a, 0 <= a -> count (fun x => p (x / b)) (below (a * b)) = (Z.to_nat b * count p (below a))%nat.
Proof.
  intros Hb. apply (natlike_ind (fun a => count (fun x => p (x / b)) (below (a * b)) = (Z.to_nat b * count p (below a))%nat)).
  - rewrite Z.mul_0_l. change (below 0) with (@nil Z). unfold count. cbn [filter length]. lia.
  - intros a Ha IH. rewrite Z.mul_succ_l. rewrite below_app by nia. rewrite count_app, IH. unfold Z.succ. rewrite (below_app a 1) by lia. rewrite count_app. rewrite count_map. change (below 1) with [0].
    cbn [map]. replace (a + 0) with a by lia. rewrite (count_ext (fun x => p ((a * b + x) / b)) (fun _ => p a)).
    + rewrite (count_const (p a) (below b)), length_below. assert (count p [a] = if p a then 1 else 0)%nat as -> by (unfold count; cbn [filter]; destruct (p a); reflexivity). destruct (p a); lia.
    + intros x Hx. apply in_below in Hx. f_equal. rewrite (Z.div_add_l a b x) by lia. rewrite Z.div_small by lia. lia.
Qed.
Lemma count_one v m : 0 <= v < m -> count (Z.eqb v) (below m) = 1%nat.
Proof.
  intros H. replace m with (v + (1 + (m - v - 1))) by lia. rewrite below_app by lia. rewrite count_app. rewrite (below_app 1 (m - v - 1)) by lia. rewrite map_app, count_app. change (below 1) with [0]. cbn [map].
  rewrite (count_none _ (below v)) by (intros x Hx; apply in_below in Hx; lia). rewrite (count_none _ (map _ (map _ _))).
  - unfold count. cbn [filter]. replace (v =? v + 0) with true by lia. reflexivity.
  - intros x Hx. rewrite map_map in Hx. apply in_map_iff in Hx as (y & <- & Hy). apply in_below in Hy. lia.
Qed.
(** residues in [0, q*n) *)
Lemma count_residue n r : 1 <= n -> 0 <= r < n -> forall q, 0 <= q -> count (fun x => x mod n =? r) (below (q * n)) = Z.to_nat q.
Proof.
  intros Hn Hr. apply (natlike_ind (fun q => count (fun x => x mod n =? r) (below (q * n)) = Z.to_nat q)); [reflexivity|].
  intros q Hq IH. rewrite Z.mul_succ_l. rewrite below_app by nia. rewrite count_app, IH, count_map.
  rewrite (count_ext _ (Z.eqb r)); [rewrite count_one by exact Hr; lia|]. intros x Hx. apply in_below in Hx. rewrite Z.add_comm, Z.mod_add, Z.mod_small by lia. apply Z.eqb_sym.
Qed.
Definition is_some_z (r : Z) (o : option Z) : bool := match o with Some x => x =? r | None => false end.
Lemma count_draw N n r : 1 <= n -> 0 <= N -> 0 <= r < n -> count (fun v => is_some_z r (one_draw N n v)) (below N) = Z.to_nat (N / n).
Proof.
  intros Hn HN Hr. pose proof (Z.div_mod N n ltac:(lia)) as Hdm. pose proof (Z.mod_pos_bound N n ltac:(lia)) as Hm. assert (0 <= N / n) as Hq by (apply Z.div_pos; lia).
  replace (below N) with (below (N / n * n + N mod n)) by (f_equal; lia). rewrite below_app by nia. rewrite count_app, count_map. rewrite (count_none _ (below (N mod n))).
  - rewrite Nat.add_0_r. rewrite <- (count_residue n r Hn Hr (N / n) Hq). apply count_ext. intros x Hx. apply in_below in Hx. unfold one_draw. replace (x <? N / n * n) with true by lia. reflexivity.
  - intros x Hx. apply in_below in Hx. unfold one_draw. replace (N / n * n + x <? N / n * n) with false by lia. reflexivity.
Qed.
Lemma count_accepts n r : 1 <= n <= max_int -> 0 <= r < n -> count (fun x => is_some_z r (accepts n x)) (below (2 ^ 63)) = Z.to_nat (share n).
Proof.
  intros Hn Hr. unfold accepts, share. destruct (n <=? 2 ^ 31 - 1) eqn:E.
  - change (2 ^ 63) with (2 ^ 31 * 2 ^ 32). rewrite (count_blocks (fun v => is_some_z r (one_draw (2 ^ 31) n v)) (2 ^ 32)) by lia. rewrite count_draw by lia. rewrite Z2Nat.inj_mul; [reflexivity|lia|apply Z.div_pos; lia].
  - apply count_draw; lia.
Qed.
