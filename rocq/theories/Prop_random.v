(** Property C77: the random dice of a seeded feeder. *)
From Verif Require Import Grammar ProofBase Dice SpecDice DiceProofs Comp CompProofs Command CommandProofs BCDice BCDiceProofs SpecFair SpecRandom Random Prop_fair RandomProofs RandomRefine.
Open Scope list_scope.
Open Scope Z_scope.

(** ** Intn is unbiased *)
Definition result_is (r : Z) (o : option (Z * list Z)) : bool := match o with Some (v, _) => v =? r | None => false end.
Definition unfinished (o : option (Z * list Z)) : bool := match o with Some _ => false | None => true end.
Lemma listed_contract : int63_contract listed.
Proof. intros [|x xs]; cbn [listed fst]; [split; reflexivity|]. apply Z.mod_pos_bound. reflexivity. Qed.
Definition is_none_z (o : option Z) : bool := match o with Some _ => false | None => true end.
Lemma count_rejected N n : 1 <= n -> 0 <= N -> count (fun v => is_none_z (one_draw N n v)) (below N) = Z.to_nat (N - n * (N / n)).
Proof.
  intros Hn HN. pose proof (Z.div_mod N n ltac:(lia)) as Hdm. pose proof (Z.mod_pos_bound N n ltac:(lia)) as Hm. assert (0 <= N / n) as Hq by (apply Z.div_pos; lia).
  replace (below N) with (below (N / n * n + N mod n)) by (f_equal; lia). rewrite below_app by nia. rewrite count_app, count_map. rewrite (count_none _ (below (N / n * n))).
  - rewrite (count_ext _ (fun _ => true)); [rewrite count_const, length_below; lia|]. intros x Hx. apply in_below in Hx. unfold one_draw. replace (N / n * n + x <? N / n * n) with false by lia. reflexivity.
  - intros x Hx. apply in_below in Hx. unfold one_draw. replace (x <? N / n * n) with true by lia. reflexivity.
Qed.
Lemma count_not_accepted n : 1 <= n <= max_int -> count (fun x => is_none_z (accepts n x)) (below (2 ^ 63)) = Z.to_nat (2 ^ 63 - n * share n).
Proof.
  intros Hn. unfold accepts, share. destruct (n <=? 2 ^ 31 - 1) eqn:E.
  - replace (2 ^ 63) with (2 ^ 31 * 2 ^ 32) by (vm_compute; reflexivity). rewrite (count_blocks (fun v => is_none_z (one_draw (2 ^ 31) n v)) (2 ^ 32)) by lia. rewrite count_rejected by lia.
    rewrite <- Z2Nat.inj_mul; [f_equal; ring|lia|]. pose proof (Z.mul_div_le (2 ^ 31) n ltac:(lia)). lia.
  - apply count_rejected; lia.
Qed.
(** one more try *)
Lemma count_step (p : Z -> list Z -> bool) t N : count (fun xs => match xs with x :: xs' => p x xs' | [] => false end) (all_answers (S t) N) =
  list_sum (map (fun x => count (p x) (all_answers t N)) (below N)).
Proof. cbn [all_answers]. rewrite count_flat_map. apply list_sum_ext. intros x _. rewrite count_map. reflexivity. Qed.
Lemma sum_three (f : Z -> option Z) (r : Z) (A B : nat) l : list_sum (map (fun x => match f x with Some v => if v =? r then A else 0%nat | None => B end) l) =
  (count (fun x => is_some_z r (f x)) l * A + count (fun x => is_none_z (f x)) l * B)%nat.
Proof.
  induction l as [|x l IH]; [reflexivity|]. cbn [map list_sum fold_right]. unfold list_sum in IH. rewrite IH. unfold count. cbn [filter]. unfold is_some_z at 2, is_none_z at 2.
  destruct (f x) as [v|]; [destruct (v =? r)|]; cbn [length]; lia.
Qed.
(** the number of lists of t raw numbers that lead to one result *)
Fixpoint ending (N n : Z) (t : nat) : nat :=
  match t with
  | O => 0%nat
  | S t' => (Z.to_nat (share n) * length (all_answers t' N) + Z.to_nat (N - n * share n) * ending N n t')%nat
  end.
Lemma first_of_listed t n x xs : 0 <= x < 2 ^ 63 -> first_of listed (S t) n (x :: xs) = match accepts n x with Some r => Some (r, xs) | None => first_of listed t n xs end.
Proof. intros H. cbn [first_of listed]. rewrite Z.mod_small by exact H. reflexivity. Qed.
Section Counting.
  Variable N n : Z.
  Hypothesis HN : N = 2 ^ 63.
  Hypothesis Hn : 1 <= n <= max_int.
  Lemma in_all_head t x xs : In (x :: xs) (all_answers (S t) N) -> 0 <= x < 2 ^ 63.
  Proof. intros H. apply in_all in H as (_ & H). inversion H. subst. assumption. Qed.
  Lemma ending_counts r : 0 <= r < n -> forall t, count (fun xs => result_is r (first_of listed t n xs)) (all_answers t N) = ending N n t.
  Proof.
    intros Hr. induction t as [|t IH]; [reflexivity|].
    rewrite (count_ext _ (fun xs => match xs with x :: xs' => match accepts n x with Some v => v =? r | None => result_is r (first_of listed t n xs') end | [] => false end)).
    2:{ intros xs Hxs. destruct xs as [|x xs]; [apply in_all in Hxs as (Hxs & _); discriminate|]. rewrite first_of_listed by (eapply in_all_head; exact Hxs). destruct (accepts n x); reflexivity. }
    rewrite (count_step (fun x xs' => match accepts n x with Some v => v =? r | None => result_is r (first_of listed t n xs') end)).
    rewrite (list_sum_ext _ (fun x => match accepts n x with Some v => if v =? r then length (all_answers t N) else 0%nat | None => ending N n t end)).
    - rewrite sum_three. pose proof (count_accepts n r Hn Hr) as H1. pose proof (count_not_accepted n Hn) as H2. rewrite <- HN in H1, H2. rewrite H1, H2. reflexivity.
    - intros x _. destruct (accepts n x) as [v|]; [|exact IH]. apply count_const.
  Qed.
  Lemma unfinished_counts : forall t, count (fun xs => unfinished (first_of listed t n xs)) (all_answers t N) = (Z.to_nat (N - n * share n) ^ t)%nat.
  Proof.
    induction t as [|t IH]; [reflexivity|].
    rewrite (count_ext _ (fun xs => match xs with x :: xs' => match accepts n x with Some v => false | None => unfinished (first_of listed t n xs') end | [] => false end)).
    2:{ intros xs Hxs. destruct xs as [|x xs]; [apply in_all in Hxs as (Hxs & _); discriminate|]. rewrite first_of_listed by (eapply in_all_head; exact Hxs). destruct (accepts n x); reflexivity. }
    rewrite (count_step (fun x xs' => match accepts n x with Some v => false | None => unfinished (first_of listed t n xs') end)).
    rewrite (list_sum_ext _ (fun x => match accepts n x with Some v => if v =? -1 then 0%nat else 0%nat | None => (Z.to_nat (N - n * share n) ^ t)%nat end)).
    - rewrite sum_three. pose proof (count_not_accepted n Hn) as H2. rewrite <- HN in H2. rewrite H2. cbn [Nat.pow]. lia.
    - intros x _. destruct (accepts n x) as [v|]; [|exact IH]. rewrite count_const. destruct (v =? -1); reflexivity.
  Qed.
  Lemma intn_counts : forall t r, 0 <= r < n -> count (fun xs => result_is r (rand_intn listed (S t) n xs)) (all_answers (S t) N) = ending N n (S t).
  Proof. intros t r Hr. rewrite <- (ending_counts r Hr). apply count_ext. intros xs _. rewrite intn_spec by (try apply listed_contract; assumption). reflexivity. Qed.
  Lemma intn_unfinished t : count (fun xs => unfinished (rand_intn listed (S t) n xs)) (all_answers (S t) N) = (Z.to_nat (N - n * share n) ^ S t)%nat.
  Proof. rewrite <- unfinished_counts. apply count_ext. intros xs _. rewrite intn_spec by (try apply listed_contract; assumption). reflexivity. Qed.
End Counting.
Lemma share_large n : 1 <= n <= max_int -> 1 <= share n /\ 2 ^ 62 < n * share n <= 2 ^ 63.
Proof.
  intros Hn. unfold share.
  assert (forall N, 1 <= n <= N -> 1 <= N / n /\ N < 2 * (n * (N / n)) /\ n * (N / n) <= N) as G.
  { intros N HN. assert (1 <= N / n) as H1 by (apply Z.div_le_lower_bound; lia). pose proof (Z.div_mod N n ltac:(lia)) as Hdm. pose proof (Z.mod_pos_bound N n ltac:(lia)) as Hm. split; [exact H1|]. split; [|lia].
    destruct (Z_le_gt_dec (2 * n) N) as [H2|H2]; [lia|]. nia. }
  destruct (n <=? 2 ^ 31 - 1) eqn:E.
  - destruct (G (2 ^ 31) ltac:(lia)) as (H1 & H2 & H3). split; [lia|]. change (2 ^ 62) with (2 ^ 30 * 2 ^ 32). change (2 ^ 63) with (2 ^ 31 * 2 ^ 32). lia.
  - unfold max_int, two63 in Hn. change (2 ^ 63) with 9223372036854775808. change (2 ^ 62) with 4611686018427387904. destruct (G 9223372036854775808 ltac:(lia)) as (H1 & H2 & H3). lia.
Qed.
(** C77: rand.Intn(n) on a source whose numbers are uniform on [0, 2^63): of the lists of t numbers, equally many lead to each of the results 0, ..., n-1 ([share n] for t = 1), and those for
    which the loop has not ended after t numbers are the t-th power of less than half of 2^63. *)
Theorem C77_unbiased n t : 1 <= n <= max_int ->
  (forall r r', 0 <= r < n -> 0 <= r' < n ->
     count (fun xs => result_is r (rand_intn listed (S t) n xs)) (all_answers (S t) (2 ^ 63)) =
     count (fun xs => result_is r' (rand_intn listed (S t) n xs)) (all_answers (S t) (2 ^ 63))) /\
  (forall r, 0 <= r < n -> count (fun xs => result_is r (rand_intn listed 1 n xs)) (all_answers 1 (2 ^ 63)) = Z.to_nat (share n)) /\
  exists rejected, 0 <= rejected < 2 ^ 62 /\
    count (fun xs => unfinished (rand_intn listed (S t) n xs)) (all_answers (S t) (2 ^ 63)) = (Z.to_nat rejected ^ S t)%nat.
Proof.
  intros Hn. remember (2 ^ 63) as N eqn:HN. split; [|split].
  - intros r r' Hr Hr'. rewrite !(intn_counts N n HN Hn) by assumption. reflexivity.
  - intros r Hr. rewrite (intn_counts N n HN Hn 0 r Hr). cbn [ending all_answers length]. lia.
  - exists (N - n * share n). destruct (share_large n Hn) as (S1 & S2). rewrite <- HN in S2. split; [change (2 ^ 63) with (2 ^ 62 + 2 ^ 62) in HN; lia|]. apply (intn_unfinished N n HN Hn).
Qed.
Print Assumptions C77_unbiased.

(** ** The whole program with a source of random numbers *)
(** Several inputs on one feeder *)
Fixpoint executes (bot : dicebot) (inputs : list string) (f : feeder) : list (outcome result) * feeder :=
  match inputs with
  | [] => ([], f)
  | input :: inputs' => let '(o, f1) := execute_command_with bot input f in let '(os, f2) := executes bot inputs' f1 in (o :: os, f2)
  end.
Lemma session_refine {S} (int63 : S -> Z * S) tries bot : int63_contract int63 -> forall inputs s os s', rand_session int63 tries bot inputs s = Some (os, s') ->
  exists qs, Forall proper qs /\ forall intn k, repeats intn k qs -> executes bot inputs (FRandom intn k) = (os, FRandom intn (k + length qs)).
Proof.
  intros Hc. induction inputs as [|input inputs IH]; intros s os s' H; cbn [rand_session] in H.
  - injection H as <- <-. exists []. split; [constructor|]. intros intn k _. cbn. rewrite Nat.add_0_r. reflexivity.
  - destruct (rand_execute int63 tries bot input s) as [[o s1]|] eqn:E; [|discriminate]. destruct (rand_session int63 tries bot inputs s1) as [[os2 s2]|] eqn:E2; [|discriminate]. injection H as <- <-.
    destruct (execute_refine int63 Hc tries bot input s o s1 E) as (q1 & P1 & R1). destruct (IH _ _ _ E2) as (q2 & P2 & R2). exists (q1 ++ q2). split; [apply Forall_app; auto|].
    intros intn k Ha. apply repeats_app in Ha as (A1 & A2). cbn [executes]. rewrite (R1 _ _ A1), (R2 _ _ A2), app_length, Nat.add_assoc. reflexivity.
Qed.
(** C77: whatever source math/rand is given (each number in [0, 2^63)), a session that ends is the session with an oracle that keeps Intn's contract: what is proved for all such
    oracles (C04, C60, C72, C74, ...) holds for the real feeder. *)
Theorem C77_oracle {S} (int63 : S -> Z * S) tries bot inputs s os s' : int63_contract int63 -> rand_session int63 tries bot inputs s = Some (os, s') ->
  exists intn calls, intn_contract intn /\ executes bot inputs (FRandom intn 0) = (os, FRandom intn calls).
Proof.
  intros Hc H. destruct (session_refine int63 tries bot Hc inputs s os s' H) as (qs & Hq & Hr). exists (oracle qs), (length qs). split; [apply oracle_contract; exact Hq|]. apply (Hr (oracle qs) 0%nat). apply oracle_repeats.
Qed.
Print Assumptions C77_oracle.
Lemma mt_contract : int63_contract mt_int63.
Proof.
  intros g. unfold mt_int63. destruct (mt_uint64 g) as [x g']. cbn [fst]. change 9223372036854775807 with (Z.ones 63). rewrite Z.land_ones by lia. apply Z.mod_pos_bound. reflexivity.
Qed.
(** C77: with NewMT19937(seed), for every seed: every reported die is a face of the die. *)
Theorem C77_seeded_legal seed tries bot inputs os g : rand_session mt_int63 tries bot inputs (mt_seed seed) = Some (os, g) ->
  Forall (fun o => forall r, o = Ok r -> Forall legal (r_dice r)) os.
Proof.
  intros H. destruct (C77_oracle mt_int63 tries bot inputs _ _ _ mt_contract H) as (intn & calls & Hi & He). clear H.
  assert (good_feeder (FRandom intn 0)) as Hg by exact Hi. revert Hg He. generalize (FRandom intn 0), (FRandom intn calls). revert os.
  induction inputs as [|input inputs IH]; intros os f f' Hg He; cbn [executes] in He; [injection He as <- _; constructor|].
  destruct (execute_command_with bot input f) as [o f1] eqn:E. destruct (executes bot inputs f1) as [os2 f2] eqn:E2. injection He as <- _.
  destruct (execute_command_legal _ _ _ _ _ E Hg) as (Hg1 & Hl). constructor; [exact Hl|]. eapply IH; eassumption.
Qed.
Print Assumptions C77_seeded_legal.

(** ** The generator *)
Lemma small_bits x i : 0 <= x < two64 -> 64 <= i -> Z.testbit x i = false.
Proof.
  intros Hx Hi. change two64 with (2 ^ 64) in Hx. destruct (Z.eq_dec x 0) as [->|H0]; [apply Z.bits_0|]. apply Z.bits_above_log2; [lia|].
  pose proof (proj1 (Z.log2_lt_pow2 x 64 ltac:(lia)) ltac:(lia)). lia.
Qed.
Lemma bits_small x : 0 <= x -> (forall i, 64 <= i -> Z.testbit x i = false) -> 0 <= x < two64.
Proof.
  intros H0 Hb. split; [exact H0|]. change two64 with (2 ^ 64). destruct (Z_lt_ge_dec x (2 ^ 64)) as [H|H]; [exact H|exfalso]. assert (64 <= Z.log2 x) as Hl by (apply Z.log2_le_pow2; lia).
  specialize (Hb (Z.log2 x) Hl). rewrite Z.bit_log2 in Hb by lia. discriminate.
Qed.
Lemma lxor_small a b : 0 <= a < two64 -> 0 <= b < two64 -> 0 <= Z.lxor a b < two64.
Proof. intros Ha Hb. apply bits_small; [apply Z.lxor_nonneg; lia|]. intros i Hi. rewrite Z.lxor_spec, !small_bits by assumption. reflexivity. Qed.
Lemma land_small a b : 0 <= a < two64 -> 0 <= b -> 0 <= Z.land a b < two64.
Proof. intros Ha Hb. apply bits_small; [apply Z.land_nonneg; lia|]. intros i Hi. rewrite Z.land_spec, (small_bits a) by assumption. reflexivity. Qed.
Lemma lor_small a b : 0 <= a < two64 -> 0 <= b < two64 -> 0 <= Z.lor a b < two64.
Proof. intros Ha Hb. apply bits_small; [apply Z.lor_nonneg; lia|]. intros i Hi. rewrite Z.lor_spec, !small_bits by assumption. reflexivity. Qed.
Lemma shiftr_small a s : 0 <= a < two64 -> 0 <= s -> 0 <= Z.shiftr a s < two64.
Proof. intros Ha Hs. apply bits_small; [apply Z.shiftr_nonneg; lia|]. intros i Hi. rewrite Z.shiftr_spec by lia. apply small_bits; [exact Ha|lia]. Qed.
Lemma uint64_small z : 0 <= uint64 z < two64.
Proof. apply Z.mod_pos_bound. reflexivity. Qed.
Lemma temper_small y : 0 <= y < two64 -> 0 <= temper y < two64.
Proof.
  intros H. unfold temper. assert (forall a b, 0 <= a < two64 -> 0 <= b -> 0 <= Z.lxor a (Z.land (Z.shiftr a 29) b) < two64) as H1 by (intros; apply lxor_small; [assumption|apply land_small; [apply shiftr_small; [assumption|lia]|assumption]]).
  assert (forall a k b, 0 <= a < two64 -> 0 <= b -> 0 <= Z.lxor a (Z.land (uint64 (Z.shiftl a k)) b) < two64) as H2 by (intros; apply lxor_small; [assumption|apply land_small; [apply uint64_small|assumption]]).
  assert (0 <= Z.lxor y (Z.land (Z.shiftr y 29) 6148914691236517205) < two64) as A by (apply H1; [exact H|discriminate]). set (y1 := Z.lxor y _) in *. clearbody y1.
  assert (0 <= Z.lxor y1 (Z.land (uint64 (Z.shiftl y1 17)) 8202884508482404352) < two64) as B by (apply H2; [exact A|discriminate]). set (y2 := Z.lxor y1 _) in *. clearbody y2.
  assert (0 <= Z.lxor y2 (Z.land (uint64 (Z.shiftl y2 37)) 18444473444759240704) < two64) as C by (apply H2; [exact B|discriminate]). set (y3 := Z.lxor y2 _) in *. clearbody y3.
  apply lxor_small; [exact C|apply shiftr_small; [exact C|lia]].
Qed.
(** the words of the state *)
Definition words (x : list Z) : Prop := length x = 312%nat /\ Forall (fun w => 0 <= w < two64) x.
Lemma word_small x i : Forall (fun w => 0 <= w < two64) x -> 0 <= word_at x i < two64.
Proof.
  intros H. unfold word_at. destruct (nth_in_or_default i x 0) as [Hi| ->]; [|unfold two64; lia]. rewrite Forall_forall in H. apply H, Hi.
Qed.
Lemma set_word_ok x v : 0 <= v < two64 -> forall i, Forall (fun w => 0 <= w < two64) x -> length (set_word x i v) = length x /\ Forall (fun w => 0 <= w < two64) (set_word x i v).
Proof.
  intros Hv. induction x as [|w x IH]; intros [|i] H; cbn [set_word]; try (split; [reflexivity|assumption]); inversion H; subst.
  - split; [reflexivity|constructor; assumption].
  - destruct (IH i) as (I1 & I2); [assumption|]. split; [cbn [length]; rewrite I1; reflexivity|constructor; assumption].
Qed.
Lemma twist_at_ok x i j k : words x -> words (twist_at x i j k).
Proof.
  intros (Hl & Hw). unfold twist_at. set (y := Z.lor _ _). assert (0 <= y < two64) as Hy by (apply lor_small; apply land_small; try (apply word_small; exact Hw); discriminate). clearbody y.
  assert (0 <= Z.land y 1 * matrix_a < two64) as Hm. { change 1 with (Z.ones 1) at 1. change (Z.land y 1) with (Z.land y (Z.ones 1)). rewrite Z.land_ones by lia. pose proof (Z.mod_pos_bound y (2 ^ 1) ltac:(lia)) as Hb. change (2 ^ 1) with 2 in *. unfold two64, matrix_a. lia. }
  destruct (set_word_ok x (Z.lxor (Z.lxor (word_at x k) (Z.shiftr y 1)) (Z.land y 1 * matrix_a))) with (i := i) as (S1 & S2); [apply lxor_small; [apply lxor_small; [apply word_small; exact Hw|apply shiftr_small; [exact Hy|lia]]|exact Hm]|exact Hw|].
  split; [rewrite S1; exact Hl|exact S2].
Qed.
Lemma fold_ok (f : list Z -> nat -> list Z) : (forall x i, words x -> words (f x i)) -> forall l x, words x -> words (fold_left f l x).
Proof. intros Hf. induction l as [|i l IH]; intros x Hx; [exact Hx|]. cbn [fold_left]. apply IH, Hf, Hx. Qed.
Lemma mt_twist_ok x : words x -> words (mt_twist x).
Proof.
  intros H. unfold mt_twist. apply twist_at_ok. apply (fold_ok (fun x i => twist_at x i (i + 1) (i - 156))); [intros; apply twist_at_ok; assumption|].
  apply (fold_ok (fun x i => twist_at x i (i + 1) (i + 156))); [intros; apply twist_at_ok; assumption|exact H].
Qed.
Lemma seed_words_ok n : forall i p, length (seed_words n i p) = n /\ Forall (fun w => 0 <= w < two64) (seed_words n i p).
Proof.
  induction n as [|n IH]; intros i p; [split; [reflexivity|constructor]|]. cbn [seed_words]. destruct (IH (i + 1) (uint64 (6364136223846793005 * Z.lxor p (Z.shiftr p 62) + i))) as (I1 & I2). cbn [length]. rewrite I1.
  split; [reflexivity|]. constructor; [apply uint64_small|exact I2].
Qed.
Fixpoint after (k : nat) (g : mt) : mt := match k with O => g | S k' => after k' (snd (mt_uint64 g)) end.
(** C77: after any seed and any number of calls, the state consists of 312 uint64 words, no word beyond the end is read, and the next number is a uint64. *)
Theorem C77_generator seed k : let g := after k (mt_seed seed) in words (mt_state g) /\ (mt_index g <= 312)%nat /\ 0 <= fst (mt_uint64 g) < two64.
Proof.
  assert (forall g, words (mt_state g) -> (mt_index g <= 312)%nat -> words (mt_state (snd (mt_uint64 g))) /\ (mt_index (snd (mt_uint64 g)) <= 312)%nat /\ 0 <= fst (mt_uint64 g) < two64) as H.
  { intros g Hw Hi. unfold mt_uint64. destruct (312 <=? mt_index g)%nat eqn:E; cbn [fst snd mt_state mt_index].
    - pose proof (mt_twist_ok _ Hw) as Ht. split; [exact Ht|]. split; [lia|]. apply temper_small, word_small, Ht.
    - apply Nat.leb_gt in E. split; [exact Hw|]. split; [lia|]. apply temper_small, word_small, Hw. }
  assert (forall k g, words (mt_state g) -> (mt_index g <= 312)%nat -> words (mt_state (after k g)) /\ (mt_index (after k g) <= 312)%nat) as G.
  { induction k0 as [|k0 IH]; intros g Hw Hi; [auto|]. cbn [after]. destruct (H g Hw Hi) as (H1 & H2 & _). apply IH; assumption. }
  cbv zeta. destruct (G k (mt_seed seed)) as (G1 & G2); [|cbn; lia|].
  - unfold mt_seed. cbn [mt_state]. destruct (seed_words_ok 311 1 (uint64 seed)) as (S1 & S2). split; [cbn [length]; rewrite S1; reflexivity|constructor; [apply uint64_small|exact S2]].
  - split; [exact G1|]. split; [exact G2|]. apply H; assumption.
Qed.
Print Assumptions C77_generator.
(** Tempering loses nothing *)
Lemma right_injective s m x y : 1 <= s -> 0 <= x < two64 -> 0 <= y < two64 -> Z.lxor x (Z.land (Z.shiftr x s) m) = Z.lxor y (Z.land (Z.shiftr y s) m) -> x = y.
Proof.
  intros Hs Hx Hy H. assert (forall d : nat, forall i, 0 <= i -> 64 - Z.of_nat d <= i -> Z.testbit x i = Z.testbit y i) as Hd.
  { induction d as [|d IH]; intros i H0 Hi; [rewrite !small_bits by (try assumption; lia); reflexivity|].
    assert (Z.testbit (Z.lxor x (Z.land (Z.shiftr x s) m)) i = Z.testbit (Z.lxor y (Z.land (Z.shiftr y s) m)) i) as Hb by (rewrite H; reflexivity).
    rewrite !Z.lxor_spec, !Z.land_spec, !Z.shiftr_spec in Hb by lia. rewrite (IH (i + s)) in Hb by lia.
    destruct (Z.testbit x i), (Z.testbit y i), (Z.testbit y (i + s) && Z.testbit m i); try reflexivity; discriminate. }
  apply Z.bits_inj'. intros i Hi. apply (Hd 64%nat); lia.
Qed.
Lemma left_injective s m x y : 1 <= s -> 0 <= x < two64 -> 0 <= y < two64 -> Z.lxor x (Z.land (uint64 (Z.shiftl x s)) m) = Z.lxor y (Z.land (uint64 (Z.shiftl y s)) m) -> x = y.
Proof.
  intros Hs Hx Hy H. assert (forall d : nat, forall i, 0 <= i < Z.of_nat d -> Z.testbit x i = Z.testbit y i) as Hd.
  { induction d as [|d IH]; intros i Hi; [lia|]. destruct (Z_lt_ge_dec i 64) as [Hl|Hl]; [|rewrite !small_bits by (try assumption; lia); reflexivity].
    assert (Z.testbit (Z.lxor x (Z.land (uint64 (Z.shiftl x s)) m)) i = Z.testbit (Z.lxor y (Z.land (uint64 (Z.shiftl y s)) m)) i) as Hb by (rewrite H; reflexivity).
    unfold uint64 in Hb. change two64 with (2 ^ 64) in Hb. rewrite !Z.lxor_spec, !Z.land_spec, !Z.mod_pow2_bits_low, !Z.shiftl_spec in Hb by lia.
    assert (Z.testbit x (i - s) = Z.testbit y (i - s)) as E. { destruct (Z_lt_ge_dec (i - s) 0) as [Hn|Hn]; [rewrite !Z.testbit_neg_r by lia; reflexivity|apply IH; lia]. }
    rewrite E in Hb. destruct (Z.testbit x i), (Z.testbit y i), (Z.testbit y (i - s) && Z.testbit m i); try reflexivity; discriminate. }
  apply Z.bits_inj'. intros i Hi. apply (Hd (Z.to_nat (i + 1))); lia.
Qed.
(** C77: tempering maps different words to different numbers (so that it is a permutation of the uint64 values). *)
Theorem C77_tempering x y : 0 <= x < two64 -> 0 <= y < two64 -> temper x = temper y -> x = y.
Proof.
  intros Hx Hy H. unfold temper in H.
  assert (forall a b, 0 <= a < two64 -> 0 <= b -> 0 <= Z.lxor a (Z.land (Z.shiftr a 29) b) < two64) as H1 by (intros; apply lxor_small; [assumption|apply land_small; [apply shiftr_small; [assumption|lia]|assumption]]).
  assert (forall a k b, 0 <= a < two64 -> 0 <= b -> 0 <= Z.lxor a (Z.land (uint64 (Z.shiftl a k)) b) < two64) as H2 by (intros; apply lxor_small; [assumption|apply land_small; [apply uint64_small|assumption]]).
  pose proof (H1 x 6148914691236517205 Hx ltac:(discriminate)) as Ax. pose proof (H1 y 6148914691236517205 Hy ltac:(discriminate)) as Ay.
  apply (right_injective 29 6148914691236517205); [lia|exact Hx|exact Hy|]. set (x1 := Z.lxor x _) in *. set (y1 := Z.lxor y _) in *. clearbody x1 y1.
  pose proof (H2 x1 17 8202884508482404352 Ax ltac:(discriminate)) as Bx. pose proof (H2 y1 17 8202884508482404352 Ay ltac:(discriminate)) as By.
  apply (left_injective 17 8202884508482404352); [lia|exact Ax|exact Ay|]. set (x2 := Z.lxor x1 _) in *. set (y2 := Z.lxor y1 _) in *. clearbody x2 y2.
  pose proof (H2 x2 37 18444473444759240704 Bx ltac:(discriminate)) as Cx. pose proof (H2 y2 37 18444473444759240704 By ltac:(discriminate)) as Cy.
  apply (left_injective 37 18444473444759240704); [lia|exact Bx|exact By|]. set (x3 := Z.lxor x2 _) in *. set (y3 := Z.lxor y2 _) in *. clearbody x3 y3.
  apply (right_injective 43 (-1)); [lia|exact Cx|exact Cy|]. rewrite !Z.land_m1_r. exact H.
Qed.
Print Assumptions C77_tempering.
(** ** The generator is the published sequence *)
Lemma mt_state_seed seed : mt_state (mt_seed seed) = uint64 seed :: seed_words 311 1 (uint64 seed).
Proof. reflexivity. Qed.
Lemma mt_index_seed seed : mt_index (mt_seed seed) = 312%nat.
Proof. reflexivity. Qed.
Lemma land_hi x : 0 <= x < two64 -> Z.land x hi_mask = high x.
Proof.
  intros Hx. unfold high. change hi_mask with (Z.shiftl (Z.ones 33) 31). rewrite <- Z.land_ones by lia.
  assert (x - Z.land x (Z.ones 31) = Z.ldiff x (Z.ones 31)) as ->.
  { rewrite Z.land_ones, Z.ldiff_ones_r, Z.shiftl_mul_pow2, Z.shiftr_div_pow2 by lia. pose proof (Z.div_mod x (2 ^ 31) ltac:(lia)). lia. }
  apply Z.bits_inj'. intros i Hi. rewrite Z.land_spec, Z.ldiff_spec. rewrite Z.shiftl_spec by lia. destruct (Z_lt_ge_dec i 64) as [H|H]; [|rewrite (small_bits x) by (try assumption; lia); reflexivity].
  destruct (Z_lt_ge_dec i 31) as [H'|H'].
  - rewrite (Z.testbit_neg_r (Z.ones 33)) by lia. rewrite Z.ones_spec_low by lia. reflexivity.
  - rewrite Z.ones_spec_low by lia. rewrite Z.ones_spec_high by lia. reflexivity.
Qed.
Lemma land_lo x : Z.land x lo_mask = low x.
Proof. change lo_mask with (Z.ones 31). rewrite Z.land_ones by lia. reflexivity. Qed.
Lemma join_words a b : 0 <= a < two64 -> Z.lor (high a) (low b) = high a + low b.
Proof.
  intros Ha. assert (Z.land (high a) (low b) = 0) as H0.
  { rewrite <- land_hi, <- land_lo by exact Ha. apply Z.bits_inj'. intros i Hi. rewrite !Z.land_spec, Z.bits_0. change hi_mask with (Z.shiftl (Z.ones 33) 31). change lo_mask with (Z.ones 31). rewrite Z.shiftl_spec by lia.
    destruct (Z_lt_ge_dec i 31) as [H|H]; [rewrite (Z.testbit_neg_r _ (i - 31)) by lia; rewrite Bool.andb_false_r; reflexivity|]. rewrite (Z.ones_spec_high 31) by lia. rewrite !Bool.andb_false_r. reflexivity. }
  rewrite <- Z.lxor_lor by exact H0. rewrite Z.add_nocarry_lxor by exact H0. reflexivity.
Qed.
Lemma twist_value a b c : 0 <= a < two64 -> let y := Z.lor (Z.land a hi_mask) (Z.land b lo_mask) in Z.lxor (Z.lxor c (Z.shiftr y 1)) (Z.land y 1 * matrix_a) = Z.lxor c (times_a (high a + low b)).
Proof.
  intros Ha. cbv zeta. rewrite land_hi by exact Ha. rewrite land_lo, join_words by exact Ha. generalize (high a + low b). intros y. unfold times_a. rewrite Z.lxor_assoc. f_equal. f_equal.
  - rewrite Z.shiftr_div_pow2 by lia. reflexivity.
  - change 1 with (Z.ones 1) at 1. rewrite Z.land_ones by lia. change (2 ^ 1) with 2. rewrite Zmod_odd. destruct (Z.odd y); reflexivity.
Qed.
Lemma word_set x v : forall i j, (i < length x)%nat -> word_at (set_word x i v) j = if (j =? i)%nat then v else word_at x j.
Proof.
  unfold word_at. induction x as [|u x IH]; intros i j Hi; [cbn in Hi; lia|]. destruct i as [|i]; destruct j as [|j]; cbn [set_word nth Nat.eqb]; try reflexivity. apply IH. cbn in Hi. lia.
Qed.
Lemma set_length x v : forall i, length (set_word x i v) = length x.
Proof. induction x as [|u x IH]; intros [|i]; cbn; try reflexivity. rewrite IH. reflexivity. Qed.
Section Sequence.
  Variable seed : Z.
  Variable w : nat -> Z.
  Hypothesis Hw : mt_sequence seed w.
  Lemma w_small : forall k, 0 <= w k < two64.
  Proof.
    destruct Hw as (H0 & H1 & H2). intros k. induction k as [k IH] using (well_founded_induction lt_wf). destruct (lt_dec k 312) as [Hk|Hk].
    - destruct k as [|k]; [rewrite H0; apply Z.mod_pos_bound; reflexivity|]. rewrite H1 by lia. apply Z.mod_pos_bound. reflexivity.
    - replace k with (k - 312 + 312)%nat by lia. rewrite H2. rewrite <- (twist_value (w (k - 312)%nat) (w (k - 312 + 1)%nat)) by (apply IH; lia).
      assert (0 <= w (k - 312)%nat < two64) as Ha by (apply IH; lia). assert (0 <= w (k - 312 + 1)%nat < two64) as Hb by (apply IH; lia). assert (0 <= w (k - 312 + 156)%nat < two64) as Hc by (apply IH; lia).
      pose proof (twist_at_ok (w (k - 312)%nat :: w (k - 312 + 1)%nat :: w (k - 312 + 156)%nat :: repeat 0 309) 0 1 2) as (_ & Ht).
      + split; [cbn [length]; rewrite repeat_length; reflexivity|]. repeat (apply Forall_cons; [assumption|]). apply Forall_forall. intros x Hx. apply repeat_spec in Hx. subst x. unfold two64; lia.
      + unfold twist_at, word_at in Ht. cbn [nth set_word] in Ht. apply Forall_inv in Ht. exact Ht.
  Qed.
  (** the first i words are already those of the next block *)
  Definition mixed (base i : nat) (x : list Z) : Prop := length x = 312%nat /\ forall j, (j < 312)%nat -> word_at x j = w (base + (if (j <? i)%nat then 312 + j else j))%nat.
  Lemma twist_step base i j k x : (i < 312)%nat -> (j < 312)%nat -> (k < 312)%nat -> mixed base i x -> word_at x j = w (base + i + 1)%nat -> word_at x k = w (base + i + 156)%nat -> mixed base (S i) (twist_at x i j k).
  Proof.
    intros Hi Hj Hk (Hl & Hx) Ej Ek. unfold twist_at. cbv zeta. rewrite twist_value.
    2:{ rewrite Hx by exact Hi. apply w_small. }
    split; [rewrite set_length; exact Hl|]. intros m Hm. rewrite word_set by (rewrite Hl; exact Hi). destruct (m =? i)%nat eqn:E.
    - apply Nat.eqb_eq in E. subst m. replace (i <? S i)%nat with true by (symmetry; apply Nat.ltb_lt; lia). rewrite Ej, Ek, Hx by exact Hi. rewrite Nat.ltb_irrefl.
      destruct Hw as (_ & _ & H2). replace (base + (312 + i))%nat with (base + i + 312)%nat by lia. rewrite H2. reflexivity.
    - apply Nat.eqb_neq in E. rewrite Hx by exact Hm. replace (m <? S i)%nat with (m <? i)%nat; [reflexivity|]. destruct (m <? i)%nat eqn:E1; symmetry; [apply Nat.ltb_lt in E1; apply Nat.ltb_lt; lia|apply Nat.ltb_ge in E1; apply Nat.ltb_ge; lia].
  Qed.
  Lemma fold_mixed base (f : list Z -> nat -> list Z) n : forall a x, (forall i x, (a <= i < a + n)%nat -> mixed base i x -> mixed base (S i) (f x i)) -> mixed base a x -> mixed base (a + n) (fold_left f (seq a n) x).
  Proof.
    induction n as [|n IH]; intros a x Hf Hx; [rewrite Nat.add_0_r; exact Hx|]. cbn [seq fold_left]. replace (a + S n)%nat with (S a + n)%nat by lia. apply IH.
    - intros i y Hi. apply Hf. lia.
    - apply Hf; [lia|exact Hx].
  Qed.
  Lemma twist_block base x : mixed base 0 x -> mixed base 312 (mt_twist x).
  Proof.
    intros H. unfold mt_twist. cbv zeta. apply twist_step; try lia.
    - apply (fold_mixed base (fun x i => twist_at x i (i + 1) (i - 156)) 155 156).
      + intros i y Hi (Hl & Hy). apply twist_step; try lia; [split; assumption| |]; rewrite Hy by lia.
        * replace (i + 1 <? i)%nat with false by (symmetry; apply Nat.ltb_ge; lia). f_equal. lia.
        * replace (i - 156 <? i)%nat with true by (symmetry; apply Nat.ltb_lt; lia). f_equal. lia.
      + apply (fold_mixed base (fun x i => twist_at x i (i + 1) (i + 156)) 156 0); [|exact H]. intros i y Hi (Hl & Hy). apply twist_step; try lia; [split; assumption| |]; rewrite Hy by lia.
        * replace (i + 1 <? i)%nat with false by (symmetry; apply Nat.ltb_ge; lia). f_equal. lia.
        * replace (i + 156 <? i)%nat with false by (symmetry; apply Nat.ltb_ge; lia). f_equal. lia.
    - set (x2 := fold_left _ (seq 156 155) _). assert (mixed base 311 x2) as (_ & Hx2) by
        (apply (fold_mixed base (fun x i => twist_at x i (i + 1) (i - 156)) 155 156);
         [intros i y Hi (Hl & Hy); apply twist_step; try lia; [split; assumption| |]; rewrite Hy by lia;
          [replace (i + 1 <? i)%nat with false by (symmetry; apply Nat.ltb_ge; lia); f_equal; lia|replace (i - 156 <? i)%nat with true by (symmetry; apply Nat.ltb_lt; lia); f_equal; lia]
         |apply (fold_mixed base (fun x i => twist_at x i (i + 1) (i + 156)) 156 0); [|exact H]; intros i y Hi (Hl & Hy); apply twist_step; try lia; [split; assumption| |]; rewrite Hy by lia;
          [replace (i + 1 <? i)%nat with false by (symmetry; apply Nat.ltb_ge; lia); f_equal; lia|replace (i + 156 <? i)%nat with false by (symmetry; apply Nat.ltb_ge; lia); f_equal; lia]]).
      rewrite Hx2 by lia. cbn [Nat.ltb Nat.leb]. f_equal. lia.
    - set (x2 := fold_left _ (seq 156 155) _). assert (mixed base 311 x2) as (_ & Hx2) by
        (apply (fold_mixed base (fun x i => twist_at x i (i + 1) (i - 156)) 155 156);
         [intros i y Hi (Hl & Hy); apply twist_step; try lia; [split; assumption| |]; rewrite Hy by lia;
          [replace (i + 1 <? i)%nat with false by (symmetry; apply Nat.ltb_ge; lia); f_equal; lia|replace (i - 156 <? i)%nat with true by (symmetry; apply Nat.ltb_lt; lia); f_equal; lia]
         |apply (fold_mixed base (fun x i => twist_at x i (i + 1) (i + 156)) 156 0); [|exact H]; intros i y Hi (Hl & Hy); apply twist_step; try lia; [split; assumption| |]; rewrite Hy by lia;
          [replace (i + 1 <? i)%nat with false by (symmetry; apply Nat.ltb_ge; lia); f_equal; lia|replace (i + 156 <? i)%nat with false by (symmetry; apply Nat.ltb_ge; lia); f_equal; lia]]).
      rewrite Hx2 by lia. cbn [Nat.ltb Nat.leb]. f_equal. lia.
  Qed.
  Lemma seed_at n : forall i p, (0 < i)%nat -> (i + n <= 312)%nat -> p = w (i - 1)%nat -> forall j, (j < n)%nat -> nth j (seed_words n (Z.of_nat i) p) 0 = w (i + j)%nat.
  Proof.
    induction n as [|n IH]; intros i p Hi Hn -> j Hj; [lia|]. cbn [seed_words]. destruct Hw as (_ & H1 & _).
    assert (uint64 (6364136223846793005 * Z.lxor (w (i - 1)%nat) (Z.shiftr (w (i - 1)%nat) 62) + Z.of_nat i) = w i) as E by (rewrite (H1 i) by lia; rewrite Z.shiftr_div_pow2 by lia; reflexivity).
    rewrite E. destruct j as [|j]; [cbn [nth]; f_equal; lia|]. cbn [nth]. replace (Z.of_nat i + 1) with (Z.of_nat (S i)) by lia. rewrite (IH (S i)); [f_equal; lia|lia|lia|f_equal; lia|lia].
  Qed.
  Lemma mixed_cons u l : length l = 311%nat -> u = w 0%nat -> (forall j, (j < 311)%nat -> nth j l 0 = w (1 + j)%nat) -> mixed 0 0 (u :: l).
  Proof. intros Hl Hu Hj. split; [cbn [length]; rewrite Hl; reflexivity|]. intros [|j] H; unfold word_at; cbn [nth Nat.ltb Nat.leb]; [exact Hu|]. rewrite Hj by lia. reflexivity. Qed.
  (** after k calls: the block of words in the state, and the place in it *)
  Lemma after_state : forall k, exists b, mixed (312 * b) 0 (mt_state (after k (mt_seed seed))) /\ (mt_index (after k (mt_seed seed)) <= 312)%nat /\ (312 * b + mt_index (after k (mt_seed seed)) = 312 + k)%nat.
  Proof.
    assert (forall k g, after (S k) g = snd (mt_uint64 (after k g))) as Hs. { induction k as [|k IH]; intros g; [reflexivity|]. cbn [after] in *. rewrite <- IH. reflexivity. }
    induction k as [|k (b & IH & Hi & Hk)].
    - exists 0%nat. cbn [after]. rewrite mt_state_seed, mt_index_seed. split; [|split; lia]. apply mixed_cons; [apply seed_words_ok|symmetry; apply Hw|]. apply (seed_at 311 1 (uint64 seed)); [lia|lia|symmetry; apply Hw].
    - rewrite Hs. set (g := after k (mt_seed seed)) in *. unfold mt_uint64. destruct (312 <=? mt_index g)%nat eqn:E; cbn [snd mt_state mt_index].
      + apply Nat.leb_le in E. exists (S b). split; [|split; lia]. pose proof (twist_block _ _ IH) as (Hl & Ht). split; [exact Hl|]. intros j Hj. rewrite Ht by exact Hj. cbn [Nat.ltb Nat.leb].
        replace (j <=? 311)%nat with true by (symmetry; apply Nat.leb_le; lia). f_equal. lia.
      + apply Nat.leb_gt in E. exists b. split; [exact IH|]. split; lia.
  Qed.
  Lemma output : forall k, fst (mt_uint64 (after k (mt_seed seed))) = temper (w (312 + k)%nat).
  Proof.
    intros k. destruct (after_state k) as (b & Hm & Hi & Hk). set (g := after k (mt_seed seed)) in *. clearbody g. unfold mt_uint64. destruct (312 <=? mt_index g)%nat eqn:E; cbn [fst mt_state mt_index].
    - apply Nat.leb_le in E. destruct (twist_block _ _ Hm) as (_ & Ht). rewrite Ht by lia. cbn [Nat.ltb Nat.leb]. do 2 f_equal. lia.
    - apply Nat.leb_gt in E. destruct Hm as (_ & Hm). rewrite Hm by lia. cbn [Nat.ltb Nat.leb]. do 2 f_equal. lia.
  Qed.
End Sequence.
Lemma temper_tempered x : temper x = tempered x.
Proof.
  unfold temper, tempered. cbv zeta. rewrite !Z.shiftr_div_pow2, !Z.shiftl_mul_pow2 by lia. reflexivity.
Qed.
(** the sequence exists: the next 312 words *)
Definition next_word (x : list Z) : Z := Z.lxor (word_at x 156) (times_a (high (word_at x 0) + low (word_at x 1))).
Fixpoint window (seed : Z) (k : nat) : list Z := match k with O => mt_state (mt_seed seed) | S k' => tl (window seed k') ++ [next_word (window seed k')] end.
Definition word (seed : Z) (k : nat) : Z := word_at (window seed k) 0.
Lemma window_length seed k : length (window seed k) = 312%nat.
Proof.
  induction k as [|k IH]; [cbn [window]; rewrite mt_state_seed; cbn [length]; rewrite (proj1 (seed_words_ok 311 1 (uint64 seed))); reflexivity|]. cbn [window]. rewrite app_length. destruct (window seed k); cbn [length tl] in *; lia.
Qed.
Lemma window_next seed k i : (i < 311)%nat -> word_at (window seed (S k)) i = word_at (window seed k) (S i).
Proof.
  intros Hi. cbn [window]. pose proof (window_length seed k) as Hl. destruct (window seed k) as [|x l]; [discriminate|]. cbn [tl]. unfold word_at. cbn [nth length] in *. rewrite app_nth1 by lia. reflexivity.
Qed.
Lemma window_last seed k : word_at (window seed (S k)) 311 = next_word (window seed k).
Proof.
  cbn [window]. pose proof (window_length seed k) as Hl. destruct (window seed k) as [|x l]; [discriminate|]. cbn [tl length] in *. unfold word_at. rewrite app_nth2 by lia. replace (311 - length l)%nat with 0%nat by lia. reflexivity.
Qed.
Lemma window_word seed : forall i k, (i < 312)%nat -> word_at (window seed k) i = word seed (k + i).
Proof.
  induction i as [|i IH]; intros k Hi; [rewrite Nat.add_0_r; reflexivity|]. rewrite <- window_next by lia. rewrite IH by lia. f_equal. lia.
Qed.
Lemma seed_next n : forall i p j, (S j < n)%nat -> nth (S j) (seed_words n i p) 0 = uint64 (6364136223846793005 * Z.lxor (nth j (seed_words n i p) 0) (Z.shiftr (nth j (seed_words n i p) 0) 62) + (i + Z.of_nat j + 1)).
Proof.
  induction n as [|n IH]; intros i p j Hj; [lia|]. destruct n as [|n]; [lia|]. destruct j as [|j].
  - cbn [seed_words nth]. do 2 f_equal. lia.
  - assert (forall m a q, seed_words (S m) a q = uint64 (6364136223846793005 * Z.lxor q (Z.shiftr q 62) + a) :: seed_words m (a + 1) (uint64 (6364136223846793005 * Z.lxor q (Z.shiftr q 62) + a))) as Hc by reflexivity.
    rewrite (Hc (S n)). generalize (uint64 (6364136223846793005 * Z.lxor p (Z.shiftr p 62) + i)). intros q. cbn [nth]. rewrite (IH (i + 1) q j) by lia. do 2 f_equal. lia.
Qed.
Lemma word_sequence seed : mt_sequence seed (word seed).
Proof.
  split; [reflexivity|]. split.
  - intros i Hi. change (word seed i) with (word seed (0 + i)). change (word seed (i - 1)) with (word seed (0 + (i - 1))). rewrite <- !window_word by lia. change (window seed 0) with (mt_state (mt_seed seed)). rewrite mt_state_seed. unfold word_at.
    pose proof (seed_next 311 1 (uint64 seed)) as Hn. assert (nth 0 (seed_words 311 1 (uint64 seed)) 0 = uint64 (6364136223846793005 * Z.lxor (uint64 seed) (Z.shiftr (uint64 seed) 62) + 1)) as H1 by reflexivity. revert H1 Hn. generalize (seed_words 311 1 (uint64 seed)). intros l H1 Hn.
    destruct i as [|i]; [lia|]. replace (S i - 1)%nat with i by lia. cbn [nth]. destruct i as [|i].
    + rewrite H1, Z.shiftr_div_pow2 by lia. reflexivity.
    + rewrite Hn by lia. rewrite Z.shiftr_div_pow2 by lia. unfold uint64. change two64 with (2 ^ 64). f_equal. f_equal. lia.
  - intros k. rewrite <- (window_word seed 156 k), <- (window_word seed 1 k) by lia. replace (word seed k) with (word_at (window seed k) 0) by reflexivity. change (Z.lxor _ _) with (next_word (window seed k)). rewrite <- window_last. rewrite window_word by lia. f_equal. lia.
Qed.
(** C77: the k-th number of the seeded generator is the tempered word 312 + k of the published sequence, which exists and is determined by the seed. *)
Theorem C77_sequence seed : (exists w, mt_sequence seed w) /\ forall w, mt_sequence seed w -> forall k, fst (mt_uint64 (after k (mt_seed seed))) = tempered (w (312 + k)%nat).
Proof. split; [exists (word seed); apply word_sequence|]. intros w Hw k. rewrite (output seed w Hw), temper_tempered. reflexivity. Qed.
Print Assumptions C77_sequence.
(** C77: Seed() gives back the seed, also after dice were taken; the dice depend on the seed only; and they cannot be specified. *)
Theorem C77_seed seed : forall tries sides f, fold_left (fun f s => match f with Some f => match mf_next tries f s with Some (_, f') => Some f' | None => None end | None => None end) sides (Some (new_mt19937 seed)) = Some f ->
  mf_seed f = seed /\ mf_can_specify_die f = false.
Proof.
  intros tries sides f H. split; [|reflexivity]. assert (mf_seed (new_mt19937 seed) = seed) as H0 by reflexivity. revert H H0. generalize (new_mt19937 seed). induction sides as [|s sides IH]; intros f0 H H0; cbn [fold_left] in H.
  - injection H as <-. exact H0.
  - unfold mf_next at 2 in H. destruct (rand_next mt_int63 tries (mf_rng f0) s) as [[o g]|]; [apply (IH _ H); exact H0|]. exfalso. clear - H. induction sides as [|s' sides IH]; [discriminate|]. cbn [fold_left] in H. auto.
Qed.
Print Assumptions C77_seed.
(** 2D6 on seed 1 shows 4 and 1, then 1D6 shows 2; 8589934592 of the 2^63 numbers are rejected for 1D6. *)
Example C77_example : exists r1 r2 g, rand_session mt_int63 8 basic_bot ["2D6"; "1D6"]%string (mt_seed 1) = Some ([Ok r1; Ok r2], g) /\ r_dice r1 = [Die 4 6; Die 1 6] /\ r_dice r2 = [Die 2 6] /\
  share 6 = 1537228671377473536 /\ 2 ^ 63 - 6 * share 6 = 8589934592.
Proof. eexists _, _, _. split; [vm_compute; reflexivity|]. vm_compute. repeat split; reflexivity. Qed.
