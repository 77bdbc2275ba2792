(** Property C90: how long an answer can be. *)
From Coq Require Import DecimalPos DecimalFacts.
From Verif Require Import Grammar GoBase ProofBase Utf8 Quote SpecText Dice SpecDice DiceProofs Comp Ast Eval Notation Command BCDice BCDiceProofs SpecFiles FileProofs NumberText
  SpecSyntax SpecArith ArithProofs SpecRoll SpecLists SpecGrammar TextFacts PegProofs GrammarSound PegTotal PegForward ParseSound ParseComplete ParseFacts DecodeProofs ParseText DRollProofs SpecMessage ExecProofs EchoProofs YieldsProofs Prop_message Prop_droll.
Open Scope list_scope.
Open Scope Z_scope.
Notation len := String.length.

(** ** Numbers: at most twenty characters *)
Lemma horner_ge l : forall z, 0 <= z -> Forall digit l -> z * 10 ^ Z.of_nat (length l) <= horner z l.
Proof.
  unfold horner. induction l as [|a l IH]; intros z Hz H; [cbn; lia|]. inversion H as [|? ? Ha Hl]; subst. cbn [fold_left length]. rewrite Nat2Z.inj_succ, Z.pow_succ_r by lia. unfold digit in Ha.
  eapply Z.le_trans; [|apply IH; [lia|exact Hl]]. replace (z * (10 * 10 ^ Z.of_nat (length l))) with (10 * z * 10 ^ Z.of_nat (length l)) by ring. apply Z.mul_le_mono_nonneg_r; [apply Z.pow_nonneg; lia|lia].
Qed.
Lemma las_length s : length (list_ascii_of_string s) = len s.
Proof. induction s; cbn; congruence. Qed.
Lemma pos_length p n : (0 < n)%nat -> Zpos p < 10 ^ Z.of_nat n -> (len (itoa (Zpos p)) <= n)%nat.
Proof.
  intros Hn H. rewrite itoa_pos. pose proof (horner_uint (Pos.to_uint p)) as E. rewrite Unsigned.of_to in E.
  assert (Decimal.unorm (Pos.to_uint p) = Pos.to_uint p) as K. { rewrite <- Unsigned.to_of, Unsigned.of_to. reflexivity. }
  assert (forall d', Pos.to_uint p <> Decimal.D0 d') as N0.
  { intros d' Ed. rewrite Ed in K. rewrite unorm_D0 in K. unfold Decimal.unorm in K. destruct (Decimal.nzhead d') eqn:Z0; try discriminate K.
    - injection K as <-. rewrite Ed in E. vm_compute in E. discriminate E.
    - exact (nzhead_nonzero _ _ Z0). }
  set (d := Pos.to_uint p) in *. clearbody d. rewrite <- las_length. pose proof (uint_digits d) as F.
  destruct (le_lt_dec (length (list_ascii_of_string (uint_string d))) n) as [L|L]; [exact L|]. exfalso.
  destruct (list_ascii_of_string (uint_string d)) as [|a l] eqn:El; [cbn in L; lia|]. inversion F as [|? ? Fa Fl]; subst. unfold horner in E. cbn [fold_left] in E. fold (horner (10 * 0 + (byte_val a - 48)) l) in E.
  assert (1 <= byte_val a - 48) as Ha. { unfold digit in Fa. destruct d; cbn [uint_string list_ascii_of_string] in El; try discriminate El; injection El as <- _; try (vm_compute; discriminate). destruct (N0 d). reflexivity. }
  pose proof (horner_ge l (10 * 0 + (byte_val a - 48)) ltac:(lia) Fl) as G. rewrite E in G. cbn [length] in L. change (Z.of_N (N.pos p)) with (Zpos p) in G.
  assert (10 ^ Z.of_nat n <= 10 ^ Z.of_nat (length l)) as P by (apply Z.pow_le_mono_r; lia). assert (0 < 10 ^ Z.of_nat (length l)) by (apply Z.pow_pos_nonneg; lia). nia.
Qed.
Lemma itoa_20 v : in_int64 v -> (len (itoa v) <= 20)%nat.
Proof.
  unfold in_int64, min_int, max_int, two63. intros H. destruct v as [|p|p]; [vm_compute; lia| |].
  - pose proof (pos_length p 19 ltac:(lia) ltac:(change (10 ^ Z.of_nat 19) with 10000000000000000000; lia)). lia.
  - rewrite itoa_neg. cbn [String.length]. pose proof (pos_length p 19 ltac:(lia) ltac:(change (10 ^ Z.of_nat 19) with 10000000000000000000; lia)). lia.
Qed.
(** ** Texts put together *)
Open Scope nat_scope.
Fixpoint total {A} (f : A -> nat) (l : list A) : nat := match l with [] => 0 | x :: l => f x + total f l end.
Lemma total_app {A} (f : A -> nat) a b : total f (a ++ b) = total f a + total f b.
Proof. induction a; cbn; lia. Qed.
Lemma total_le {A} (f g : A -> nat) l : Forall (fun x => f x <= g x) l -> total f l <= total g l.
Proof. induction 1; cbn; lia. Qed.
Lemma total_map {A B} (h : A -> B) (f : B -> nat) l : total f (map h l) = total (fun x => f (h x)) l.
Proof. induction l; cbn; lia. Qed.
Lemma total_const {A} k (l : list A) : total (fun _ => k) l = k * length l.
Proof. induction l; cbn [total length]; lia. Qed.
Lemma length_concat {A} (l : list (list A)) : length (concat l) = total (@length A) l.
Proof. induction l as [|x l IH]; [reflexivity|]. cbn [concat total]. rewrite app_length, IH. reflexivity. Qed.
Lemma join_length sep l : len (join sep l) <= total (fun s => len s + len sep) l.
Proof.
  induction l as [|x l IH]; [cbn; lia|]. destruct l as [|y l]; [cbn [join total]; lia|]. rewrite join_cons by discriminate. rewrite !length_append. cbn [total] in *. lia.
Qed.
(** a separator less *)
Lemma join_length1 sep l : l <> [] -> len (join sep l) + len sep <= total (fun s => len s + len sep) l.
Proof.
  induction l as [|x l IH]; [congruence|intros _]. destruct l as [|y l]; [cbn [join total]; lia|]. rewrite join_cons by discriminate. rewrite !length_append. specialize (IH ltac:(discriminate)). cbn [total] in *. lia.
Qed.
(** Expressions: what the leaves take, and the signs and parentheses *)
Fixpoint shown {L} (w : L -> nat) (e : ae L) : nat := match e with Leaf l => w l | Neg e => 3 + shown w e | Bin _ a b => 6 + shown w a + shown w b end.
Fixpoint typed {L} (w : L -> nat) (e : ae L) : nat := match e with Leaf l => w l | Neg e => 1 + typed w e | Bin _ a b => 1 + typed w a + typed w b end.
Lemma put_length op a b : len (put op a b) <= 2 + len a + len b.
Proof. destruct op as [| | |[]]; cbn [put]; rewrite ?length_append; cbn [String.length]; lia. Qed.
Lemma parens_length s : len (in_parens s) = 2 + len s.
Proof. unfold in_parens. rewrite !length_append. cbn [String.length]. lia. Qed.
Lemma show_length {L} (word : L -> string) (w : L -> nat) e : forall b, all_leaves (fun l => len (word l) <= w l) e -> len (show word b e) <= shown w e.
Proof.
  induction e as [l|e IH|op a IHa c IHc]; intros b; cbn [show shown all_leaves].
  - tauto.
  - intros H. rewrite length_append. cbn [String.length]. destruct e as [l|e|op a c]; [cbn [shown all_leaves] in *; lia|rewrite parens_length; specialize (IH true H); lia..].
  - intros (Ha & Hc). etransitivity; [apply put_length|].
    assert (forall x s, s <= shown w a -> len x <= s -> len (in_parens x) <= 2 + shown w a) as PA by (intros; rewrite parens_length; lia).
    assert (forall x s, s <= shown w c -> len x <= s -> len (in_parens x) <= 2 + shown w c) as PC by (intros; rewrite parens_length; lia).
    assert (forall (t : bool) x y k, len x <= k -> len y <= k -> len (if t then x else y) <= k) as PI by (intros []; auto).
    assert (forall x k, len x <= k -> len (in_parens x) <= 2 + k) as PP by (intros; rewrite parens_length; lia).
    match goal with |- 2 + len ?x + len ?y <= _ => assert (len x <= 2 + shown w a); [|assert (len y <= 2 + shown w c); [|lia]] end.
    + destruct a; [cbn [all_leaves shown] in *; lia| |]; apply PI; try (apply PP); (etransitivity; [apply IHa; exact Ha|lia]) || apply IHa, Ha.
    + destruct c; [cbn [all_leaves shown] in *; lia| |]; try apply PI; try (apply PP); (etransitivity; [apply IHc; exact Hc|lia]) || apply IHc, Hc.
Qed.
Lemma word_length w t : word w t -> length t = len w.
Proof. unfold word. intros H. rewrite <- (map_length gc_rune t), H. clear. induction w; cbn; congruence. Qed.
Lemma word_i_length w t : word_i w t -> length t = len w.
Proof. unfold word_i. intros H. rewrite <- (map_length (fun c => small_letter (gc_rune c)) t), H. clear. induction w; cbn; congruence. Qed.
Ltac wl := repeat match goal with H : word _ _ |- _ => apply word_length in H; cbn [String.length] in H | H : word_i _ _ |- _ => apply word_i_length in H; cbn [String.length] in H end; rewrite ?app_length in *.
Lemma typed_length {L} (leaf : L -> text -> Prop) (w : L -> nat) : (forall l t, leaf l t -> w l <= length t) -> forall e t, sp_add leaf e t -> typed w e <= length t.
Proof.
  intros H. apply (sp_arith_mut L leaf (fun e t => typed w e <= length t) (fun e t => typed w e <= length t) (fun e t => typed w e <= length t));
    intros; cbn [typed]; wl; auto; lia.
Qed.
Lemma shown_typed {L M} (w : L -> nat) (w' : M -> nat) (k : nat) (lf : M -> list die -> L -> Prop) : 6 <= k -> (forall l ds m, lf m ds l -> w l <= k * w' m) -> forall e ds e', visit lf e ds e' -> shown w e' <= k * typed w' e.
Proof. intros Hk H. induction 1; cbn [shown typed]; [eauto|lia|lia]. Qed.
Lemma shown_int k (e : iexpr) : 6 <= k -> shown (fun _ => k) e <= k * typed (fun _ => 1) e.
Proof. intros Hk. induction e; cbn [shown typed]; lia. Qed.
(** ** The words of a message *)
Definition fit (ds : list die) : Prop := Forall (fun d => in_int64 (die_value d)) ds.
Lemma values_length ds : fit ds -> len (values_word ds) <= 21 * length ds.
Proof.
  intros H. unfold values_word, values. etransitivity; [apply join_length|]. rewrite map_map, total_map, <- total_const. apply total_le. eapply Forall_impl; [|exact H]. intros d Hd. pose proof (itoa_20 _ Hd). cbn [String.length]. lia.
Qed.
Lemma values_length1 ds : fit ds -> ds <> [] -> len (values_word ds) + 1 <= 21 * length ds.
Proof.
  intros H Hn. unfold values_word, values. etransitivity; [apply (join_length1 ",")|].
  - destruct ds; [congruence|discriminate].
  - rewrite map_map, total_map, <- total_const. apply total_le. eapply Forall_impl; [|exact H]. intros d Hd. pose proof (itoa_20 _ Hd). cbn [String.length]. lia.
Qed.
Lemma fit_concat gs : fit (concat gs) -> Forall fit gs.
Proof. unfold fit. induction gs as [|g gs IH]; intros H; [constructor|]. cbn [concat] in H. apply Forall_app in H as (H1 & H2). constructor; auto. Qed.
Lemma rolls_length letter ps : len letter = 1 -> Forall (fun p => in_int64 (fst p) /\ in_int64 (snd p)) ps -> len (rolls_words letter ps) <= 42 * length ps.
Proof.
  intros Hl H. unfold rolls_words. etransitivity; [apply join_length|]. rewrite total_map, <- total_const. apply total_le. eapply Forall_impl; [|exact H]. intros p (H1 & H2). unfold roll_word. rewrite !length_append, Hl.
  pose proof (itoa_20 _ H1). pose proof (itoa_20 _ H2). cbn [String.length]. lia.
Qed.
Lemma groups_length gs : Forall (fun g => g <> []) gs -> fit (concat gs) -> len (join " + " (map values_word gs)) <= 32 * length (concat gs).
Proof.
  intros Hn H. apply fit_concat in H. etransitivity; [apply join_length|]. rewrite total_map, length_concat. induction gs as [|g gs IH]; [cbn; lia|]. inversion Hn; inversion H; subst. cbn [total]. specialize (IH ltac:(assumption) ltac:(assumption)).
  pose proof (values_length1 g ltac:(assumption) ltac:(assumption)). cbn [String.length] in *. destruct g; [congruence|]. cbn [length] in *. lia.
Qed.
Lemma chains_length gs : Forall (fun g => g <> []) gs -> fit (concat gs) -> len (join "," (map group_word gs)) <= 32 * length (concat gs).
Proof.
  intros Hn H. apply fit_concat in H. etransitivity; [apply join_length|]. rewrite total_map, length_concat. induction gs as [|g gs IH]; [cbn; lia|]. inversion Hn; inversion H; subst. cbn [total]. specialize (IH ltac:(assumption) ltac:(assumption)).
  assert (len (group_word g) + 1 <= 32 * length g); [|cbn [String.length] in *; lia]. pose proof (values_length1 g ltac:(assumption) ltac:(assumption)) as V. unfold group_word. rewrite length_append.
  assert (in_int64 (group_sum g)) as R by apply wrap64_range. apply itoa_20 in R. destruct (1 <? Z.of_nat (length g))%Z eqn:E; [rewrite !length_append|]; cbn [String.length].
  - lia.
  - destruct g; [congruence|]. cbn [length]. lia.
Qed.
Lemma chains_count {A} (gs : list (list A)) : Forall (fun g => g <> []) gs -> length gs <= length (concat gs).
Proof. rewrite length_concat. induction 1 as [|g gs Hg _ IH]; [cbn; lia|]. destruct g; [congruence|]. cbn [total length] in *. lia. Qed.
Lemma rolled_nonempty x y g : rolled x y g -> g <> [].
Proof. intros (H & _ & E & _) ->. cbn in E. lia. Qed.
Lemma rerolls_nonempty t n q gs : rerolls t n q gs -> Forall (fun g => g <> []) gs.
Proof. induction 1; constructor; eauto using rolled_nonempty. Qed.
Lemma chain_nonempty t y n g : chain t y n g -> g <> [].
Proof. intros (_ & i & l & -> & _). destruct i; discriminate. Qed.
Lemma chains_nonempty t n ps groups : chains_each t n ps groups -> Forall (fun g => g <> []) (concat groups).
Proof.
  induction 1 as [|p gs ps groups (_ & _ & _ & H) _ IH]; [constructor|]. cbn [concat]. apply Forall_app. split; [|exact IH]. eapply Forall_impl; [|exact H]. intros g. apply chain_nonempty.
Qed.
Lemma modifier_length m : in_int64 m -> len (modifier_word m) <= 21.
Proof. intros H. apply itoa_20 in H. unfold modifier_word. destruct (m =? 0)%Z; [cbn; lia|]. destruct (0 <? m)%Z; rewrite ?length_append; cbn [String.length]; lia. Qed.
Lemma bonus_length m : in_int64 m -> len (bonus_word m) <= 21.
Proof.
  intros H. apply itoa_20 in H. assert (in_int64 (wrap64 (- m))) as K by apply wrap64_range. apply itoa_20 in K. unfold bonus_word. destruct (m =? 0)%Z; [cbn; lia|]. destruct (0 <? m)%Z; rewrite ?length_append; cbn [String.length]; lia.
Qed.
Lemma bonus_range b m : bonus_ok b -> bonus_value b m -> in_int64 m.
Proof.
  destruct b as [([|], e)|]; cbn; intros H.
  - apply has_value_range, H.
  - intros (v & _ & ->). apply wrap64_range.
  - intros ->. split; vm_compute; discriminate.
Qed.
Lemma hint_length k t h : len k <= 87 -> hint k t = Some h -> len h <= 87.
Proof. intros Hk. destruct t as [v|]; cbn [hint]; [destruct (v <? 2)%Z; [|discriminate]|]; intros [= <-]; [vm_compute; lia|exact Hk]. Qed.
Lemma op_length op : is_compare_op op -> len op <= 2.
Proof. unfold is_compare_op. cbn. intuition subst; cbn; lia. Qed.
Lemma rolls_range r rs ops ps letter : len letter = 1 -> Forall roll_ok (r :: rs) -> settle_rolls (r :: rs) ops ps -> len (rolls_words letter ps) <= 42 * S (length rs).
Proof. intros Hl Hok H. pose proof (settle_length _ _ _ H) as E. cbn [length] in E. rewrite <- E. apply rolls_length; [exact Hl|]. eapply settle_range; eassumption. Qed.
Lemma count_length k : len (itoa (Z.of_nat k)) <= 1 + k.
Proof.
  destruct k as [|k]; [vm_compute; lia|]. change (Z.of_nat (S k)) with (Zpos (Pos.of_succ_nat k)). etransitivity; [apply (pos_length _ (S k)); [lia|]|lia]. change (Zpos (Pos.of_succ_nat k)) with (Z.of_nat (S k)). apply Z.pow_gt_lin_r; lia.
Qed.
Lemma matching_length op w vs : len (itoa (matching op w vs)) <= 1 + length vs.
Proof. unfold matching. etransitivity; [apply count_length|]. apply le_n_S. clear. induction vs as [|v vs IH]; [cbn; lia|]. cbn [filter length]. destruct (compareb op v w); cbn [length]; lia. Qed.

(** ** What was typed *)
Lemma number_typed v t : sp_number v t -> 1 <= length t.
Proof. intros (H & _). destruct t; [congruence|cbn; lia]. Qed.
Lemma random_typed lo hi t : sp_random lo hi t -> 3 <= length t.
Proof. inversion 1; subst. wl. lia. Qed.
Lemma operand_typed n t : sp_operand n t -> 1 <= length t.
Proof.
  destruct 1 as [[v|lo hi] t H|e o t c H1 H2 H3]; cbn [sp_rleaf] in *.
  - eapply number_typed; eassumption.
  - apply random_typed in H. lia.
  - wl. lia.
Qed.
Lemma roll_typed letter r t : len letter = 1 -> sp_roll letter r t -> 3 <= length t.
Proof. intros Hl. destruct 1 as [n s t u v H1 H2 H3]. apply operand_typed in H1. apply operand_typed in H3. apply word_i_length in H2. rewrite !app_length. lia. Qed.
Lemma rolls_typed letter rs t : len letter = 1 -> sp_rolls letter rs t -> 3 * length rs <= length t.
Proof. intros Hl. induction 1 as [|r rs o t u H1 H2 H3 IH]; [cbn; lia|]. apply (roll_typed _ _ _ Hl) in H2. wl. cbn [length]. lia. Qed.
Definition dtyped (l : dleaf) : nat := match l with DInt _ => 1 | _ => 3 end.
Lemma d_typed e t : sp_dexpr e t -> typed dtyped e <= length t.
Proof.
  apply typed_length. intros [v|lo hi|n s] u; cbn [sp_dleaf dtyped].
  - apply number_typed.
  - apply random_typed.
  - apply roll_typed. reflexivity.
Qed.
Lemma random_typed3 e : has_random e -> 3 <= typed dtyped e.
Proof.
  intros (l & Hp & Hl). assert (3 <= typed dtyped (Leaf l)) as H by (destruct l; cbn in *; [contradiction|lia|lia]). clear Hl. remember (Leaf l) as q eqn:E. clear E. induction Hp; cbn [typed] in *; auto; lia.
Qed.
Lemma int_typed e t : sp_int e t -> typed (fun _ => 1) e <= length t.
Proof. apply typed_length. intros v u. apply number_typed. Qed.

Lemma target_typed op e t : sp_target op e t -> 2 <= length t.
Proof.
  destruct 1 as [op e o t Hop Ho He]. apply int_typed in He. wl. assert (1 <= len op) by (unfold is_compare_op in Hop; cbn in Hop; intuition subst; cbn; lia). assert (1 <= typed (fun _ => 1) e) by (clear; induction e; cbn [typed]; lia). lia.
Qed.
Lemma threshold_typed e t : sp_threshold (Some e) t -> 3 <= length t.
Proof. inversion 1; subst. match goal with H : sp_int _ _ |- _ => apply int_typed in H end. wl. assert (1 <= typed (fun _ => 1) e) by (clear; induction e; cbn [typed]; lia). lia. Qed.

Lemma threshold_length th t u : th_ok th -> sp_threshold th u -> threshold_value th t -> len (threshold_word t) <= 8 * length u.
Proof.
  intros Hok Hs. destruct th as [e|], t as [v|]; cbn [th_ok threshold_value threshold_word] in *; try contradiction; intros Hv; [|cbn; lia]. apply (has_value_range _ _ Hok), itoa_20 in Hv. apply threshold_typed in Hs. rewrite !length_append. cbn [String.length]. lia.
Qed.
Lemma bonus_typed b m u : bonus_ok b -> sp_bonus b u -> bonus_value b m -> len (bonus_word m) <= 21 * length u /\ len (modifier_word m) <= 21.
Proof.
  intros Hok Hs Hv. pose proof (bonus_range _ _ Hok Hv) as R. split; [|apply modifier_length, R]. apply bonus_length in R. destruct Hs as [|e o t Ho He|e o t Ho He]; [cbn in Hv; subst m; vm_compute; lia| |]; apply word_length in Ho; cbn [String.length] in Ho; rewrite app_length; lia.
Qed.
(** ** Sum rolls *)
Definition mshown (m : mleaf) : nat := match m with MInt _ => 20 | MDice _ _ => 41 end.
Definition sshown (s : sleaf) : nat := match s with SInt _ => 20 | SRoll ds => 22 + 21 * length ds end.
Lemma mid_length e ops mid b : dok e -> visit settle_operands e ops mid -> len (show mword b mid) <= 20 * typed dtyped e.
Proof.
  intros Hok H. etransitivity; [apply (show_length mword mshown)|].
  - refine (visit_leaves_ok settle_operands dleaf_ok _ _ _ _ _ H Hok). intros [v|lo hi|n s] ds [w|x y]; cbn [settle_operands dleaf_ok mword mshown]; try contradiction.
    + intros (_ & ->). apply itoa_20.
    + intros (d1 & d2 & _ & H1 & H2) (Hn & Hs). apply operand_range, itoa_20 in H1; [|exact Hn]. apply operand_range, itoa_20 in H2; [|exact Hs]. rewrite !length_append. cbn [String.length]. lia.
  - eapply shown_typed; [lia| |exact H]. intros [w|x y] ds [v|lo hi|n s]; cbn [settle_operands dtyped mshown]; try contradiction; lia.
Qed.
Lemma mid_leaves e ops mid : dok e -> visit settle_operands e ops mid -> all_leaves (fun m => match m with MInt v => in_int64 v | MDice _ _ => True end) mid /\ shown mshown mid <= 20 * typed dtyped e.
Proof.
  intros Hok H. split.
  - refine (visit_leaves_ok settle_operands dleaf_ok _ _ _ _ _ H Hok). intros [v|lo hi|n s] ds [w|x y]; cbn [settle_operands dleaf_ok]; try contradiction; [|tauto]. intros (_ & ->). tauto.
  - eapply shown_typed; [lia| |exact H]. intros [w|x y] ds [v|lo hi|n s]; cbn [settle_operands dtyped mshown]; try contradiction; lia.
Qed.
Lemma fin_leaves mid rolls fin : visit roll_leaf mid rolls fin -> fit rolls -> all_leaves (fun m => match m with MInt v => in_int64 v | MDice _ _ => True end) mid ->
  all_leaves (fun s => len (sword s) <= sshown s) fin /\ shown sshown fin <= shown mshown mid + 21 * length rolls.
Proof.
  induction 1 as [[v|x y] ds [w|rs] H|e ds e' H IH|op a b d1 d2 a' b' H1 IH1 H2 IH2]; cbn [all_leaves shown]; intros Hf Hl; cbn [roll_leaf] in *; try contradiction.
  - destruct H as (-> & ->). cbn [sword sshown mshown]. apply itoa_20 in Hl. lia.
  - destruct H as (-> & H). cbn [sword sshown mshown]. rewrite !length_append. cbn [String.length]. pose proof (values_length _ Hf). assert (in_int64 (group_sum ds)) as R by apply wrap64_range. apply itoa_20 in R. lia.
  - destruct (IH Hf Hl). split; [assumption|lia].
  - apply Forall_app in Hf as (F1 & F2). destruct Hl as (L1 & L2). destruct (IH1 F1 L1). destruct (IH2 F2 L2). rewrite app_length. split; [tauto|lia].
Qed.
Lemma d_length e ops rolls mid fin v b b' : dok e -> d_value e ops rolls mid fin v -> fit rolls ->
  len (show mword b mid) + len (show sword b' fin) <= 40 * typed dtyped e + 21 * length rolls /\ len (itoa v) <= 20.
Proof.
  intros Hok (H1 & H2 & H3) Hf. pose proof (mid_length _ _ _ b Hok H1). destruct (mid_leaves _ _ _ Hok H1) as (Hl & Hm). destruct (fin_leaves _ _ _ H2 Hf Hl) as (K1 & K2). pose proof (show_length sword sshown fin b' K1). split; [lia|].
  apply itoa_20. eapply has_value_range; [|exact H3]. clear - H2 Hl. unfold iok. induction H2 as [[u|x y] ds [w|rs] H|e ds e' H IH|op a b d1 d2 a' b' H1 IH1 H2 IH2]; cbn [ae_map all_leaves] in *; cbn [roll_leaf] in *; try contradiction; auto.
  - destruct H as (_ & ->). exact Hl.
  - apply wrap64_range.
  - destruct Hl. split; auto.
Qed.

Lemma max_length gs m s : max_and_total gs m s -> len s <= 59.
Proof. intros (mx & _ & ->). rewrite !length_append. match goal with |- len (itoa ?a) + (_ + (len (itoa ?b) + _)) <= _ => assert (in_int64 a) as A by apply wrap64_range; assert (in_int64 b) as B by apply wrap64_range end. apply itoa_20 in A, B. cbn [String.length]. lia. Qed.
(** ** Items of a choice *)
Lemma raw_length t : Forall decoded t -> len (raw_text t) <= 4 * length t.
Proof.
  induction 1 as [|c t (s & s' & E) H IH]; [cbn; lia|]. cbn [raw_text length]. rewrite length_append. assert (len (gc_raw c) <= 4); [|lia]. clear - E. destruct s as [|a s]; [discriminate E|].
  revert E. cbn [first_char]. cbv zeta. split_chars; intros [= <- <-]; cbn; lia.
Qed.
Lemma item_length s t : sp_item s t -> Forall decoded t -> len s <= 4 * length t /\ 1 <= length t.
Proof.
  intros H Hd. apply item_inv in H as (z & t0 & -> & -> & _ & Hn & _). apply Forall_app in Hd as (_ & Hd). rewrite app_length. split; [|destruct t0; [congruence|cbn; lia]].
  destruct (trim_split t0) as (z1 & z2 & E & _ & _). pose proof (f_equal (@length _) E) as El. rewrite !app_length in El. rewrite E in Hd. apply Forall_app in Hd as (_ & Hd). apply Forall_app in Hd as (Hd & _). apply raw_length in Hd. lia.
Qed.
Lemma items_lengths ss t : sp_items ss t -> Forall decoded t -> total (fun s => len s + 1) ss <= 4 * length t /\ Forall (fun s => len s <= 4 * length t) ss.
Proof.
  induction 1 as [|s ss o t u Ho Ht Hu IH]; intros Hd; [split; [cbn; lia|constructor]|]. apply Forall_app in Hd as (_ & Hd). apply Forall_app in Hd as (D1 & D2). destruct (IH D2) as (I1 & I2). destruct (item_length _ _ Ht D1). wl. cbn [total]. split; [lia|].
  constructor; [lia|]. eapply Forall_impl; [|exact I2]. cbn. intros; lia.
Qed.
(** ** Replies *)
Lemma given_length th v w : th_ok th -> in_int64 w -> match th with Some e => has_value e v | None => v = w end -> len (itoa v) <= 20.
Proof. intros H Hw K. apply itoa_20. destruct th; cbn [th_ok] in H; [eapply has_value_range; eassumption|subst v; assumption]. Qed.
Lemma fit_app a b : fit (a ++ b) -> fit a /\ fit b.
Proof. apply Forall_app. Qed.
Ltac ranges := repeat match goal with
  | H : iok ?e, V : has_value ?e ?v |- _ => lazymatch goal with _ : len (itoa v) <= 20 |- _ => fail | _ => pose proof (itoa_20 _ (has_value_range _ _ H V)) end
  end.
Lemma reply_length c t ds parts reported verdict : spells c t -> Forall decoded t -> reply c ds parts reported verdict -> fit reported ->
  total (fun p => len p + 5) parts <= 52 * length t + 33 * length reported + 2.
Proof.
  intros Hs Hd H. pose proof (spells_ok _ _ Hs) as Hok. destruct H; intros Hf; cbn [command_ok] in Hok; repeat match goal with H : _ /\ _ |- _ => destruct H end;
    try (apply fit_app in Hf as (F1 & F2)); cbn [total]; rewrite ?parens_length, ?length_append, ?parens_length, ?app_length; cbn [th_ok] in *; ranges;
    try match goal with H : is_compare_op _ |- _ => apply op_length in H end;
    try match goal with H : settle_rolls _ _ _ |- _ => first [pose proof (rolls_range _ _ _ _ "B" eq_refl ltac:(eassumption) H) | idtac]; pose proof (rolls_range _ _ _ _ "R" eq_refl ltac:(eassumption) H); pose proof (rolls_range _ _ _ _ "U" eq_refl ltac:(eassumption) H) end;
    try match goal with H : hint _ _ = Some _ |- _ => apply hint_length in H; [|vm_compute; lia] end;
    try match goal with H : th_ok ?th, W : iok ?t, T : has_value ?t ?w |- _ => match goal with K : _ |- _ => apply (given_length th _ w H (has_value_range _ _ W T)) in K end end;
    try match goal with |- context [matching ?o ?w ?l] => pose proof (matching_length o w l) end.
  all: inversion Hs; subst.
  all: repeat match goal with
    | H : sp_roll _ _ _ |- _ => apply roll_typed in H; [|reflexivity]
    | H : sp_rolls _ _ _ |- _ => apply rolls_typed in H; [|reflexivity]
    | H : sp_target _ _ _ |- _ => apply target_typed in H
    | H : sp_threshold ?th _, V : threshold_value ?th _ |- _ => apply (threshold_length _ _ _ ltac:(eassumption) H) in V; clear H
    | H : sp_threshold (Some _) _ |- _ => apply threshold_typed in H
    | H : sp_bonus ?b _, V : bonus_value ?b _ |- _ => destruct (bonus_typed _ _ _ ltac:(eassumption) H V); clear H V
    | H : sp_dexpr _ _ |- _ => apply d_typed in H
    | H : sp_int _ _ |- _ => apply int_typed in H
    | H : has_random _ |- _ => apply random_typed3 in H
    | H : rolled_each _ _ |- _ => clear H; pose proof (values_length _ F2)
    | H : rerolls _ _ _ _ |- _ => apply rerolls_nonempty in H; pose proof (groups_length _ H F2); clear H
    | H : chains_each _ _ _ _ |- _ => apply chains_nonempty in H; pose proof (chains_length _ H F2); pose proof (chains_count _ H); clear H
    | H : max_and_total _ _ _ |- _ => apply max_length in H
    | H : d_value _ _ _ _ _ _ |- _ => destruct (d_length _ _ _ _ _ _ true true ltac:(eassumption) H F2); clear H
    end.
  all: unfold values in *; rewrite ?map_length in *.
  all: try (wl; cbn [String.length] in *; lia).
  - pose proof (show_length itoa (fun _ => 20) e true) as K. pose proof (shown_int 20 e ltac:(lia)). assert (len (show itoa true e) <= shown (fun _ => 20) e). { apply K. revert Hok. apply all_leaves_impl. intros l. apply itoa_20. } wl. cbn [String.length] in *. lia.
  - repeat (apply Forall_app in Hd as (? & Hd)). destruct (item_length _ _ ltac:(eassumption) ltac:(eassumption)). destruct (items_lengths _ _ ltac:(eassumption) ltac:(eassumption)) as (I1 & I2).
    pose proof (join_length "," (s :: ss)) as J. cbn [total String.length] in J. assert (len item <= 4 * (length t0 + length u)).
    { apply nth_error_In in H1. destruct H1 as [<-|H1]; [lia|]. rewrite Forall_forall in I2. specialize (I2 _ H1). lia. }
    wl. cbn [String.length length] in *. lia.
Qed.
(** ** From the input to the text that was read *)
Definition repaired (c : gochar) : gochar := if gc_bad c then GoChar rune_error (encode_rune rune_error) else c.
Lemma encode_repaired l : Forall decoded l -> encode_runes l = raw_text (map repaired l) /\ Forall decoded (map repaired l) /\ valid (map repaired l).
Proof.
  assert (forall c, decoded c -> encode_rune (gc_rune c) = gc_raw (repaired c) /\ decoded (repaired c) /\ gc_bad (repaired c) = false) as K.
  { intros c Hc. unfold repaired. destruct (gc_bad c) eqn:B.
    - unfold gc_bad in B. apply andb_prop in B as (B & _). apply Z.eqb_eq in B. rewrite B. split; [reflexivity|]. split; [|reflexivity]. exists (encode_rune rune_error), EmptyString. vm_compute. reflexivity.
    - split; [apply encode_decoded; assumption|]. split; assumption. }
  induction 1 as [|c l Hc H (E & D & V)]; [repeat constructor|]. destruct (K c Hc) as (K1 & K2 & K3). cbn [encode_runes map raw_text]. rewrite E, K1. split; [reflexivity|]. split; constructor; assumption.
Qed.
Lemma secret_chars input : length (decode (fst (check_secret input))) <= length (decode input).
Proof.
  unfold check_secret. pose proof (decode_decoded input) as D. destruct (decode input) as [|c l] eqn:E; [cbn; lia|]. destruct ((gc_rune c =? 83) || (gc_rune c =? 115))%Z; cbn [fst]; [|rewrite E; lia].
  inversion D; subst. destruct (encode_repaired l ltac:(assumption)) as (-> & D' & V). rewrite decode_raw_text, map_length by assumption. cbn [length]. lia.
Qed.
Lemma spelled_chars text command t rest : command = text \/ command = first_part text -> decode command = t ++ rest -> valid t -> length t <= length (decode text).
Proof.
  intros [-> | ->] E V; [rewrite E, app_length; lia|]. destruct (first_part_split text) as [(_ & F)|(p & a & x & S & _ & _ & F)]; rewrite F in E; [rewrite E, app_length; lia|].
  rewrite S, (decode_app_split _ _ _ _ E V), app_length. lia.
Qed.
Lemma message_spelled bot input f r f' : execute_command_with bot input f = (Ok r, f') ->
  exists command c t rest ds parts, (command = fst (check_secret input) \/ command = first_part (fst (check_secret input))) /\ spells c t /\ decode command = t ++ rest /\ valid t /\
    reply c ds parts (r_dice r) (r_success r) /\ message r = (db_game_id bot ++ " : " ++ join " ＞ " parts)%string.
Proof.
  assert (forall cmd f1 r1 f2, execute_basic_command bot cmd f1 = (Ok r1, f2) -> exists c t rest ds, spells c t /\ decode cmd = t ++ rest /\ valid t /\
     reply c ds (r_parts r1) (r_dice r1) (r_success r1) /\ r_game_id r1 = db_game_id bot) as Hb.
  { intros cmd f1 r1 f2 E. rewrite execute_basic_eq in E. destruct (parse_command cmd) as [n|e|p] eqn:Ep; try discriminate E. rewrite with_fresh_env_run_command in E.
    apply parse_sound in Ep as (c & t & rest & -> & Hs & Hd & Hv & _). destruct (run_command_gives _ _ _ _ _ E) as (ds & _ & Hg). apply (C44_replies _ c ds r1 (spells_ok _ _ Hs)) in Hg as (parts & rep & ver & H & ->).
    exists c, t, rest, ds. split; [exact Hs|]. split; [exact Hd|]. split; [exact Hv|]. split; [exact H|reflexivity]. }
  rewrite execute_command_with_eq. destruct (check_secret input) as [text secret]. destruct (execute_basic_command bot text f) as [[r1|e1|p1] f1] eqn:E1; intros H; try discriminate H.
  - injection H as <- <-. apply Hb in E1 as (c & t & rest & ds & Hs & Hd & Hv & Hr & Hi). exists text, c, t, rest, ds, (r_parts r1). repeat split; try assumption; [left; reflexivity|]. unfold message, set_secret. cbn [r_game_id r_parts]. rewrite Hi. reflexivity.
  - destruct (execute_basic_command bot (first_part text) f1) as [[r2|e2|p2] f2] eqn:E2; try discriminate H.
    injection H as <- <-. apply Hb in E2 as (c & t & rest & ds & Hs & Hd & Hv & Hr & Hi). exists (first_part text), c, t, rest, ds, (r_parts r2). repeat split; try assumption; [right; reflexivity|]. unfold message, set_secret. cbn [r_game_id r_parts]. rewrite Hi. reflexivity.
Qed.

(** * C90 *)
(** The length of an answer (in bytes, as Go counts) is at most 52 for each character of the command, 33 for each die reported, and the name of the game system:
    short commands cannot bring about long answers except by rolling many dice.  (Dice are Go ints.) *)
Theorem C90_size bot input f r f' : execute_command_with bot input f = (Ok r, f') -> Forall (fun d => in_int64 (die_value d)) (r_dice r) ->
  len (message r) <= len (db_game_id bot) + 52 * length (decode input) + 33 * length (r_dice r).
Proof.
  intros H Hf. destruct (message_spelled _ _ _ _ _ H) as (command & c & t & rest & ds & parts & Hc & Hs & Hd & Hv & Hr & ->). pose proof (spelled_chars _ _ _ _ Hc Hd Hv) as L. pose proof (secret_chars input) as L2.
  destruct (decode_split _ _ _ Hd) as (_ & _ & Ht). pose proof (reply_length _ _ _ _ _ _ Hs Ht Hr Hf) as B. pose proof (join_length1 " ＞ " parts) as J. assert (parts <> []) as Hp by (destruct Hr; discriminate). specialize (J Hp).
  rewrite !length_append. change (len " ＞ ") with 5 in J. change (len " : ") with 3. lia.
Qed.
Print Assumptions C90_size.
(** In particular the answer to a command that takes no dice (a calculation) is at most 52 times as long as the command, besides the name of the game system. *)
Example C90_example :
  (exists r, execute_command_with basic_bot "2D6+1" (FQueue [Die 3 6; Die 4 6]) = (Ok r, FQueue []) /\ message r = "DiceBot : (2D6+1) ＞ 7[3,4]+1 ＞ 8"%string /\ len (message r) = 36 /\
     Forall (fun d => in_int64 (die_value d)) (r_dice r) /\ length (decode "2D6+1") = 5) /\
  (* a small command with a long answer *)
  (exists r, execute_command_with basic_bot "2R6" (FQueue []) = (Ok r, FQueue []) /\ len (message r) = 107) /\
  len (itoa min_int) = 20.
Proof.
  split; [|split].
  - eexists. split; [vmc|]. split; [vmc|]. split; [vmc|]. split; [repeat constructor; vm_compute; discriminate|vmc].
  - eexists. split; vmc.
  - vmc.
Qed.
