(** The echo of a roll, read again: settled commands and their texts. *)
From Verif Require Import Grammar GoBase Utf8 Object ProofBase SpecText SpecSyntax SpecGrammar TextFacts Dice SpecDice ArithProofs SpecRoll SpecLists SpecMessage PegProofs ParseSound ParseComplete ParseTop ParseFacts ParseText DecodeProofs NumberText NotationText
  DRollProofs EchoNorm Notation Prop_parse Prop_notation.
Open Scope list_scope.
Open Scope Z_scope.

(** ** Numbers *)
Definition lit_int (w : Z) : iexpr := if w <? 0 then Neg (Leaf (- w)) else Leaf w.
Lemma lit_int_value w : in_int64 w -> has_value (lit_int w) w.
Proof.
  intros H. apply has_value_mach. unfold lit_int. destruct (w <? 0); [|reflexivity]. cbn [mach obind]. rewrite Z.opp_involutive, wrap64_id by exact H. reflexivity.
Qed.
Lemma lit_int_sp w : in_int64 w -> w <> min_int -> sp_int (lit_int w) (atext (itoa w)).
Proof.
  intros H Hm. unfold lit_int, sp_int. unfold in_int64, min_int, max_int, two63 in *. destruct (w <? 0) eqn:E.
  - rewrite itoa_minus by lia. change (atext (String "-" (itoa (- w)))) with (atext "-" ++ atext (itoa (- w))). apply sp_add_mul, sp_mul_prim, sp_minus; [reflexivity|]. apply sp_leaf, itoa_sp. unfold max_int, two63. lia.
  - apply sp_add_mul, sp_mul_prim, sp_leaf, itoa_sp. unfold max_int, two63. lia.
Qed.
Lemma itoa_ascii v : ascii_text (itoa v).
Proof.
  destruct (Z_lt_le_dec v 0) as [H|H].
  - rewrite itoa_minus by exact H. apply (ascii_app "-"); [repeat constructor|]. apply digits_ascii, itoa_digits. lia.
  - apply digits_ascii, itoa_digits, H.
Qed.
Lemma has_value_range e v : iok e -> has_value e v -> in_int64 v.
Proof. intros H Hv. apply has_value_mach in Hv. eapply mach_range; eassumption. Qed.

(** ** Rolls with computed operands *)
Definition lit_roll (p : Z * Z) : SpecSyntax.roll := (Leaf (RInt (fst p)), Leaf (RInt (snd p))).
Definition positive_pair (p : Z * Z) : Prop := 1 <= fst p <= max_int /\ 1 <= snd p <= max_int.
Lemma lit_settle ps : settle_rolls (map lit_roll ps) [] ps.
Proof.
  induction ps as [|(x, y) ps IH]; [constructor|]. cbn [map]. unfold lit_roll at 1. cbn [fst snd].
  apply (settle_cons (Leaf (RInt x)) (Leaf (RInt y)) (map lit_roll ps) [] [] [] x y ps); [| |exact IH].
  - exists (Leaf x). split; [constructor; split; reflexivity|reflexivity].
  - exists (Leaf y). split; [constructor; split; reflexivity|reflexivity].
Qed.
Lemma lit_roll_sp (lower upper : string) p : word_i lower (atext upper) -> positive_pair p -> sp_roll lower (lit_roll p) (atext (roll_word upper p)).
Proof.
  intros Hw (H1 & H2). unfold roll_word, lit_roll. rewrite !atext_app. constructor; [|exact Hw|]; apply SpecGrammar.operand_leaf, itoa_sp; lia.
Qed.
Lemma rolls_words_cons u p ps : rolls_words u (p :: ps) = (roll_word u p ++ match ps with [] => "" | _ => "+" ++ rolls_words u ps end)%string.
Proof. destruct ps as [|q ps]; [symmetry; apply append_nil_r|]. reflexivity. Qed.
Lemma lit_rolls_sp (lower upper : string) ps : word_i lower (atext upper) -> Forall positive_pair ps ->
  sp_rolls lower (map lit_roll ps) (atext match ps with [] => "" | _ => "+" ++ rolls_words upper ps end).
Proof.
  intros Hw. induction 1 as [|p ps Hp Hps IH]; [constructor|]. rewrite rolls_words_cons, !atext_app. cbn [map]. constructor; [reflexivity|apply lit_roll_sp; assumption|exact IH].
Qed.
Lemma rolls_words_ascii u ps : ascii_text u -> ascii_text (rolls_words u ps).
Proof.
  intros Hu. induction ps as [|p ps IH]; [constructor|]. rewrite rolls_words_cons. apply ascii_app.
  - unfold roll_word. apply ascii_app; [apply itoa_ascii|apply ascii_app; [exact Hu|apply itoa_ascii]].
  - destruct ps; [constructor|]. apply (ascii_app "+"); [repeat constructor|exact IH].
Qed.

(** ** Ranges of computed operands *)
Lemma visit_leaves_ok {L M} (lf : L -> list die -> M -> Prop) (P : L -> Prop) (Q : M -> Prop) e ds e' : (forall l ds m, lf l ds m -> P l -> Q m) -> visit lf e ds e' -> all_leaves P e -> all_leaves Q e'.
Proof. intros H. induction 1; cbn [all_leaves]; [eauto|eauto|intros (H1 & H2); auto]. Qed.
Lemma operand_range e ds v : rok e -> operand_value e ds v -> in_int64 v.
Proof.
  intros Hok (ie & Hv & Hh). eapply has_value_range; [|exact Hh]. refine (visit_leaves_ok operand_leaf rleaf_ok in_int64 _ _ _ _ Hv Hok).
  intros l d m Hl Hok'. destruct l as [w|lo hi]; cbn in Hl.
  - destruct Hl as (_ & ->). exact Hok'.
  - destruct Hl as (a & b & die & _ & _ & _ & _ & _ & _ & ->). apply wrap64_range.
Qed.
Lemma settle_range rs ops ps : Forall roll_ok rs -> settle_rolls rs ops ps -> Forall (fun p => in_int64 (fst p) /\ in_int64 (snd p)) ps.
Proof.
  intros Hok H. revert Hok. induction H as [|n s rs d1 d2 d3 x y ps H1 H2 H3 IH]; intros Hok; [constructor|]. inversion Hok as [|? ? Hr Hrs]. subst. destruct Hr as (Hn & Hs).
  constructor; [split; [exact (operand_range _ _ _ Hn H1)|exact (operand_range _ _ _ Hs H2)]|auto].
Qed.
Lemma settle_length rs ops ps : settle_rolls rs ops ps -> length ps = length rs.
Proof. induction 1; cbn; congruence. Qed.
Lemma rolled_each_positive ps gs : rolled_each ps gs -> Forall (fun p => in_int64 (fst p) /\ in_int64 (snd p)) ps -> Forall positive_pair ps.
Proof.
  induction 1 as [|p g ps gs (H1 & H2 & H3 & H4) _ IH]; intros Hr; [constructor|]. inversion Hr as [|? ? (R1 & R2) Hr']. subst. constructor; [|auto].
  unfold positive_pair, in_int64 in *. lia.
Qed.
Lemma chains_positive t n ps gs : chains_each t n ps gs -> Forall (fun p => in_int64 (fst p) /\ in_int64 (snd p)) ps -> Forall positive_pair ps.
Proof.
  induction 1 as [|p g ps gs (H1 & H2 & H3 & H4) _ IH]; intros Hr; [constructor|]. inversion Hr as [|? ? (R1 & R2) Hr']. subst. constructor; [|auto].
  unfold positive_pair, in_int64 in *. lia.
Qed.
Lemma rerolls_positive t n q gs : rerolls t n q gs -> Forall (fun p => 1 <= fst p /\ 1 <= snd p) (firstn n q).
Proof.
  induction 1 as [q|n|n x y q g gs Hr H0 H IH|n x y q g gs Hr H0 H IH].
  - constructor.
  - rewrite firstn_nil. constructor.
  - destruct Hr as (H1 & H2 & _). cbn [firstn]. constructor; [cbn; lia|exact IH].
  - destruct Hr as (H1 & H2 & _). cbn [firstn]. constructor; [cbn; lia|]. rewrite firstn_app in IH. apply Forall_app in IH. apply IH.
Qed.
Lemma rerolls_positive_pairs t ps gs : rerolls t cap ps gs -> (length ps <= cap)%nat -> Forall (fun p => in_int64 (fst p) /\ in_int64 (snd p)) ps -> Forall positive_pair ps.
Proof.
  intros H Hl Hr. apply rerolls_positive in H. rewrite firstn_all2 in H by exact Hl. rewrite Forall_forall in *. intros p Hp. specialize (H p Hp). specialize (Hr p Hp).
  unfold positive_pair, in_int64 in *. lia.
Qed.

(** ** Bonuses *)
Definition lit_bonus (m : Z) : option (bool * iexpr) := if m =? 0 then None else if 0 <? m then Some (true, Leaf m) else Some (false, Leaf (- m)).
Lemma lit_bonus_value m : in_int64 m -> bonus_value (lit_bonus m) m.
Proof.
  intros H. unfold lit_bonus. destruct (m =? 0) eqn:E; [cbn; lia|]. destruct (0 <? m); cbn [bonus_value]; [reflexivity|]. exists (- m). split; [reflexivity|]. rewrite Z.opp_involutive, wrap64_id; [reflexivity|exact H].
Qed.
Lemma lit_bonus_sp m : in_int64 m -> m <> min_int -> sp_bonus (lit_bonus m) (atext (bonus_word m)).
Proof.
  intros H Hm. unfold lit_bonus, bonus_word. unfold in_int64, min_int, max_int, two63 in *. destruct (m =? 0) eqn:E; [constructor|]. destruct (0 <? m) eqn:E1.
  - rewrite atext_app. constructor; [reflexivity|]. apply sp_add_mul, sp_mul_prim, sp_leaf, itoa_sp. unfold max_int, two63. lia.
  - rewrite wrap64_id by (unfold in_int64, min_int, max_int, two63; lia). rewrite atext_app. constructor; [reflexivity|]. apply sp_add_mul, sp_mul_prim, sp_leaf, itoa_sp. unfold max_int, two63. lia.
Qed.
Lemma bonus_range b m : bonus_ok b -> bonus_value b m -> in_int64 m.
Proof.
  destruct b as [[[] e]|]; cbn; intros Hok H.
  - eapply has_value_range; eassumption.
  - destruct H as (v & _ & ->). apply wrap64_range.
  - subst m. unfold in_int64, min_int, max_int, two63. lia.
Qed.
Lemma bonus_word_ascii m : ascii_text (bonus_word m).
Proof. unfold bonus_word. destruct (m =? 0); [constructor|]. destruct (0 <? m); (apply ascii_app; [repeat constructor|apply itoa_ascii]). Qed.
Lemma op_ascii op : is_compare_op op -> ascii_text op.
Proof. intros H. repeat (destruct H as [<-|H]; [repeat constructor|]). destruct H. Qed.
Lemma op_word op : is_compare_op op -> word op (atext op).
Proof. intros H. repeat (destruct H as [<-|H]; [reflexivity|]). destruct H. Qed.
Lemma lit_target_sp op w : is_compare_op op -> in_int64 w -> w <> min_int -> sp_target op (lit_int w) (atext (op ++ itoa w)).
Proof. intros Ho H Hm. rewrite atext_app. constructor; [exact Ho|apply op_word, Ho|apply lit_int_sp; assumption]. Qed.
Lemma lit_threshold_sp v : 2 <= v <= max_int -> sp_threshold (Some (Leaf v)) (atext ("[" ++ itoa v ++ "]")).
Proof. intros H. rewrite (atext_app "["), (atext_app (itoa v)). constructor; [reflexivity| |reflexivity]. apply sp_add_mul, sp_mul_prim, sp_leaf, itoa_sp. lia. Qed.

(** ** D expressions with computed operands *)
Definition to_d (m : mleaf) : dleaf := match m with MInt v => DInt v | MDice x y => DDice (Leaf (RInt x)) (Leaf (RInt y)) end.
Definition mleaf_fine (m : mleaf) : Prop := match m with MInt v => 0 <= v <= max_int | MDice x y => positive_pair (x, y) end.
Lemma mleaf_spelled m : mleaf_fine m -> sp_dleaf (to_d m) (atext (mword m)) /\ ascii_text (mword m).
Proof.
  destruct m as [v|x y]; cbn; intros H.
  - split; [apply itoa_sp, H|apply itoa_ascii].
  - split; [apply (lit_roll_sp "d" "D" (x, y)); [reflexivity|exact H]|]. apply ascii_app; [apply itoa_ascii|]. apply (ascii_app "D"); [repeat constructor|apply itoa_ascii].
Qed.
Lemma to_d_settle e : visit settle_operands (ae_map to_d e) [] e.
Proof.
  induction e as [[v|x y]|e IH|op a IHa b IHb]; cbn [ae_map].
  - constructor. cbn. auto.
  - constructor. cbn. exists [], []. split; [reflexivity|]. split; eexists (Leaf _); (split; [constructor; cbn; auto|reflexivity]).
  - constructor. exact IH.
  - apply (visit_bin _ op _ _ [] []); assumption.
Qed.
(** leaves in order *)
Fixpoint leaves {L} (e : ae L) : list L := match e with Leaf l => [l] | Neg e => leaves e | Bin _ a b => leaves a ++ leaves b end.
Lemma leaves_norm {L} (e : ae L) : leaves (norm e) = leaves e /\ (forall A, leaves (plus e A) = leaves A ++ leaves e) /\ (forall A, leaves (times e A) = leaves A ++ leaves e).
Proof.
  induction e as [l|e IH|op a IHa b IHb]; [repeat split|destruct IH as (IH & _); repeat split; intros; rewrite ?plus_neg, ?times_neg, ?norm_neg; cbn [leaves]; rewrite ?norm_neg; cbn [leaves]; congruence|].
  destruct IHa as (A1 & A2 & A3), IHb as (B1 & B2 & B3).
  assert (leaves (norm (Bin op a b)) = leaves a ++ leaves b) as H. { rewrite norm_bin. destruct op; rewrite ?B2, ?B3; cbn [leaves]; rewrite ?A1, ?B1; reflexivity. }
  split; [exact H|]. split; intros A; rewrite ?plus_bin, ?times_bin; destruct op; cbn [leaves]; rewrite ?H, ?B2, ?B3, ?A2, ?A3, ?B1, ?app_assoc; reflexivity.
Qed.
Lemma leaves_map {L M} (g : L -> M) e : leaves (ae_map g e) = map g (leaves e).
Proof. induction e as [l|e IH|op a IHa b IHb]; cbn; [reflexivity|exact IH|rewrite map_app, IHa, IHb; reflexivity]. Qed.
Lemma part_leaves {L} (l : L) e : part (Leaf l) e <-> In l (leaves e).
Proof.
  split.
  - induction 1; cbn; rewrite ?in_app_iff; auto.
  - induction e as [x|e IH|op a IHa b IHb]; cbn [leaves In]; rewrite ?in_app_iff.
    + intros [->|[]]. constructor.
    + intros H. apply part_neg, IH, H.
    + intros [H|H]; [apply part_l, IHa, H|apply part_r, IHb, H].
Qed.
Lemma visit_leaves {L M} (lf : L -> list die -> M -> Prop) e ds e' : visit lf e ds e' -> forall l, In l (leaves e) -> exists d m, In m (leaves e') /\ lf l d m.
Proof.
  induction 1 as [l ds m H|e ds e' H IH|op a b d1 d2 a' b' Ha IHa Hb IHb]; intros x Hx; cbn [leaves] in *.
  - destruct Hx as [<-|[]]. exists ds, m. split; [left; reflexivity|exact H].
  - apply IH, Hx.
  - apply in_app_iff in Hx as [Hx|Hx]; [destruct (IHa x Hx) as (d & m & Hm & Hl)|destruct (IHb x Hx) as (d & m & Hm & Hl)]; exists d, m; rewrite in_app_iff; auto.
Qed.
Lemma settled_has_random e ops mid : has_random e -> visit settle_operands e ops mid -> has_random (ae_map to_d (norm mid)).
Proof.
  intros (l & Hp & Hr) H. apply part_leaves in Hp. destruct (visit_leaves _ _ _ _ H _ Hp) as (d & m & Hm & Hl). exists (to_d m). split.
  - apply part_leaves. rewrite leaves_map. apply in_map. destruct (leaves_norm mid) as (-> & _). exact Hm.
  - destruct l as [v|lo hi|n s], m as [w|x y]; cbn in *; tauto.
Qed.
(** structure only *)
Definition shape {L} (e : ae L) : iexpr := ae_map (fun _ => 0) e.
Lemma shape_visit {L M} (lf : L -> list die -> M -> Prop) e ds e' : visit lf e ds e' -> shape e' = shape e.
Proof. unfold shape. induction 1; cbn [ae_map]; congruence. Qed.
Lemma quotient_free_shape (e : iexpr) : quotient_free (shape e) <-> quotient_free e.
Proof. induction e as [l|e IH|op a IHa b IHb]; [tauto|tauto|]. destruct op; cbn in *; tauto. Qed.
Lemma safe_shape (e : iexpr) : safe (shape e) <-> safe e.
Proof.
  induction e as [l|e IH|op a IHa b IHb]; [tauto|exact IH|]. pose proof (quotient_free_shape b) as Hq. unfold shape in *. destruct op; cbn in *; tauto.
Qed.
Lemma shape_map {L M} (g : L -> M) e : shape (ae_map g e) = shape e.
Proof. unfold shape. induction e; cbn; congruence. Qed.
Lemma norm_d_value e ops rolls mid fin v : d_value e ops rolls mid fin v -> safe (shape e) -> d_value (ae_map to_d (norm mid)) [] rolls (norm mid) (norm fin) v.
Proof.
  intros (H1 & H2 & H3) Hs. split; [apply to_d_settle|]. split; [apply visit_norm, H2|]. apply has_value_mach. apply has_value_mach in H3. destruct (map_norm sum_leaf fin) as (-> & _).
  rewrite <- H3. apply mach_norm. apply safe_shape. rewrite shape_map. rewrite (shape_visit _ _ _ _ H2), (shape_visit _ _ _ _ H1). exact Hs.
Qed.
Lemma mid_fine e ops rolls mid fin : dok e -> all_leaves (fun l => match l with DInt v => 0 <= v <= max_int | _ => True end) e ->
  visit settle_operands e ops mid -> visit roll_leaf mid rolls fin -> all_leaves mleaf_fine mid.
Proof.
  intros Hok Hn H1 H2.
  assert (all_leaves (fun m => match m with MInt v => 0 <= v <= max_int | MDice x y => in_int64 x /\ in_int64 y end) mid) as Hr.
  { assert (all_leaves (fun l => dleaf_ok l /\ match l with DInt v => 0 <= v <= max_int | _ => True end) e) as Hb.
    { clear H1 H2. unfold dok in Hok. induction e as [l|e IH|op a IHa b IHb]; cbn [all_leaves] in *; [auto|auto|]. destruct Hok, Hn. auto. }
    refine (visit_leaves_ok settle_operands _ _ _ _ _ _ H1 Hb). intros l d m Hl (K1 & K2). destruct l as [v|lo hi|n s], m as [w|x y]; cbn in *; try contradiction.
    - destruct Hl as (_ & ->). exact K2.
    - destruct Hl as (d1 & d2 & _ & O1 & O2). destruct K1 as (N & S). split; [exact (operand_range _ _ _ N O1)|exact (operand_range _ _ _ S O2)]. }
  clear H1 Hn Hok. induction H2 as [m ds s Hl|m ds m' H IH|op a b d1 d2 a' b' Ha IHa Hb IHb]; cbn [all_leaves] in *; [|auto|destruct Hr; auto].
  destruct m as [v|x y], s as [w|g]; cbn in *; try contradiction; [exact Hr|]. destruct Hl as (_ & R1 & R2 & _). unfold positive_pair, in_int64 in *. cbn. lia.
Qed.
Lemma mid_spelled mid : all_leaves mleaf_fine mid -> sp_dexpr (ae_map to_d (norm mid)) (atext (show mword true mid)) /\ ascii_text (show mword true mid).
Proof.
  intros H. assert (spelled_leaves mword (fun m => sp_dleaf (to_d m)) mid) as Hl.
  { unfold spelled_leaves. induction mid as [m|e IH|op a IHa b IHb]; cbn [all_leaves] in *; [apply mleaf_spelled, H|auto|destruct H; auto]. }
  split; [|eapply show_ascii; exact Hl]. destruct (norm_spelled mword (fun m => sp_dleaf (to_d m)) mid Hl) as (K & _). specialize (K true). apply sp_top_add in K.
  apply (proj2 (proj2 (sp_map to_d sp_dleaf))). exact K.
Qed.
Lemma comparable_mid e ops mid : comparable e -> visit settle_operands e ops mid -> comparable (ae_map to_d (norm mid)).
Proof.
  intros Hc H. destruct H as [l ds m Hl|e ds e' H|op a b d1 d2 a' b' Ha Hb].
  - destruct l as [v|lo hi|n s]; cbn in Hc; try contradiction. destruct m as [w|x y]; cbn in Hl; [contradiction|]. exact I.
  - exact I.
  - assert (top (norm (Bin op a' b')) = op_kind op) as Ht by apply top_norm. destruct (norm (Bin op a' b')) as [m|x|o x y]; [destruct op; discriminate Ht|exact I|exact I].
Qed.

(** ** Reading a settled command *)
Lemma spelled_parses c s : spells c (atext s) -> ascii_text s -> fits s -> parse_command s = Ok (command_tree c).
Proof.
  intros H Ha Hf. apply (parse_complete s c (atext s) []); [exact H|rewrite app_nil_r; apply atext_decode, Ha| |exact I|right; reflexivity|exact Hf].
  rewrite <- atext_decode by exact Ha. apply valid_ascii, Ha.
Qed.
(** CHOICE *)
Lemma Z_space r : is_space r = false -> is_Z r = false.
Proof. unfold is_space, is_Z, in_range. lia. Qed.
Definition clean_item (s : string) : Prop := s <> EmptyString /\ Forall item_char (decode s) /\ valid (decode s) /\ trim_space (decode s) = decode s /\ (forall c l, decode s = c :: l -> is_space (gc_rune c) = false).
Lemma trim_fix l : (forall c l', l = c :: l' -> is_space (gc_rune c) = false) -> (forall c l', l = l' ++ [c] -> is_space (gc_rune c) = false) -> trim_space l = l.
Proof.
  intros H1 H2. unfold trim_space. rewrite (trim_left_fix l H1). rewrite trim_left_fix; [apply rev_involutive|]. intros c l' E. apply (H2 c (rev l')).
  rewrite <- (rev_involutive l), E. reflexivity.
Qed.
Lemma item_clean' s t : sp_item s t -> Forall decoded t -> valid t -> s <> EmptyString -> clean_item s.
Proof.
  intros H Hd Hv Hne. apply item_inv in H as (z & t0 & -> & -> & Hz & Hn & Hi & Hh). rename t0 into t. apply Forall_app in Hd as (_ & Hd). apply valid_app in Hv as (_ & Hv).
  destruct (trim_split t) as (z1 & z2 & E & _ & _).
  assert (Forall decoded (trim_space t) /\ valid (trim_space t) /\ Forall item_char (trim_space t)) as (Td & Tv & Ti).
  { rewrite E in Hd, Hv, Hi. apply Forall_app in Hd as (_ & Hd). apply Forall_app in Hd as (Hd & _). apply Forall_app in Hi as (_ & Hi). apply Forall_app in Hi as (Hi & _).
    apply valid_app in Hv as (_ & Hv). apply valid_app in Hv as (Hv & _). auto. }
  pose proof (decode_raw_text _ Td Tv) as Hdec. unfold clean_item. rewrite Hdec. split; [exact Hne|]. split; [exact Ti|]. split; [exact Tv|]. split.
  - apply trim_fix; [intros c l; apply trim_head|intros c l; apply trim_last].
  - intros c l. apply trim_head.
Qed.
Lemma items_clean' ss t : sp_items ss t -> Forall decoded t -> valid t -> ~ In EmptyString ss -> Forall clean_item ss.
Proof.
  induction 1 as [|s ss o t u Ho Ht Hu IH]; intros Hd Hv Hne; [constructor|].
  apply Forall_app in Hd as (_ & Hd). apply Forall_app in Hd as (D1 & D2). apply valid_app in Hv as (_ & Hv). apply valid_app in Hv as (V1 & V2).
  constructor; [eapply item_clean'; eauto; intros ->; apply Hne; left; reflexivity|]. apply IH; auto. intros Hin. apply Hne. right. exact Hin.
Qed.
Lemma clean_sp s : clean_item s -> sp_item s (decode s).
Proof.
  intros (Hne & Hi & Hv & Ht & Hh). rewrite <- (raw_decode s) at 1. rewrite <- Ht at 1. apply (item_intro []); [constructor| |exact Hi|].
  - intros E. apply Hne. rewrite <- (raw_decode s), E. reflexivity.
  - destruct (decode s) as [|c l]; [exact I|]. apply Z_space, (Hh c l eq_refl).
Qed.
Lemma join_cons sep (s : string) ss : join sep (s :: ss) = (s ++ match ss with [] => "" | _ => sep ++ join sep ss end)%string.
Proof. destruct ss as [|x ss]; [symmetry; apply append_nil_r|reflexivity]. Qed.
Lemma clean_items_sp ss : Forall clean_item ss -> sp_items ss (decode match ss with [] => "" | _ => "," ++ join "," ss end) /\ valid (decode match ss with [] => "" | _ => "," ++ join "," ss end).
Proof.
  induction 1 as [|s ss Hs Hss IH]; [split; constructor|]. destruct IH as (I1 & I2). rewrite join_cons.
  rewrite decode_app by (apply valid_ascii; repeat constructor). rewrite decode_app by apply Hs. split.
  - constructor; [reflexivity|apply clean_sp, Hs|exact I1].
  - apply valid_app. split; [apply valid_ascii; repeat constructor|]. apply valid_app. split; [apply Hs|exact I2].
Qed.
Lemma choice_parses items : items <> [] -> Forall clean_item items -> fits ("CHOICE[" ++ join "," items ++ "]") -> parse_command ("CHOICE[" ++ join "," items ++ "]") = Ok (command_tree (Choose items)).
Proof.
  intros Hne Hc Hf. destruct items as [|s ss]; [contradiction|]. inversion Hc as [|? ? Hs Hss]. subst. destruct (clean_items_sp ss Hss) as (H1 & H2).
  set (m := match ss with [] => "" | _ => "," ++ join "," ss end%string) in *.
  assert (decode ("CHOICE[" ++ join "," (s :: ss) ++ "]") = decode "CHOICE[" ++ decode s ++ decode m ++ [] ++ decode "]") as Hd.
  { rewrite join_cons. fold m. rewrite decode_app by (apply valid_ascii; repeat constructor). rewrite append_assoc. rewrite decode_app by apply Hs. rewrite decode_app by exact H2. reflexivity. }
  apply (parse_complete _ (Choose (s :: ss)) (decode "CHOICE[" ++ decode s ++ decode m ++ [] ++ decode "]") []).
  - apply spells_choice; [reflexivity|apply clean_sp, Hs|exact H1|constructor|reflexivity].
  - rewrite app_nil_r. exact Hd.
  - apply valid_app. split; [apply valid_ascii; repeat constructor|]. apply valid_app. split; [apply Hs|]. apply valid_app. split; [exact H2|]. apply (valid_ascii "]"). repeat constructor.
  - exact I.
  - right. reflexivity.
  - exact Hf.
Qed.
