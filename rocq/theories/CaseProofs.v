(** Case-insensitivity of the command language. *)
From Verif Require Import Grammar ProofBase SpecText SpecSyntax SpecGrammar TextFacts PegProofs GrammarSound PegTotal PegForward ParseSound ParseComplete ParseLang ParseCmd ParseTop DecodeProofs ParseFacts.
Open Scope list_scope.
Open Scope Z_scope.

Definition lower_rune (r : Z) : Z := if in_range 65 90 r then r + 32 else r.
Definition lower_char (c : gochar) : gochar := GoChar (lower_rune (gc_rune c)) (lowercase (gc_raw c)).
Lemma lower_byte a : byte_val (lower_ascii_letter a) = lower_rune (byte_val a).
Proof.
  unfold lower_ascii_letter, lower_rune. destruct (in_range 65 90 (byte_val a)) eqn:E; [|reflexivity].
  unfold in_range in E. unfold byte_of. unfold byte_val at 1. rewrite N_ascii_embedding; [lia|]. pose proof (byte_nonneg a). lia.
Qed.
Lemma lower_high a : 128 <= byte_val a -> lower_ascii_letter a = a.
Proof. intros H. unfold lower_ascii_letter, in_range. replace ((65 <=? byte_val a) && (byte_val a <=? 90)) with false by lia. reflexivity. Qed.
Lemma lower_low b : (lower_rune b <? 128) = (b <? 128).
Proof. unfold lower_rune, in_range. destruct (_ && _) eqn:E; [|reflexivity]. lia. Qed.
Lemma lower_high_rune b : 128 <= b -> lower_rune b = b.
Proof. intros H. unfold lower_rune, in_range. replace ((65 <=? b) && (b <=? 90)) with false by lia. reflexivity. Qed.
Lemma lower_cont b : cont_ok (lower_rune b) = cont_ok b.
Proof. unfold cont_ok, lower_rune, in_range. destruct ((65 <=? b) && (b <=? 90)) eqn:E; [|reflexivity]. lia. Qed.
Lemma lower_second b0 b : second_ok b0 (lower_rune b) = second_ok b0 b.
Proof.
  unfold lower_rune. destruct (in_range 65 90 b) eqn:E; [|reflexivity]. unfold second_ok, in_range in *.
  repeat match goal with |- context [if ?b then _ else _] => destruct b end; lia.
Qed.
Lemma cont_high b : cont_ok b = true -> 128 <= b.
Proof. unfold cont_ok, in_range. lia. Qed.
Lemma second_high b0 b : second_ok b0 b = true -> 128 <= b.
Proof. unfold second_ok, in_range. repeat match goal with |- context [if ?b then _ else _] => destruct b end; lia. Qed.

Lemma first_lower s : first_char (lowercase s) = match first_char s with None => None | Some (c, s') => Some (lower_char c, lowercase s') end.
Proof.
  destruct s as [|a s]; [reflexivity|]. cbn [lowercase first_char]. cbv zeta. f_equal. rewrite lower_byte, lower_low.
  destruct (byte_val a <? 128) eqn:E0; [reflexivity|].
  assert (128 <= byte_val a) as Ha by lia. rewrite (lower_high_rune _ Ha), (lower_high _ Ha).
  assert (lower_char (bad_char a) = bad_char a) as Hbad.
  { unfold lower_char, bad_char, rune_error. cbn [gc_rune gc_raw lowercase]. rewrite (lower_high _ Ha). reflexivity. }
  destruct (in_range 194 223 (byte_val a)) eqn:E1.
  { destruct s as [|a1 s]; cbn [lowercase]; [rewrite Hbad; reflexivity|]. rewrite lower_byte, lower_cont. destruct (cont_ok (byte_val a1)) eqn:E2; [|rewrite Hbad; reflexivity].
    apply cont_high in E2. rewrite (lower_high_rune _ E2), (lower_high _ E2). f_equal. unfold lower_char. cbn [gc_rune gc_raw bytes2 lowercase].
    rewrite (lower_high _ Ha), (lower_high _ E2), lower_high_rune; [reflexivity|]. unfold in_range in E1. lia. }
  destruct (in_range 224 239 (byte_val a)) eqn:E2.
  { destruct s as [|a1 [|a2 s]]; cbn [lowercase]; try (rewrite Hbad; reflexivity). rewrite !lower_byte, lower_second, lower_cont.
    destruct (second_ok (byte_val a) (byte_val a1) && cont_ok (byte_val a2)) eqn:E3; [|rewrite Hbad; reflexivity].
    apply andb_prop in E3 as (E3 & E4). pose proof (second_high _ _ E3) as H1. apply cont_high in E4.
    rewrite (lower_high_rune _ H1), (lower_high_rune _ E4), (lower_high _ H1), (lower_high _ E4). f_equal. unfold lower_char. cbn [gc_rune gc_raw bytes3 bytes2 lowercase].
    rewrite (lower_high _ Ha), (lower_high _ H1), (lower_high _ E4), lower_high_rune; [reflexivity|].
    unfold second_ok, in_range in *. repeat match goal with H : context [if ?b then _ else _] |- _ => let E := fresh "E" in destruct b eqn:E end; lia. }
  destruct (in_range 240 244 (byte_val a)) eqn:E3; [|rewrite Hbad; reflexivity].
  destruct s as [|a1 [|a2 [|a3 s]]]; cbn [lowercase]; try (rewrite Hbad; reflexivity). rewrite !lower_byte, lower_second, !lower_cont.
  destruct (second_ok (byte_val a) (byte_val a1) && cont_ok (byte_val a2) && cont_ok (byte_val a3)) eqn:E4; [|rewrite Hbad; reflexivity].
  apply andb_prop in E4 as (E4 & E6). apply andb_prop in E4 as (E4 & E5). pose proof (second_high _ _ E4) as H1. apply cont_high in E5. apply cont_high in E6.
  rewrite (lower_high_rune _ H1), (lower_high_rune _ E5), (lower_high_rune _ E6), (lower_high _ H1), (lower_high _ E5), (lower_high _ E6). f_equal. unfold lower_char. cbn [gc_rune gc_raw bytes4 bytes3 bytes2 lowercase].
  rewrite (lower_high _ Ha), (lower_high _ H1), (lower_high _ E5), (lower_high _ E6), lower_high_rune; [reflexivity|].
  unfold second_ok, in_range in *. repeat match goal with H : context [if ?b then _ else _] |- _ => let E := fresh "E" in destruct b eqn:E end; lia.
Qed.
Lemma decode_lower s : decode (lowercase s) = map lower_char (decode s).
Proof.
  induction s as [|s c s' E IH] using decode_ind; [reflexivity|]. rewrite decode_first, first_lower, (decode_first s), E. cbn [map]. f_equal. exact IH.
Qed.
Lemma lowercase_app a b : lowercase (a ++ b) = (lowercase a ++ lowercase b)%string.
Proof. induction a as [|x a IH]; [reflexivity|]. cbn [append lowercase]. f_equal. exact IH. Qed.
Lemma raw_lower t : raw_text (map lower_char t) = lowercase (raw_text t).
Proof. induction t as [|c t IH]; [reflexivity|]. cbn [map raw_text lower_char gc_raw]. rewrite lowercase_app, IH. reflexivity. Qed.
Lemma lowercase_length s : String.length (lowercase s) = String.length s.
Proof. induction s as [|a s IH]; [reflexivity|]. cbn. f_equal. exact IH. Qed.
Lemma bad_lower c : gc_bad (lower_char c) = gc_bad c.
Proof.
  unfold gc_bad, lower_char. cbn [gc_rune gc_raw]. rewrite lowercase_length. f_equal. unfold lower_rune, in_range, rune_error.
  destruct ((65 <=? gc_rune c) && (gc_rune c <=? 90)) eqn:E; [lia|reflexivity].
Qed.

(** ** Spelling does not depend on case *)
Definition lc (t : text) : text := map lower_char t.
Lemma lc_split t a b : lc t = lc (a ++ b) -> exists a' b', t = a' ++ b' /\ lc a' = lc a /\ lc b' = lc b.
Proof. unfold lc. rewrite map_app. intros H. apply map_eq_app in H as (a' & b' & -> & H1 & H2). eauto. Qed.
Lemma lc_rune c c' : lower_char c = lower_char c' -> lower_rune (gc_rune c) = lower_rune (gc_rune c').
Proof. unfold lower_char. intros H. injection H. auto. Qed.
Lemma rune_symbol r r' z : ~ 65 <= z <= 90 -> ~ 97 <= z <= 122 -> lower_rune r = lower_rune r' -> r' = z -> r = z.
Proof.
  unfold lower_rune, in_range. intros H1 H2 H ->. replace ((65 <=? z) && (z <=? 90)) with false in H by lia. destruct ((65 <=? r) && (r <=? 90)) eqn:E; lia.
Qed.
Definition symbols (w : string) : Prop := Forall (fun z => ~ 65 <= z <= 90 /\ ~ 97 <= z <= 122) (codes w).
Lemma lc_word w t t' : symbols w -> lc t' = lc t -> word w t -> word w t'.
Proof.
  unfold word, symbols. generalize (codes w). intros l. revert t t'. induction l as [|z l IH]; intros t t' Hs Hl Hw; destruct t as [|c t]; try discriminate Hw; destruct t' as [|c' t']; try discriminate Hl; [reflexivity|].
  cbn [lc map] in *. injection Hl as H1 H2 H3. injection Hw as E1 E2. inversion Hs as [|? ? (S1 & S2) S3]. f_equal; [|apply (IH t); assumption].
  apply (rune_symbol (gc_rune c') (gc_rune c)); assumption.
Qed.
Lemma to_lower_rune r : to_lower (lower_rune r) = to_lower r.
Proof. unfold to_lower, lower_rune, in_range. destruct ((65 <=? r) && (r <=? 90)) eqn:E; [|rewrite E; reflexivity]. replace ((65 <=? r + 32) && (r + 32 <=? 90)) with false by lia. destruct (r + 32 =? 304) eqn:E1; [lia|]. destruct (r + 32 =? 8490) eqn:E2; [lia|reflexivity]. Qed.
Lemma lc_word_i w t t' : lc t' = lc t -> word_i w t -> word_i w t'.
Proof.
  unfold word_i. change small_letter with to_lower. intros Hl <-. revert t Hl. induction t' as [|c' t' IH]; intros t Hl; destruct t as [|c t]; try discriminate Hl; [reflexivity|].
  cbn [lc map] in *. injection Hl as H1 H2 H3. f_equal; [|apply IH; exact H3]. rewrite <- (to_lower_rune (gc_rune c')), <- (to_lower_rune (gc_rune c)), H1. reflexivity.
Qed.
Lemma lc_forall (P : Z -> Prop) t t' : (forall r r', lower_rune r' = lower_rune r -> P r -> P r') -> lc t' = lc t -> Forall (fun c => P (gc_rune c)) t -> Forall (fun c => P (gc_rune c)) t'.
Proof.
  intros HP. revert t. induction t' as [|c' t' IH]; intros t Hl; destruct t as [|c t]; try discriminate Hl; [auto|].
  cbn [lc map] in *. injection Hl as H1 H2 H3. intros H. inversion H. subst. constructor; [eapply HP; eassumption|eapply IH; eassumption].
Qed.
Lemma lower_digit r r' : lower_rune r' = lower_rune r -> 48 <= r <= 57 -> r' = r.
Proof. unfold lower_rune, in_range. intros H1 H2. replace ((65 <=? r) && (r <=? 90)) with false in H1 by lia. destruct ((65 <=? r') && (r' <=? 90)) eqn:E; lia. Qed.
Lemma lc_number v t t' : lc t' = lc t -> sp_number v t -> sp_number v t'.
Proof.
  intros Hl (H1 & H2 & H3). split; [destruct t; [contradiction|]; destruct t'; discriminate|].
  assert (map gc_rune t' = map gc_rune t) as Hr.
  { clear H1 H3. revert t Hl H2. induction t' as [|c' t' IH]; intros t Hl H2; destruct t as [|c t]; try discriminate Hl; [reflexivity|].
    cbn [lc map] in *. injection Hl as E1 E2 E3. inversion H2. subst. f_equal; [apply lower_digit; assumption|apply IH; assumption]. }
  split.
  - unfold is_digit in *. rewrite <- (Forall_map gc_rune (fun r => 48 <= r <= 57)) in *. rewrite Hr. exact H2.
  - rewrite H3. f_equal. unfold decimal. clear -Hr.
    assert (forall a, fold_left (fun n c => 10 * n + (gc_rune c - 48)) t a = fold_left (fun n c => 10 * n + (gc_rune c - 48)) t' a) as H; [|apply H].
    revert t Hr. induction t' as [|c' t' IH]; intros t Hr a; destruct t as [|c t]; try discriminate Hr; [reflexivity|]. cbn [map fold_left] in *. injection Hr as E1 E2. rewrite E1. apply IH. exact E2.
Qed.
Ltac lcsplit := repeat match goal with H : lc ?t = lc (_ ++ _) |- _ => apply lc_split in H as (? & ? & -> & ? & ?) end.
Ltac symb := unfold symbols; vm_compute; repeat constructor; intros (Hx & Hy); first [apply Hx; reflexivity|apply Hy; reflexivity].
Section Arith.
  Context {L : Type} (leaf : L -> text -> Prop).
  Hypothesis Hleaf : forall x t t', lc t' = lc t -> leaf x t -> leaf x t'.
  Lemma lc_arith : (forall e t, sp_prim leaf e t -> forall t', lc t' = lc t -> sp_prim leaf e t') /\
    (forall e t, sp_mul leaf e t -> forall t', lc t' = lc t -> sp_mul leaf e t') /\ (forall e t, sp_add leaf e t -> forall t', lc t' = lc t -> sp_add leaf e t').
  Proof.
    apply (sp_arith_mut L leaf); intros; lcsplit; try (econstructor; eauto 3; (eapply lc_word_i; eassumption) || (eapply lc_word; [|eassumption|eassumption]; symb)).
  Qed.
End Arith.
Ltac lw := match goal with
  | H : word_i ?w ?t |- word_i ?w _ => eapply lc_word_i; [eassumption|exact H]
  | H : word ?w ?t, E : lc ?t' = lc ?t |- word ?w ?t' => eapply lc_word; [|exact E|exact H]; symb
  end.
Lemma lc_int e t t' : lc t' = lc t -> sp_int e t -> sp_int e t'.
Proof. intros H1 H2. eapply (proj2 (proj2 (lc_arith sp_number lc_number))); eassumption. Qed.
Lemma lc_bound e t t' : lc t' = lc t -> sp_bound e t -> sp_bound e t'.
Proof. intros Hl H. destruct H; lcsplit; constructor; try lw; [eapply lc_number|eapply lc_int]; eassumption. Qed.
Lemma lc_random lo hi t t' : lc t' = lc t -> sp_random lo hi t -> sp_random lo hi t'.
Proof. intros Hl H. destruct H; lcsplit; constructor; try lw; eapply lc_bound; eassumption. Qed.
Lemma lc_rleaf x t t' : lc t' = lc t -> sp_rleaf x t -> sp_rleaf x t'.
Proof. destruct x; cbn; [apply lc_number|apply lc_random]. Qed.
Lemma lc_operand e t t' : lc t' = lc t -> sp_operand e t -> sp_operand e t'.
Proof.
  intros Hl H. destruct H; lcsplit; constructor; try lw; [eapply lc_rleaf; eassumption|].
  eapply (proj2 (proj2 (lc_arith sp_rleaf lc_rleaf))); eassumption.
Qed.
Lemma lc_roll w r t t' : lc t' = lc t -> sp_roll w r t -> sp_roll w r t'.
Proof. intros Hl H. destruct H; lcsplit; constructor; try lw; eapply lc_operand; eassumption. Qed.
Lemma lc_nil t : lc t = lc [] -> t = [].
Proof. destruct t; [reflexivity|discriminate]. Qed.
Lemma lc_rolls w rs t t' : lc t' = lc t -> sp_rolls w rs t -> sp_rolls w rs t'.
Proof.
  intros Hl H. revert t' Hl. induction H; intros t' Hl; lcsplit; [apply lc_nil in Hl as ->; constructor|]. constructor; try lw; [eapply lc_roll; eassumption|auto].
Qed.
Lemma lc_dleaf x t t' : lc t' = lc t -> sp_dleaf x t -> sp_dleaf x t'.
Proof. destruct x; cbn; [apply lc_number|apply lc_random|apply lc_roll]. Qed.
Lemma lc_dexpr e t t' : lc t' = lc t -> sp_dexpr e t -> sp_dexpr e t'.
Proof. intros H1 H2. eapply (proj2 (proj2 (lc_arith sp_dleaf lc_dleaf))); eassumption. Qed.
Lemma lc_threshold th t t' : lc t' = lc t -> sp_threshold th t -> sp_threshold th t'.
Proof. intros Hl H. destruct H; lcsplit; [apply lc_nil in Hl as ->; constructor|]. constructor; try lw. eapply lc_int; eassumption. Qed.
Lemma lc_bonus b t t' : lc t' = lc t -> sp_bonus b t -> sp_bonus b t'.
Proof. intros Hl H. destruct H; lcsplit; [apply lc_nil in Hl as ->; constructor|..]; constructor; try lw; eapply lc_int; eassumption. Qed.
Lemma op_symbols op : is_compare_op op -> symbols op.
Proof. intros H. cbn in H. decompose [or] H; subst; try contradiction; symb. Qed.
Lemma lc_target op e t t' : lc t' = lc t -> sp_target op e t -> sp_target op e t'.
Proof.
  intros Hl H. destruct H as [op e o t Hop Ho He]; lcsplit. constructor; [exact Hop| |eapply lc_int; eassumption].
  eapply lc_word; [apply op_symbols, Hop|eassumption|exact Ho].
Qed.
(** items *)
Lemma is_Z_lower r r' : lower_rune r' = lower_rune r -> is_Z r = true -> is_Z r' = true.
Proof.
  intros H Hz. assert (r' = r) as ->; [|exact Hz]. unfold lower_rune, is_Z, in_range in *.
  destruct ((65 <=? r) && (r <=? 90)) eqn:E1; [lia|]. destruct ((65 <=? r') && (r' <=? 90)) eqn:E2; [lia|exact H].
Qed.
Lemma is_Z_lower' r r' : lower_rune r' = lower_rune r -> is_Z r = false -> is_Z r' = false.
Proof. intros H Hz. destruct (is_Z r') eqn:E; [|reflexivity]. rewrite (is_Z_lower r' r) in Hz by auto. discriminate. Qed.
Lemma item_lower r r' : lower_rune r' = lower_rune r -> r <> 44 /\ r <> 93 -> r' <> 44 /\ r' <> 93.
Proof. intros H (H1 & H2). unfold lower_rune, in_range in H. destruct ((65 <=? r) && (r <=? 90)) eqn:E; destruct ((65 <=? r') && (r' <=? 90)) eqn:E'; lia. Qed.
Lemma is_space_lower c : is_space (gc_rune (lower_char c)) = is_space (gc_rune c).
Proof.
  unfold lower_char. cbn [gc_rune]. unfold lower_rune. destruct (in_range 65 90 (gc_rune c)) eqn:E; [|reflexivity].
  unfold in_range in E. unfold is_space, in_range. lia.
Qed.
Lemma trim_left_lower t : trim_left (lc t) = lc (trim_left t).
Proof. induction t as [|c t IH]; [reflexivity|]. cbn [lc map trim_left]. rewrite is_space_lower. destruct (is_space (gc_rune c)); [exact IH|reflexivity]. Qed.
Lemma trim_space_lower t : trim_space (lc t) = lc (trim_space t).
Proof. unfold trim_space. rewrite trim_left_lower. unfold lc. rewrite <- !map_rev. fold (lc (rev (trim_left t))). rewrite trim_left_lower. unfold lc. rewrite <- map_rev. reflexivity. Qed.
Lemma trim_case t t' : lc t' = lc t -> lowercase (raw_text (trim_space t')) = lowercase (raw_text (trim_space t)).
Proof. intros H. rewrite <- !raw_lower. change (map lower_char) with lc. rewrite <- !trim_space_lower, H. reflexivity. Qed.
Lemma lc_item s t t' : lc t' = lc t -> sp_item s t -> exists s', lowercase s' = lowercase s /\ sp_item s' t'.
Proof.
  intros Hl H. apply item_inv in H as (z & t0 & -> & -> & Hz & Hn & Hi & Hh); rename t0 into t; lcsplit. exists (raw_text (trim_space x0)). split; [apply trim_case; assumption|]. apply item_intro.
  - eapply (lc_forall (fun r => is_Z r = true)); [exact is_Z_lower|eassumption|exact Hz].
  - destruct t; [contradiction|]. destruct x0; discriminate.
  - eapply (lc_forall (fun r => r <> 44 /\ r <> 93)); [exact item_lower|eassumption|exact Hi].
  - destruct t as [|c t]; [contradiction|]. destruct x0 as [|c' x0]; [discriminate|]. cbn [lc map] in *. eapply is_Z_lower'; [|exact Hh].
    match goal with H : lower_char c' :: _ = lower_char c :: _ |- _ => injection H as H _ end. assumption.
Qed.
Lemma lc_items ss t t' : lc t' = lc t -> sp_items ss t -> exists ss', map lowercase ss' = map lowercase ss /\ sp_items ss' t'.
Proof.
  intros Hl H. revert t' Hl. induction H as [|s ss o t u Ho Ht Hu IH]; intros t' Hl; lcsplit.
  - apply lc_nil in Hl as ->. exists []. split; [reflexivity|constructor].
  - destruct (lc_item s t x1 ltac:(assumption) Ht) as (s' & E1 & E2). edestruct IH as (ss' & E3 & E4); [eassumption|].
    exists (s' :: ss'). split; [cbn [map]; congruence|]. constructor; try assumption. lw.
Qed.
Lemma lc_comma t t' : lc t' = lc t -> sp_final_comma t -> sp_final_comma t'.
Proof.
  intros Hl H. destruct H; lcsplit; [apply lc_nil in Hl as ->; constructor|]. constructor; [lw|].
  apply sep_forall. eapply (lc_forall (fun r => is_Z r = true)); [exact is_Z_lower|eassumption|apply sep_forall; assumption].
Qed.
(** Commands that agree except for the case of CHOICE items *)
Definition same_command (c c' : command) : Prop :=
  c' = c \/ exists items items', c = Choose items /\ c' = Choose items' /\ map lowercase items' = map lowercase items.
Lemma lc_spells c t t' : lc t' = lc t -> spells c t -> exists c', spells c' t' /\ same_command c c'.
Proof.
  intros Hl H. destruct H; lcsplit;
  try (eexists; split; [|left; reflexivity]; constructor; try assumption; try lw;
       first [eapply lc_int; eassumption | eapply lc_dexpr; eassumption | eapply lc_target; eassumption | eapply lc_roll; eassumption
             | eapply lc_rolls; eassumption | eapply lc_threshold; eassumption | eapply lc_bonus; eassumption]).
  match goal with H : sp_item s ?t, E : lc ?x = lc ?t |- _ => destruct (lc_item s t x E H) as (s' & E1 & E2) end.
  match goal with H : sp_items ss ?t, E : lc ?x = lc ?t |- _ => destruct (lc_items ss t x E H) as (ss' & E3 & E4) end.
  exists (Choose (s' :: ss')). split.
  - constructor; try assumption; try lw. eapply lc_comma; eassumption.
  - right. exists (s :: ss), (s' :: ss'). repeat split. cbn [map]. congruence.
Qed.
Lemma lc_valid t t' : lc t' = lc t -> valid t -> valid t'.
Proof.
  unfold valid. revert t. induction t' as [|c' t' IH]; intros t Hl Hv; [constructor|]. destruct t as [|c t]; [discriminate|]. cbn [lc map] in Hl.
  injection Hl as H1 H2 H3. inversion Hv. subst. constructor; [|eapply IH; eassumption]. rewrite <- bad_lower. rewrite <- bad_lower in H4. unfold lower_char in *. rewrite H1, H2. assumption.
Qed.
Lemma lc_valid_head t t' : lc t' = lc t -> valid_head t -> valid_head t'.
Proof.
  destruct t' as [|c' t']; [intros; exact I|]. destruct t as [|c t]; [discriminate|]. cbn [lc map valid_head]. intros Hl Hv.
  injection Hl as H1 H2 _. rewrite <- bad_lower. rewrite <- bad_lower in Hv. unfold lower_char in *. rewrite H1, H2. assumption.
Qed.
Theorem parse_case s s' n : Z.of_nat (String.length s) < two63 -> same_but_case s s' -> parse_command s = Ok n ->
  exists n', parse_command s' = Ok n' /\
    (n' = n \/ exists items items', n = NChoice items /\ n' = NChoice items' /\ map lowercase items' = map lowercase items).
Proof.
  intros Hlen Hs H. apply parse_sound in H as (c & t & rest & -> & H1 & H2 & H3 & H4 & H5).
  assert (lc (decode s') = lc (t ++ rest)) as Hl by (unfold lc; rewrite <- H2, <- !decode_lower; f_equal; symmetry; exact Hs).
  apply lc_split in Hl as (t' & rest' & E & L1 & L2). destruct (lc_spells _ _ _ L1 H1) as (c' & C1 & C2).
  exists (command_tree c'). split.
  - apply (parse_complete s' c' t' rest'); try assumption.
    + eapply lc_valid; eassumption.
    + eapply lc_valid_head; eassumption.
    + destruct H5 as [H5| ->]; [left|right; apply lc_nil, L2]. destruct C2 as [->|(i & i' & -> & -> & _)]; [exact H5|exact I].
    + rewrite <- (lowercase_length s'), <- Hs, lowercase_length. exact Hlen.
  - destruct C2 as [->|(i & i' & -> & -> & E')]; [left; reflexivity|right]. exists i, i'. repeat split. exact E'.
Qed.
