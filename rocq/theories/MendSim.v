(** A text with broken bytes and the same text with "?" for them: a simulation of the detailed engine (cf. CaseErrors.v). *)
From Verif Require Import Grammar ProofBase Peg PegText PegProofs ErrErase SpecText SpecGrammar TextFacts Utf8 DecodeProofs SpecBroken CaseErrors.
From Coq Require Import Lia.
Open Scope list_scope.
Open Scope Z_scope.

Definition mc (t : text) : text := map mend_char t.
(** Bytes: the same, or "?" for one that is not ASCII *)
Fixpoint smend (s s' : string) : Prop :=
  match s, s' with
  | EmptyString, EmptyString => True
  | String a s1, String b s2 => (a = b \/ 128 <= byte_val a /\ b = "?"%char) /\ smend s1 s2
  | _, _ => False
  end.
Lemma smend_refl s : smend s s.
Proof. induction s; cbn; auto. Qed.
Lemma smend_app a b a' b' : smend a a' -> smend b b' -> smend (a ++ b) (a' ++ b').
Proof. revert a'. induction a as [|x a IH]; intros [|y a'] H H2; cbn in *; try contradiction; [exact H2|]. destruct H as (H & H3). split; [exact H|apply IH; assumption]. Qed.
Lemma smend_length s s' : smend s s' -> String.length s = String.length s'.
Proof. revert s'. induction s as [|x s IH]; intros [|y s'] H; cbn in *; try contradiction; [reflexivity|]. f_equal. apply IH, H. Qed.
(** A word of ASCII without "?" *)
Definition aword (w : string) : Prop := forall b, In b (list_ascii_of_string w) -> byte_val b < 128 /\ b <> "?"%char.
Lemma smend_word s s' w : aword w -> smend s s' -> String.eqb s w = String.eqb s' w.
Proof.
  revert s s'. induction w as [|x w IH]; intros [|a s] [|b s'] Hw H; cbn in H; try contradiction; try reflexivity.
  destruct H as (H & H2). cbn [String.eqb]. assert (Ascii.eqb a x = Ascii.eqb b x) as ->.
  { destruct H as [->|(H & ->)]; [reflexivity|]. destruct (Hw x (or_introl eq_refl)) as (H3 & H4). destruct (Ascii.eqb_spec a x) as [->|_]; [lia|]. destruct (Ascii.eqb_spec "?" x); [congruence|reflexivity]. }
  destruct (Ascii.eqb b x); [|reflexivity]. apply IH; [intros y Hy; apply Hw; right; exact Hy|exact H2].
Qed.
Ltac a_word := intros ? Hword; cbn [list_ascii_of_string In] in Hword; repeat (destruct Hword as [<-|Hword]; [split; [vm_compute; reflexivity|discriminate]|]); destruct Hword.
(** Decoded characters *)
Definition okc (c : gochar) : Prop := plain c /\ (gc_bad c = true -> exists a, gc_raw c = String a EmptyString /\ 128 <= byte_val a).
Definition encoding (m : string) : bool := String.eqb m "invalid encoding".
Definition keep (e : perr rule) : bool := negb (encoding (e_text e)).

Inductive vsim : val -> val -> Prop :=
| vsim_nil : vsim VNil VNil
| vsim_bytes s s' : smend s s' -> vsim (VBytes s) (VBytes s')
| vsim_slice l l' : Forall2 vsim l l' -> vsim (VSlice l) (VSlice l')
| vsim_node n n' : kind n = kind n' -> vsim (VNode n) (VNode n').
Definition esim (e e' : env) : Prop := Forall2 (fun x y => fst x = fst y /\ vsim (snd x) (snd y)) e e'.
Definition asim (a a' : ares) : Prop :=
  match a, a' with
  | AVal v, AVal v' => vsim v v'
  | AErr m, AErr m' => m = m' /\ encoding m = false
  | APanic m, APanic m' => m = m'
  | _, _ => False
  end.
Lemma lookup_sim l e e' : esim e e' -> vsim (lookup l e) (lookup l e').
Proof.
  induction 1 as [|(k, v) (k', v') e e' (H1 & H2) _ IH]; [constructor|]. cbn [fst snd] in *. subst k'. cbn [lookup]. destruct (String.eqb k l); assumption.
Qed.
(** results of type [A + string] *)
Definition ssim {A} (Q : A -> A -> Prop) (x y : A + string) : Prop :=
  match x, y with inl a, inl b => Q a b | inr p, inr q => p = q | _, _ => False end.
Lemma abind_sim {A} (Q : A -> A -> Prop) x y k k' : ssim Q x y -> (forall a b, Q a b -> asim (k a) (k' b)) -> asim (abind x k) (abind y k').
Proof. destruct x, y; cbn; intros H1 H2; try contradiction; auto. Qed.
Definition nsim (n n' : node) : Prop := kind n = kind n'.
Definition bsim (s s' : string) : Prop := smend s s'.
Definition osim (o o' : option (list val)) : Prop := match o, o' with Some l, Some l' => Forall2 vsim l l' | None, None => True | _, _ => False end.
Lemma as_node_sim v v' : vsim v v' -> ssim nsim (as_node v) (as_node v').
Proof. intros []; cbn; auto. Qed.
Lemma as_bytes_sim v v' : vsim v v' -> ssim bsim (as_bytes v) (as_bytes v').
Proof. intros []; cbn; auto. Qed.
Lemma to_iface_sim v v' : vsim v v' -> ssim osim (to_iface_slice v) (to_iface_slice v').
Proof. intros []; cbn; auto. Qed.
Lemma as_vroll_sim v v' : vsim v v' -> ssim (fun _ _ => True) (as_vroll v) (as_vroll v').
Proof. intros [| | |n n' H]; cbn; auto. destruct n as [| | | | | |op ? ?| | | | |]; try (destruct op); destruct n' as [| | | | | |op' ? ?| | | | |]; try (destruct op'); try discriminate H; cbn; auto. Qed.
Lemma as_string_sim v v' : vsim v v' -> ssim (fun _ _ => True) (as_string_node v) (as_string_node v').
Proof. intros [| | |n n' H]; cbn; auto. destruct n as [| | | | | |op ? ?| | | | |]; try (destruct op); destruct n' as [| | | | | |op' ? ?| | | | |]; try (destruct op'); try discriminate H; cbn; auto. Qed.
Lemma elems_sim o o' : osim o o' -> Forall2 vsim (slice_elems o) (slice_elems o').
Proof. destruct o, o'; cbn; try contradiction; auto. Qed.
Lemma index_sim l l' i : Forall2 vsim l l' -> ssim vsim (Grammar.index l i) (Grammar.index l' i).
Proof.
  intros H. revert i. unfold Grammar.index. induction H as [|v v' l l' Hv _ IH]; intros [|i]; cbn [nth_error]; try (cbn; reflexivity); [exact Hv|apply IH].
Qed.
Lemma bsim_symbol s s' w : In w ["+"; "-"; "*"; "/"]%char -> bsim s s' -> String.eqb s (String w EmptyString) = String.eqb s' (String w EmptyString).
Proof. intros Hw. apply smend_word. cbn [In] in Hw. destruct Hw as [<-|[<-|[<-|[<-|[]]]]]; a_word. Qed.
Definition msim (s s' : string) : Prop := forall w, In w ["U"; "R"; ""]%string -> String.eqb s w = String.eqb s' w.
Lemma msim_upper s s' : bsim s s' -> msim (to_upper_ur s) (to_upper_ur s').
Proof.
  intros H. unfold bsim in H. unfold to_upper_ur. rewrite <- (smend_word s s' "u"), <- (smend_word s s' "r") by (try exact H; a_word).
  destruct (String.eqb s "u"); [intros w _; reflexivity|]. destruct (String.eqb s "r"); [intros w _; reflexivity|].
  intros w Hw. apply smend_word; [|exact H]. cbn [In] in Hw. destruct Hw as [<-|[<-|[<-|[]]]]; a_word.
Qed.

Definition acts_sim (a : action) : Prop := forall e e' t t' st, esim e e' -> t' = mc t -> asim (a e t st) (a e' t' st).
Lemma additive_loop_sim l l' : Forall2 vsim l l' -> forall n n', nsim n n' -> asim (additive_loop n l) (additive_loop n' l').
Proof.
  induction 1 as [|v v' l l' Hv _ IH]; intros n n' Hn; cbn [additive_loop]; [constructor; exact Hn|].
  eapply abind_sim; [apply to_iface_sim, Hv|intros o o' Ho; cbv beta]. apply elems_sim in Ho.
  eapply abind_sim; [apply index_sim, Ho|intros x x' Hx; cbv beta]. eapply abind_sim; [apply as_bytes_sim, Hx|intros op op' Hop; cbv beta].
  eapply abind_sim; [apply index_sim, Ho|intros y y' Hy; cbv beta]. eapply abind_sim; [apply as_node_sim, Hy|intros r r' Hr; cbv beta].
  apply IH. rewrite (bsim_symbol op op' "+"%char), (bsim_symbol op op' "-"%char) by (cbn; auto). destruct (String.eqb op' "+"); [reflexivity|]. destruct (String.eqb op' "-"); [reflexivity|exact Hn].
Qed.
Lemma multitive_loop_sim l l' : Forall2 vsim l l' -> forall n n', nsim n n' -> asim (multitive_loop n l) (multitive_loop n' l').
Proof.
  induction 1 as [|v v' l l' Hv _ IH]; intros n n' Hn; cbn [multitive_loop]; [constructor; exact Hn|].
  eapply abind_sim; [apply to_iface_sim, Hv|intros o o' Ho; cbv beta]. apply elems_sim in Ho.
  eapply abind_sim; [apply index_sim, Ho|intros x x' Hx; cbv beta]. eapply abind_sim; [apply as_bytes_sim, Hx|intros op op' Hop; cbv beta].
  eapply abind_sim; [apply index_sim, Ho|intros y y' Hy; cbv beta]. eapply abind_sim; [apply as_node_sim, Hy|intros r r' Hr; cbv beta].
  apply (abind_sim msim).
  - pose proof (index_sim _ _ 2%nat Ho) as H2. unfold Grammar.index in H2. destruct (nth_error (slice_elems o) 2) as [b|], (nth_error (slice_elems o') 2) as [b'|]; try (destruct H2; fail); [|intros w _; reflexivity].
    cbn [ssim] in H2. apply as_bytes_sim in H2. destruct (as_bytes b), (as_bytes b'); try (destruct H2; fail); [|exact H2]. apply msim_upper, H2.
  - intros m m' Hm. apply IH. rewrite (bsim_symbol op op' "*"%char), (bsim_symbol op op' "/"%char) by (cbn; auto). rewrite !Hm by (cbn; auto).
    repeat match goal with |- context [if ?b then _ else _] => destruct b end; try reflexivity; exact Hn.
Qed.
Lemma items_loop_sim l l' : Forall2 vsim l l' -> forall i i', asim (items_loop i l) (items_loop i' l').
Proof.
  induction 1 as [|v v' l l' Hv _ IH]; intros i i'; cbn [items_loop]; [constructor; reflexivity|].
  eapply abind_sim; [apply to_iface_sim, Hv|intros o o' Ho; cbv beta]. apply elems_sim in Ho.
  eapply abind_sim; [apply index_sim, Ho|intros x x' Hx; cbv beta]. eapply abind_sim; [apply as_string_sim, Hx|intros s s' _; cbv beta]. apply IH.
Qed.
Lemma rolls_loop_sim k k' : (forall a b, nsim (k a) (k' b)) -> forall l l', Forall2 vsim l l' -> forall i i', asim (rolls_loop k i l) (rolls_loop k' i' l').
Proof.
  intros Hk. induction 1 as [|v v' l l' Hv _ IH]; intros i i'; cbn [rolls_loop]; [constructor; apply Hk|].
  eapply abind_sim; [apply to_iface_sim, Hv|intros o o' Ho; cbv beta]. apply elems_sim in Ho.
  eapply abind_sim; [apply index_sim, Ho|intros x x' Hx; cbv beta]. eapply abind_sim; [apply as_vroll_sim, Hx|intros s s' _; cbv beta]. apply IH.
Qed.
Ltac look := apply lookup_sim; assumption.
Lemma act_label_sim l : acts_sim (act_label l).
Proof. intros e e' t t' st He Ht. unfold act_label. cbn [asim]. look. Qed.
Lemma act_node_sim l : acts_sim (act_node l).
Proof. intros e e' t t' st He Ht. unfold act_node. eapply abind_sim; [apply as_node_sim; look|]. intros n n' Hn. constructor. exact Hn. Qed.
Lemma act_unary_minus_sim l : acts_sim (act_unary_minus l).
Proof. intros e e' t t' st He Ht. unfold act_unary_minus. eapply abind_sim; [apply as_node_sim; look|]. intros n n' Hn. constructor. reflexivity. Qed.
Lemma act_choice_items_sim : acts_sim act_choice_items.
Proof.
  intros e e' t t' st He Ht. unfold act_choice_items. eapply abind_sim; [apply as_string_sim; look|]. intros s s' _. eapply abind_sim; [apply to_iface_sim; look|].
  intros o o' Ho. apply items_loop_sim, elems_sim, Ho.
Qed.
Lemma act_choice_chars_sim : acts_sim act_choice_chars.
Proof. intros e e' t t' st He Ht. unfold act_choice_chars. constructor. reflexivity. Qed.
Lemma act_integer_sim : acts_sim act_integer.
Proof. intros e e' t t' st He Ht. unfold act_integer. constructor. reflexivity. Qed.
Lemma act_calc_sim : acts_sim act_calc.
Proof. intros e e' t t' st He Ht. unfold act_calc. eapply abind_sim; [apply as_node_sim; look|]. intros n n' Hn. constructor. reflexivity. Qed.
Lemma act_d_command_sim c : acts_sim (act_d_command c).
Proof.
  intros e e' t t' st He Ht. unfold act_d_command. destruct st as [k|]; [|reflexivity]. destruct (k <? 1); [split; reflexivity|].
  eapply abind_sim; [apply as_node_sim; look|]. intros n n' Hn. constructor. reflexivity.
Qed.
Lemma act_b_roll_list_sim : acts_sim act_b_roll_list.
Proof.
  intros e e' t t' st He Ht. unfold act_b_roll_list. eapply abind_sim; [apply as_vroll_sim; look|]. intros b b' _. eapply abind_sim; [apply to_iface_sim; look|].
  intros o o' Ho. apply rolls_loop_sim; [reflexivity|apply elems_sim, Ho].
Qed.
Lemma act_compare_sim w : (forall op l r op' l' r', nsim (w (NInfix (OpCmp op) l r)) (w (NInfix (OpCmp op') l' r'))) -> acts_sim (act_compare w).
Proof.
  intros Hw e e' t t' st He Ht. unfold act_compare. eapply abind_sim; [apply as_node_sim; look|]. intros l l' _. eapply abind_sim; [apply as_bytes_sim; look|]. intros op op' _.
  eapply abind_sim; [apply as_node_sim; look|]. intros r r' _. constructor. apply Hw.
Qed.
Lemma act_r_roll_list_sim : acts_sim act_r_roll_list.
Proof.
  intros e e' t t' st He Ht. unfold act_r_roll_list. eapply abind_sim; [apply to_iface_sim; look|]. intros ths ths' Hths. apply (abind_sim (fun _ _ => True)).
  - destruct ths as [l|], ths' as [l'|]; try (destruct Hths; fail); [|exact I]. cbn [osim] in Hths. pose proof (index_sim _ _ 1%nat Hths) as H. destruct (Grammar.index l 1), (Grammar.index l' 1); try (destruct H; fail); [|exact H].
    cbn [ssim] in H. apply as_node_sim in H. destruct (as_node v), (as_node v0); try (destruct H; fail); [exact I|exact H].
  - intros th th' _. eapply abind_sim; [apply as_vroll_sim; look|]. intros b b' _. eapply abind_sim; [apply to_iface_sim; look|].
    intros o o' Ho. apply rolls_loop_sim; [reflexivity|apply elems_sim, Ho].
Qed.
Lemma act_u_roll_expr_sim e e' t t' st : bonus_ok e -> esim e e' -> asim (act_u_roll_expr e t st) (act_u_roll_expr e' t' st).
Proof.
  intros Hok He. unfold act_u_roll_expr.
  assert (forall b b', asim (match lookup "uRollList" e with VNode (NRRollList rolls th) => AVal (VNode (NURollExpr rolls th b)) | _ => APanic "interface conversion: not *ast.RRollList" end)
    (match lookup "uRollList" e' with VNode (NRRollList rolls th) => AVal (VNode (NURollExpr rolls th b')) | _ => APanic "interface conversion: not *ast.RRollList" end)) as Hf.
  { intros b b'. pose proof (lookup_sim "uRollList" e e' He) as H. destruct H as [| | |n n' H]; try reflexivity.
    destruct n as [| | | | | |op ? ?| | | | |]; try (destruct op); destruct n' as [| | | | | |op' ? ?| | | | |]; try (destruct op'); try discriminate H; cbn; try reflexivity; constructor; reflexivity. }
  unfold bonus_ok in Hok. pose proof (lookup_sim "bonus" e e' He) as Hb. destruct Hb as [|s s' Hs|l l' Hl|n n' Hn]; cbn [to_iface_slice abind]; cbv zeta; [apply Hf|reflexivity| |reflexivity].
  destruct Hl as [|x x' l l' Hx Hl]; [reflexivity|]. cbn [Grammar.index nth_error abind]. destruct Hx as [|s s' Hs|k k' Hk|n n' Hn]; cbn [as_bytes abind]; try reflexivity.
  eapply abind_sim; [apply (index_sim _ _ 1%nat (Forall2_cons _ _ (vsim_bytes _ _ Hs) Hl))|]. intros y y' Hy. eapply abind_sim; [apply as_node_sim, Hy|]. intros r r' _.
  rewrite <- (bsim_symbol s s' "+"%char), <- (bsim_symbol s s' "-"%char) by (try exact Hs; cbn; auto).
  destruct (Hok s l eq_refl) as [-> | ->]; cbn [String.eqb Ascii.eqb Bool.eqb]; apply Hf.
Qed.

(** ** The engine *)
Inductive sim : dstate rule -> dstate rule -> Prop :=
  sim_intro p r st er en en' rs fl ex iv : Forall okc r -> esim en en' -> sim (DState p r st er en rs fl ex iv) (DState p (mc r) st (filter keep er) en' rs fl ex iv).
Definition rsim (r r' : pres) : Prop :=
  match r, r' with PMatch v, PMatch v' => vsim v v' | PFail, PFail => True | PPanic m, PPanic m' => m = m' | _, _ => False end.
Definition outsim (o o' : @dout rule) : Prop :=
  match o, o' with
  | Some (r, d, n), Some (r', d', n') => rsim r r' /\ sim d d' /\ n = n'
  | None, None => True
  | _, _ => False
  end.
Lemma slice_sim a b : slice_from (mc a) (mc b) = mc (slice_from a b).
Proof. unfold slice_from, mc. rewrite !map_length, firstn_map. reflexivity. Qed.
Lemma char_raw c : okc c -> smend (gc_raw c) (gc_raw (mend_char c)).
Proof.
  intros (_ & H). unfold mend_char. destruct (gc_bad c); [|apply smend_refl]. destruct (H eq_refl) as (a & -> & Ha). cbn. auto.
Qed.
Lemma raw_sim t : Forall okc t -> smend (raw_text t) (raw_text (mc t)).
Proof. induction 1 as [|c t Hc _ IH]; [exact I|]. cbn [mc map raw_text]. apply smend_app; [apply char_raw, Hc|exact IH]. Qed.
Lemma slice_okc a b : Forall okc a -> Forall okc (slice_from a b).
Proof. intros H. unfold slice_from. rewrite <- (firstn_skipn (length a - length b) a) in H. apply Forall_app in H. apply H. Qed.
Lemma mended_good c : gc_bad (mend_char c) = false.
Proof. unfold mend_char. destruct (gc_bad c) eqn:E; [reflexivity|exact E]. Qed.
Lemma bad_rune c : gc_bad c = true -> gc_rune c = 65533.
Proof. unfold gc_bad, rune_error. intros H. apply andb_prop in H as (H & _). lia. Qed.
Lemma mend_rune (P : Z -> bool) c : P 65533 = P 63 -> P (gc_rune (mend_char c)) = P (gc_rune c).
Proof. intros H. unfold mend_char. destruct (gc_bad c) eqn:E; [|reflexivity]. rewrite (bad_rune _ E). symmetry. exact H. Qed.
Lemma arrive_sim d d' : sim d d' -> sim (d_arrive d) (d_arrive d').
Proof.
  intros [p r st er en en' rs fl ex iv Hp He]. unfold d_arrive. cbn [d_rest d_pt]. destruct r as [|c r]; [constructor; assumption|].
  cbn [mc map]. rewrite mended_good, (mend_rune (fun x => x =? 10) c) by reflexivity.
  destruct (gc_bad c); [|destruct (gc_rune c =? 10); constructor; assumption].
  assert (forall p0 rs0, filter keep (er ++ [PErr p0 rs0 "invalid encoding"%string]) = filter keep er) as Hf by (intros; rewrite filter_app; cbn; apply app_nil_r).
  unfold d_add_err, d_err_at, d_set_point. destruct (gc_rune c =? 10); cbn [d_pt d_rest d_st d_errs d_env d_rstack d_fail d_expected d_invert d_set_point];
    match goal with |- sim (DState _ _ _ ?e1 _ _ _ _ _) (DState _ _ _ ?e2 _ _ _ _ _) => assert (e2 = filter keep e1) as -> by (symmetry; apply Hf) end; exact (sim_intro _ (c :: r) _ _ _ _ _ _ _ _ Hp He).
Qed.
Lemma okc_tl r : Forall okc r -> Forall okc (tl r).
Proof. intros []; [constructor|assumption]. Qed.
Lemma read_sim d d' : sim d d' -> sim (d_read d) (d_read d').
Proof.
  intros H. unfold d_read. apply arrive_sim. destruct H as [p r st er en en' rs fl ex iv Hp He]. cbn [d_rest d_pt].
  assert (match mc r with c :: _ => Z.of_nat (String.length (gc_raw c)) | [] => 0 end = match r with c :: _ => Z.of_nat (String.length (gc_raw c)) | [] => 0 end) as ->.
  { destruct r as [|c r]; [reflexivity|]. cbn [mc map]. inversion Hp. subst. rewrite (smend_length _ _ (char_raw c ltac:(assumption))). reflexivity. }
  assert (tl (mc r) = mc (tl r)) as -> by (destruct r; reflexivity). constructor; [apply okc_tl, Hp|exact He].
Qed.
Lemma fail_sim b p w d d' : sim d d' -> sim (fail_at d b p w) (fail_at d' b p w).
Proof.
  intros [q r st er en en' rs fl ex iv Hp He]. unfold fail_at. cbn [d_invert d_fail]. destruct (Bool.eqb b iv); [|constructor; assumption]. destruct (p_offset p <? p_offset fl); constructor; assumption.
Qed.
Definition symbol (z : Z) : Prop := z <> 65533 /\ z <> 63.
Lemma sim_rest d d' : sim d d' -> d_rest d' = mc (d_rest d).
Proof. intros []; reflexivity. Qed.
Lemma sim_okc d d' : sim d d' -> Forall okc (d_rest d).
Proof. intros []; assumption. Qed.
Lemma sim_plain d d' : sim d d' -> Forall plain (d_rest d).
Proof. intros H. apply sim_okc in H. eapply Forall_impl; [|exact H]. intros c Hc. apply Hc. Qed.
Lemma lit_sim lt ic : Forall symbol lt -> forall d d', sim d d' ->
  fst (d_lit_loop lt ic d) = fst (d_lit_loop lt ic d') /\ sim (snd (d_lit_loop lt ic d)) (snd (d_lit_loop lt ic d')).
Proof.
  induction 1 as [|w lt Hw _ IH]; intros d d' H; cbn [d_lit_loop]; [auto|].
  rewrite (sim_rest _ _ H). destruct (d_rest d) as [|c r]; [auto|]. cbn [mc map].
  assert (((if ic then to_lower (gc_rune (mend_char c)) else gc_rune (mend_char c)) =? w) = ((if ic then to_lower (gc_rune c) else gc_rune c) =? w)) as ->.
  { apply (mend_rune (fun x => (if ic then to_lower x else x) =? w)). destruct Hw as (H1 & H2). destruct ic; [change (to_lower 65533) with 65533; change (to_lower 63) with 63|]; destruct (Z.eqb_spec 65533 w), (Z.eqb_spec 63 w); congruence. }
  destruct (_ =? w); [|auto]. apply IH, read_sim, H.
Qed.
Lemma sim_env d d' : sim d d' -> esim (d_env d) (d_env d').
Proof. intros []; assumption. Qed.
Lemma sim_set_env d d' e e' : sim d d' -> esim e e' -> sim (d_set_env d e) (d_set_env d' e').
Proof. intros [] He. constructor; assumption. Qed.
Lemma esim_nil : esim [] [].
Proof. constructor. Qed.
Lemma sim_back d d' x x' : sim d d' -> sim x x' -> sim (d_set_point d (d_pt x) (d_rest x)) (d_set_point d' (d_pt x') (d_rest x')).
Proof. intros [] []. constructor; assumption. Qed.
Lemma sim_point d d' p r : sim d d' -> Forall okc r -> sim (d_set_point d p r) (d_set_point d' p (mc r)).
Proof. intros [] A1. constructor; assumption. Qed.
Lemma sim_set_st d d' x x' : sim d d' -> sim x x' -> sim (d_set_st d (d_st x)) (d_set_st d' (d_st x')).
Proof. intros [] []. constructor; assumption. Qed.
Lemma sim_st d d' : sim d d' -> d_st d = d_st d'.
Proof. intros []. reflexivity. Qed.
Lemma sim_pt d d' : sim d d' -> d_pt d = d_pt d'.
Proof. intros []. reflexivity. Qed.
Lemma sim_rstack d d' : sim d d' -> d_rstack d = d_rstack d'.
Proof. intros []. reflexivity. Qed.
Lemma sim_invert d d' : sim d d' -> d_invert d = d_invert d'.
Proof. intros []. reflexivity. Qed.
Lemma sim_set_rstack d d' l : sim d d' -> sim (d_set_rstack d l) (d_set_rstack d' l).
Proof. intros []. constructor; assumption. Qed.
Lemma sim_set_invert d d' l : sim d d' -> sim (d_set_invert d l) (d_set_invert d' l).
Proof. intros []. constructor; assumption. Qed.
Lemma sim_set_stv d d' g : sim d d' -> sim (d_set_st d g) (d_set_st d' g).
Proof. intros []. constructor; assumption. Qed.
Lemma sim_err d d' m p : encoding m = false -> sim d d' -> sim (d_err_at d m p) (d_err_at d' m p).
Proof.
  intros Hm [q r st er en en' rs fl ex iv Hp He]. unfold d_err_at. cbn [d_pt d_rest d_st d_errs d_env d_rstack d_fail d_expected d_invert].
  assert (filter keep er ++ [PErr p (hd_error rs) m] = filter keep (er ++ [PErr p (hd_error rs) m])) as -> by (rewrite filter_app; cbn [filter keep e_text]; unfold keep at 3; cbn [e_text]; rewrite Hm; reflexivity).
  constructor; assumption.
Qed.

Inductive good : expr rule -> Prop :=
| g_action a e : acts_sim a -> good e -> good (EAction a e)
| g_bonus e : (forall f d v d' n, Forall plain (d_rest d) -> dexpr rules f e d = Some (PMatch v, d', n) -> bonus_ok (d_env d')) -> good e -> good (EAction act_u_roll_expr e)
| g_label l e : good e -> good (ELabel l e)
| g_choice es : Forall good es -> good (EChoice es)
| g_seq es : Forall good es -> good (ESeq es)
| g_lit lt ic : Forall symbol lt -> good (ELit lt ic)
| g_class c : class_match c 65533 = class_match c 63 -> good (EClass c)
| g_any : good EAny
| g_ref r : good (ERef r)
| g_star e : good e -> good (EStar e)
| g_plus e : good e -> good (EPlus e)
| g_opt e : good e -> good (EOpt e)
| g_not e : good e -> good (ENot e)
| g_state g : (forall st, match fst (g st) with AErr _ => False | _ => True end) -> good (Peg.EState g).
Definition psim (p : expr rule -> dstate rule -> @dout rule) : Prop := forall e d d', good e -> sim d d' -> outsim (p e d) (p e d').
Lemma seq_sim p : psim p -> forall es, Forall good es -> forall d0 d0' d d' vs vs' n, sim d0 d0' -> sim d d' -> Forall2 vsim vs vs' ->
  outsim (d_seq_loop p es d0 d vs n) (d_seq_loop p es d0' d' vs' n).
Proof.
  intros Hp. induction 1 as [|e es He _ IH]; intros d0 d0' d d' vs vs' n H0 H Hv; cbn [d_seq_loop].
  - split; [constructor; exact Hv|]. auto.
  - pose proof (Hp e d d' He H) as X. destruct (p e d) as [(([v| |m], x), k)|], (p e d') as [(([v'| |m'], x'), k')|]; try (destruct X as (X & _); destruct X; fail); try (destruct X; fail); try exact I; destruct X as (X1 & X2 & <-).
    + apply IH; [exact H0|exact X2|]. apply Forall2_app; [exact Hv|]. constructor; [exact X1|constructor].
    + split; [exact I|]. split; [|reflexivity]. apply sim_back; [|exact H0]. apply sim_set_st; assumption.
    + split; [exact X1|]. auto.
Qed.
Lemma choice_sim p : psim p -> forall es, Forall good es -> forall d d' n, sim d d' -> outsim (d_choice_loop p es d n) (d_choice_loop p es d' n).
Proof.
  intros Hp. induction 1 as [|e es He _ IH]; intros d d' n H; cbn [d_choice_loop].
  - split; [exact I|]. auto.
  - pose proof (Hp e _ _ He (sim_set_env _ _ _ _ H esim_nil)) as X.
    destruct (p e (d_set_env d [])) as [(([v| |m], x), k)|], (p e (d_set_env d' [])) as [(([v'| |m'], x'), k')|]; try (destruct X as (X & _); destruct X; fail); try (destruct X; fail); try exact I; destruct X as (X1 & X2 & <-).
    + split; [exact X1|]. split; [|reflexivity]. apply sim_set_env; [exact X2|apply sim_env, H].
    + apply IH. apply sim_set_env; [|apply sim_env, H]. apply sim_set_st; assumption.
    + split; [exact X1|]. auto.
Qed.
Lemma star_sim p : (forall d d', sim d d' -> outsim (p d) (p d')) -> forall need k d d' vs vs' n, sim d d' -> Forall2 vsim vs vs' -> outsim (d_star_loop k p need d vs n) (d_star_loop k p need d' vs' n).
Proof.
  intros Hp need. induction k as [|k IH]; intros d d' vs vs' n H Hv; cbn [d_star_loop]; [exact I|].
  pose proof (Hp _ _ (sim_set_env _ _ _ _ H esim_nil)) as X.
  destruct (p (d_set_env d [])) as [(([v| |m], x), j)|], (p (d_set_env d' [])) as [(([v'| |m'], x'), j')|]; try (destruct X as (X & _); destruct X; fail); try (destruct X; fail); try exact I; destruct X as (X1 & X2 & <-).
  - apply IH; [apply sim_set_env; [exact X2|apply sim_env, H]|]. apply Forall2_app; [exact Hv|]. constructor; [exact X1|constructor].
  - assert (sim (d_set_env x (d_env d)) (d_set_env x' (d_env d'))) as Y by (apply sim_set_env; [exact X2|apply sim_env, H]).
    destruct Hv as [|y y' vs vs' Hy Hv]; [destruct need|]; (split; [cbn [rsim]; try exact I; constructor; try constructor; assumption|]; auto).
  - split; [exact X1|]. auto.
Qed.
Section Rules.
  Hypothesis Hrules : forall r, good (rules r).
  Ltac both := match goal with
    | X : outsim ?a ?b |- _ => destruct a as [(([?v| |?m], ?x), ?k)|] eqn:?, b as [(([?v'| |?m'], ?x'), ?k')|]; try (exfalso; destruct X as (X & _); destruct X; fail); try (exfalso; destruct X; fail); try exact I; destruct X as (X1 & X2 & <-)
    end.
  Theorem dexpr_sim f : psim (dexpr rules f).
  Proof.
    induction f as [|f IH]; intros e d d' He H; [exact I|]. pose proof (sim_env _ _ H) as Hen. destruct He; cbn [dexpr].
    - pose proof (IH e d d' He H) as X. both; try (split; [exact X1|auto]; fail).
      pose proof (H0 _ _ (slice_from (d_rest d) (d_rest x)) _ (d_st x) (sim_env _ _ X2) eq_refl) as Y. rewrite <- (sim_st _ _ X2), (sim_rest _ _ H), (sim_rest _ _ X2), slice_sim.
      destruct (a (d_env x) _ _), (a (d_env x') _ _); try (destruct Y; fail); cbn [asim] in Y.
      + split; [exact Y|auto].
      + destruct Y as (<- & Ym). split; [constructor|]. split; [|reflexivity]. rewrite (sim_pt _ _ H). apply sim_err; [exact Ym|exact X2].
      + split; [exact Y|auto].
    - pose proof (IH e d d' He H) as X. both; try (split; [exact X1|auto]; fail).
      assert (bonus_ok (d_env x)) as Hb. { eapply H0; [|eassumption]. eapply sim_plain, H. }
      pose proof (act_u_roll_expr_sim _ _ (slice_from (d_rest d) (d_rest x)) (slice_from (d_rest d') (d_rest x')) (d_st x) Hb (sim_env _ _ X2)) as Y. rewrite <- (sim_st _ _ X2).
      destruct (act_u_roll_expr (d_env x) _ _), (act_u_roll_expr (d_env x') _ _); try (destruct Y; fail); cbn [asim] in Y.
      + split; [exact Y|auto].
      + destruct Y as (<- & Ym). split; [constructor|]. split; [|reflexivity]. rewrite (sim_pt _ _ H). apply sim_err; [exact Ym|exact X2].
      + split; [exact Y|auto].
    - pose proof (IH e _ _ He (sim_set_env _ _ _ _ H esim_nil)) as X. both.
      + split; [exact X1|]. split; [|reflexivity]. apply sim_set_env; [exact X2|]. constructor; [split; [reflexivity|exact X1]|exact Hen].
      + split; [exact X1|]. split; [|reflexivity]. apply sim_set_env; assumption.
      + split; [exact X1|]. split; [|reflexivity]. apply sim_set_env; assumption.
    - apply choice_sim; assumption.
    - apply seq_sim; try assumption. constructor.
    - pose proof (lit_sim lt ic H0 d d' H) as X. destruct (d_lit_loop lt ic d) as (b, x), (d_lit_loop lt ic d') as (b', x'). cbn [fst snd] in X. destruct X as (<- & X2). rewrite <- (sim_pt _ _ H). destruct b.
      + split; [rewrite (sim_rest _ _ H), (sim_rest _ _ X2), slice_sim; constructor; apply raw_sim, slice_okc, (sim_okc _ _ H)|]. split; [|reflexivity]. apply fail_sim, X2.
      + split; [exact I|]. split; [|reflexivity]. rewrite (sim_rest _ _ H). apply sim_point; [apply fail_sim, X2|apply (sim_okc _ _ H)].
    - pose proof (sim_okc _ _ H) as Hk. rewrite <- (sim_pt _ _ H), (sim_rest _ _ H). destruct (d_rest d) as [|ch r]; cbn [mc map]; [split; [exact I|split; [apply fail_sim, H|reflexivity]]|].
      rewrite (mend_rune (class_match c) ch H0). destruct (class_match c (gc_rune ch)).
      + split; [constructor; apply char_raw; inversion Hk; assumption|]. split; [|reflexivity]. apply fail_sim, read_sim, H.
      + split; [exact I|]. split; [|reflexivity]. apply fail_sim, H.
    - pose proof (sim_okc _ _ H) as Hk. rewrite <- (sim_pt _ _ H), (sim_rest _ _ H). destruct (d_rest d) as [|ch r]; cbn [mc map]; [split; [exact I|split; [apply fail_sim, H|reflexivity]]|].
      split; [constructor; apply char_raw; inversion Hk; assumption|]. split; [|reflexivity]. apply fail_sim, read_sim, H.
    - rewrite <- (sim_rstack _ _ H). pose proof (IH (rules r) _ _ (Hrules r) (sim_set_rstack _ _ (r :: d_rstack d) (sim_set_env _ _ _ _ H esim_nil))) as X. both.
      + split; [exact X1|]. split; [|reflexivity]. apply sim_set_rstack, sim_set_env; assumption.
      + split; [exact X1|]. split; [|reflexivity]. apply sim_set_rstack, sim_set_env; assumption.
      + split; [exact X1|]. split; [|reflexivity]. apply sim_set_env; assumption.
    - apply star_sim; [|exact H|constructor]. intros x x' Hx. apply IH; assumption.
    - apply star_sim; [|exact H|constructor]. intros x x' Hx. apply IH; assumption.
    - pose proof (IH e _ _ He (sim_set_env _ _ _ _ H esim_nil)) as X. both.
      + split; [exact X1|]. split; [|reflexivity]. apply sim_set_env; assumption.
      + split; [constructor|]. split; [|reflexivity]. apply sim_set_env; assumption.
      + split; [exact X1|]. auto.
    - rewrite <- (sim_invert _ _ H). pose proof (IH e _ _ He (sim_set_invert _ _ (negb (d_invert d)) (sim_set_env _ _ _ _ H esim_nil))) as X. both.
      + split; [exact I|]. split; [|reflexivity]. apply sim_back; [|exact H]. apply sim_set_st; [|exact H]. apply sim_set_env; [|exact Hen]. apply sim_set_invert, X2.
      + split; [constructor|]. split; [|reflexivity]. apply sim_back; [|exact H]. apply sim_set_st; [|exact H]. apply sim_set_env; [|exact Hen]. apply sim_set_invert, X2.
      + split; [exact X1|]. auto.
    - rewrite <- (sim_st _ _ H). specialize (H0 (d_st d)). destruct (g (d_st d)) as ([v|m|m], st').
      + split; [constructor|]. split; [|reflexivity]. apply sim_set_stv, H.
      + destruct H0.
      + split; [reflexivity|]. auto.
  Qed.
End Rules.

Ltac g_one := match goal with
  | |- good (EAction act_u_roll_expr _) => apply g_bonus; [apply bonus_good|]
  | |- good (EAction _ _) => apply g_action
  | |- good (ELabel _ _) => apply g_label
  | |- good (EChoice _) => apply g_choice
  | |- good (ESeq _) => apply g_seq
  | |- good (ELit _ _) => apply g_lit; vm_compute; repeat (apply Forall_cons; [split; intros Hlit; discriminate Hlit|]); apply Forall_nil
  | |- good (EClass _) => apply g_class; reflexivity
  | |- good EAny => apply g_any
  | |- good (ERef _) => apply g_ref
  | |- good (EStar _) => apply g_star
  | |- good (EPlus _) => apply g_plus
  | |- good (EOpt _) => apply g_opt
  | |- good (ENot _) => apply g_not
  | |- good (Peg.EState _) => apply g_state; intros [k|]; exact I
  | |- Forall good [] => apply Forall_nil
  | |- Forall good (_ :: _) => apply Forall_cons
  | |- acts_sim (act_label _) => apply act_label_sim
  | |- acts_sim (act_node _) => apply act_node_sim
  | |- acts_sim (act_unary_minus _) => apply act_unary_minus_sim
  | |- acts_sim act_choice_items => apply act_choice_items_sim
  | |- acts_sim act_choice_chars => apply act_choice_chars_sim
  | |- acts_sim act_calc => apply act_calc_sim
  | |- acts_sim (act_d_command _) => apply act_d_command_sim
  | |- acts_sim act_b_roll_list => apply act_b_roll_list_sim
  | |- acts_sim (act_compare _) => apply act_compare_sim; intros; reflexivity
  | |- acts_sim act_r_roll_list => apply act_r_roll_list_sim
  | |- acts_sim act_integer => apply act_integer_sim
  end.
Lemma first_rest_additive : acts_sim (act_first_rest left_assoc_additive).
Proof.
  intros e e' t t' st He _. unfold act_first_rest, left_assoc_additive. eapply abind_sim; [apply as_node_sim; look|]. intros n n' Hn. eapply abind_sim; [apply to_iface_sim; look|].
  intros o o' Ho. apply additive_loop_sim; [apply elems_sim, Ho|exact Hn].
Qed.
Lemma first_rest_multitive : acts_sim (act_first_rest left_assoc_multitive).
Proof.
  intros e e' t t' st He _. unfold act_first_rest, left_assoc_multitive. eapply abind_sim; [apply as_node_sim; look|]. intros n n' Hn. eapply abind_sim; [apply to_iface_sim; look|].
  intros o o' Ho. apply multitive_loop_sim; [apply elems_sim, Ho|exact Hn].
Qed.
Lemma act_var_sim k a b : acts_sim (act_var k a b).
Proof.
  intros e e' t t' st He _. unfold act_var. eapply abind_sim; [apply as_node_sim; look|]. intros n n' Hn. eapply abind_sim; [apply as_node_sim; look|]. intros m m' Hm. constructor. reflexivity.
Qed.
Lemma rules_good r : good (rules r).
Proof.
  destruct r; cbn [rules]; unfold additive, multitive, parenthesized, unary_plus, unary_minus, roll_rule, compare_rule, r_list_rule, lit, lit_i, cls_Z, cls_not_item, cls_ur, cls_digit;
    repeat first [apply first_rest_additive | apply first_rest_multitive | apply act_var_sim | g_one].
Qed.
