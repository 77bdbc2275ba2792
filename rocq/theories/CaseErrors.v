(** The error texts of the parser do not depend on the case of ASCII letters: a simulation of the detailed engine on two texts. *)
From Verif Require Import Grammar ProofBase Peg PegText PegProofs ErrErase SpecText SpecGrammar TextFacts CaseProofs Utf8.
From Coq Require Import Lia.
Open Scope list_scope.
Open Scope Z_scope.

(** What the actions can observe of a value besides strings that they only pass on *)
Definition kind (n : node) : nat :=
  match n with NInfix (OpVar _) _ _ => 1%nat | NString _ => 2%nat | NRRollList _ _ => 3%nat | _ => 0%nat end.
Inductive vsim : val -> val -> Prop :=
| vsim_nil : vsim VNil VNil
| vsim_bytes s s' : lowercase s = lowercase s' -> vsim (VBytes s) (VBytes s')
| vsim_slice l l' : Forall2 vsim l l' -> vsim (VSlice l) (VSlice l')
| vsim_node n n' : kind n = kind n' -> vsim (VNode n) (VNode n').
Definition esim (e e' : env) : Prop := Forall2 (fun x y => fst x = fst y /\ vsim (snd x) (snd y)) e e'.
Definition asim (a a' : ares) : Prop :=
  match a, a' with
  | AVal v, AVal v' => vsim v v'
  | AErr m, AErr m' => m = m'
  | APanic m, APanic m' => m = m'
  | _, _ => False
  end.
Lemma lookup_sim l e e' : esim e e' -> vsim (lookup l e) (lookup l e').
Proof.
  induction 1 as [|(k, v) (k', v') e e' (H1 & H2) _ IH]; [constructor|]. cbn [fst snd] in *. subst k'. cbn [lookup]. destruct (String.eqb k l); assumption.
Qed.
(** results of type [A + string] *)
Definition ssim {A} (Q : A -> A -> Prop) (x y : A + string) : Prop :=
  match x, y with inl a, inl b => Q a b | inr p, inr q => p = q | _, _ => False end.
Lemma abind_sim {A} (Q : A -> A -> Prop) x y k k' : ssim Q x y -> (forall a b, Q a b -> asim (k a) (k' b)) -> asim (abind x k) (abind y k').
Proof. destruct x, y; cbn; intros H1 H2; try contradiction; auto. Qed.
Definition nsim (n n' : node) : Prop := kind n = kind n'.
Definition bsim (s s' : string) : Prop := lowercase s = lowercase s'.
Definition osim (o o' : option (list val)) : Prop := match o, o' with Some l, Some l' => Forall2 vsim l l' | None, None => True | _, _ => False end.
Lemma as_node_sim v v' : vsim v v' -> ssim nsim (as_node v) (as_node v').
Proof. intros []; cbn; auto. Qed.
Lemma as_bytes_sim v v' : vsim v v' -> ssim bsim (as_bytes v) (as_bytes v').
Proof. intros []; cbn; auto. Qed.
Lemma to_iface_sim v v' : vsim v v' -> ssim osim (to_iface_slice v) (to_iface_slice v').
Proof. intros []; cbn; auto. Qed.
Lemma as_vroll_sim v v' : vsim v v' -> ssim (fun _ _ => True) (as_vroll v) (as_vroll v').
Proof. intros [| | |n n' H]; cbn; auto. destruct n as [| | | | | |op ? ?| | | | |]; try (destruct op); destruct n' as [| | | | | |op' ? ?| | | | |]; try (destruct op'); try discriminate H; cbn; auto. Qed.
Lemma as_string_sim v v' : vsim v v' -> ssim (fun _ _ => True) (as_string_node v) (as_string_node v').
Proof. intros [| | |n n' H]; cbn; auto. destruct n as [| | | | | |op ? ?| | | | |]; try (destruct op); destruct n' as [| | | | | |op' ? ?| | | | |]; try (destruct op'); try discriminate H; cbn; auto. Qed.
Lemma elems_sim o o' : osim o o' -> Forall2 vsim (slice_elems o) (slice_elems o').
Proof. destruct o, o'; cbn; try contradiction; auto. Qed.
Lemma index_sim l l' i : Forall2 vsim l l' -> ssim vsim (Grammar.index l i) (Grammar.index l' i).
Proof.
  intros H. revert i. unfold Grammar.index. induction H as [|v v' l l' Hv _ IH]; intros [|i]; cbn [nth_error]; try (cbn; reflexivity); [exact Hv|apply IH].
Qed.
Lemma letter_symbol a w : In w ["+"; "-"; "*"; "/"]%char -> lower_ascii_letter a = w -> a = w.
Proof. intros H. cbn [In] in H. destruct H as [<-|[<-|[<-|[<-|[]]]]]; destruct a as [[] [] [] [] [] [] [] []]; vm_compute; intros E; first [reflexivity|discriminate E]. Qed.
Lemma bsim_symbol s s' w : In w ["+"; "-"; "*"; "/"]%char -> bsim s s' -> String.eqb s (String w EmptyString) = String.eqb s' (String w EmptyString).
Proof.
  intros Hw H.
  assert (forall a b, bsim a b -> a = String w EmptyString -> b = String w EmptyString) as X.
  { intros a b E ->. unfold bsim in E. destruct b as [|x [|y b]]; cbn [lowercase] in E; try discriminate E. injection E as E. f_equal. apply letter_symbol; [exact Hw|].
    rewrite <- E. cbn [In] in Hw. destruct Hw as [<-|[<-|[<-|[<-|[]]]]]; reflexivity. }
  destruct (String.eqb_spec s (String w EmptyString)) as [E|E], (String.eqb_spec s' (String w EmptyString)) as [E'|E']; try reflexivity; exfalso.
  - apply E', (X s s' H E).
  - apply E, (X s' s (eq_sym H) E').
Qed.
Lemma ur_upper s w : In w ["U"; "R"]%char -> String.eqb (to_upper_ur s) (String w EmptyString) = String.eqb (lowercase s) (String (lower_ascii_letter w) EmptyString).
Proof.
  intros Hw. cbn [In] in Hw. destruct Hw as [<-|[<-|[]]]; destruct s as [|a [|b s]]; try reflexivity;
    try (destruct a as [[] [] [] [] [] [] [] []]; vm_compute; reflexivity);
    unfold to_upper_ur; cbn [String.eqb lowercase]; repeat match goal with |- context [if ?b then _ else _] => destruct b end; cbn [String.eqb];
    repeat match goal with |- context [if ?b then _ else _] => destruct b end; reflexivity.
Qed.
Lemma ur_empty s : String.eqb (to_upper_ur s) "" = String.eqb (lowercase s) "".
Proof. destruct s as [|a s]; [reflexivity|]. unfold to_upper_ur. cbn [lowercase]. destruct (String.eqb (String a s) "u"); [reflexivity|]. destruct (String.eqb (String a s) "r"); reflexivity. Qed.
Definition msim (s s' : string) : Prop := forall w, In w ["U"; "R"; ""]%string -> String.eqb s w = String.eqb s' w.
Lemma msim_upper s s' : bsim s s' -> msim (to_upper_ur s) (to_upper_ur s').
Proof.
  intros H w Hw. unfold bsim in H. cbn [In] in Hw. destruct Hw as [<-|[<-|[<-|[]]]].
  - rewrite !(ur_upper _ "U"%char) by (cbn; auto). rewrite H. reflexivity.
  - rewrite !(ur_upper _ "R"%char) by (cbn; auto). rewrite H. reflexivity.
  - rewrite !ur_empty, H. reflexivity.
Qed.

Definition acts_sim (a : action) : Prop := forall e e' t t' st, esim e e' -> lc t = lc t' -> asim (a e t st) (a e' t' st).
Lemma additive_loop_sim l l' : Forall2 vsim l l' -> forall n n', nsim n n' -> asim (additive_loop n l) (additive_loop n' l').
Proof.
  induction 1 as [|v v' l l' Hv _ IH]; intros n n' Hn; cbn [additive_loop]; [constructor; exact Hn|].
  eapply abind_sim; [apply to_iface_sim, Hv|intros o o' Ho; cbv beta]. apply elems_sim in Ho.
  eapply abind_sim; [apply index_sim, Ho|intros x x' Hx; cbv beta]. eapply abind_sim; [apply as_bytes_sim, Hx|intros op op' Hop; cbv beta].
  eapply abind_sim; [apply index_sim, Ho|intros y y' Hy; cbv beta]. eapply abind_sim; [apply as_node_sim, Hy|intros r r' Hr; cbv beta].
  apply IH. rewrite (bsim_symbol op op' "+"%char), (bsim_symbol op op' "-"%char) by (cbn; auto). destruct (String.eqb op' "+"); [reflexivity|]. destruct (String.eqb op' "-"); [reflexivity|exact Hn].
Qed.
Lemma multitive_loop_sim l l' : Forall2 vsim l l' -> forall n n', nsim n n' -> asim (multitive_loop n l) (multitive_loop n' l').
Proof.
  induction 1 as [|v v' l l' Hv _ IH]; intros n n' Hn; cbn [multitive_loop]; [constructor; exact Hn|].
  eapply abind_sim; [apply to_iface_sim, Hv|intros o o' Ho; cbv beta]. apply elems_sim in Ho.
  eapply abind_sim; [apply index_sim, Ho|intros x x' Hx; cbv beta]. eapply abind_sim; [apply as_bytes_sim, Hx|intros op op' Hop; cbv beta].
  eapply abind_sim; [apply index_sim, Ho|intros y y' Hy; cbv beta]. eapply abind_sim; [apply as_node_sim, Hy|intros r r' Hr; cbv beta].
  apply (abind_sim msim).
  - pose proof (index_sim _ _ 2%nat Ho) as H2. unfold Grammar.index in H2. destruct (nth_error (slice_elems o) 2) as [b|], (nth_error (slice_elems o') 2) as [b'|]; try (destruct H2; fail); [|intros w _; reflexivity].
    cbn [ssim] in H2. apply as_bytes_sim in H2. destruct (as_bytes b), (as_bytes b'); try (destruct H2; fail); [|exact H2]. apply msim_upper, H2.
  - intros m m' Hm. apply IH. rewrite (bsim_symbol op op' "*"%char), (bsim_symbol op op' "/"%char) by (cbn; auto). rewrite !Hm by (cbn; auto).
    repeat match goal with |- context [if ?b then _ else _] => destruct b end; try reflexivity; exact Hn.
Qed.
Lemma items_loop_sim l l' : Forall2 vsim l l' -> forall i i', asim (items_loop i l) (items_loop i' l').
Proof.
  induction 1 as [|v v' l l' Hv _ IH]; intros i i'; cbn [items_loop]; [constructor; reflexivity|].
  eapply abind_sim; [apply to_iface_sim, Hv|intros o o' Ho; cbv beta]. apply elems_sim in Ho.
  eapply abind_sim; [apply index_sim, Ho|intros x x' Hx; cbv beta]. eapply abind_sim; [apply as_string_sim, Hx|intros s s' _; cbv beta]. apply IH.
Qed.
Lemma rolls_loop_sim k k' : (forall a b, nsim (k a) (k' b)) -> forall l l', Forall2 vsim l l' -> forall i i', asim (rolls_loop k i l) (rolls_loop k' i' l').
Proof.
  intros Hk. induction 1 as [|v v' l l' Hv _ IH]; intros i i'; cbn [rolls_loop]; [constructor; apply Hk|].
  eapply abind_sim; [apply to_iface_sim, Hv|intros o o' Ho; cbv beta]. apply elems_sim in Ho.
  eapply abind_sim; [apply index_sim, Ho|intros x x' Hx; cbv beta]. eapply abind_sim; [apply as_vroll_sim, Hx|intros s s' _; cbv beta]. apply IH.
Qed.
Ltac look := apply lookup_sim; assumption.
Lemma act_label_sim l : acts_sim (act_label l).
Proof. intros e e' t t' st He Ht. unfold act_label. cbn [asim]. look. Qed.
Lemma act_node_sim l : acts_sim (act_node l).
Proof. intros e e' t t' st He Ht. unfold act_node. eapply abind_sim; [apply as_node_sim; look|]. intros n n' Hn. constructor. exact Hn. Qed.
Lemma act_unary_minus_sim l : acts_sim (act_unary_minus l).
Proof. intros e e' t t' st He Ht. unfold act_unary_minus. eapply abind_sim; [apply as_node_sim; look|]. intros n n' Hn. constructor. reflexivity. Qed.
Lemma act_choice_items_sim : acts_sim act_choice_items.
Proof.
  intros e e' t t' st He Ht. unfold act_choice_items. eapply abind_sim; [apply as_string_sim; look|]. intros s s' _. eapply abind_sim; [apply to_iface_sim; look|].
  intros o o' Ho. apply items_loop_sim, elems_sim, Ho.
Qed.
Lemma act_choice_chars_sim : acts_sim act_choice_chars.
Proof. intros e e' t t' st He Ht. unfold act_choice_chars. constructor. reflexivity. Qed.
Lemma act_integer_sim : acts_sim act_integer.
Proof. intros e e' t t' st He Ht. unfold act_integer. constructor. reflexivity. Qed.
Lemma act_calc_sim : acts_sim act_calc.
Proof. intros e e' t t' st He Ht. unfold act_calc. eapply abind_sim; [apply as_node_sim; look|]. intros n n' Hn. constructor. reflexivity. Qed.
Lemma act_d_command_sim c : acts_sim (act_d_command c).
Proof.
  intros e e' t t' st He Ht. unfold act_d_command. destruct st as [k|]; [|reflexivity]. destruct (k <? 1); [reflexivity|].
  eapply abind_sim; [apply as_node_sim; look|]. intros n n' Hn. constructor. reflexivity.
Qed.
Lemma act_b_roll_list_sim : acts_sim act_b_roll_list.
Proof.
  intros e e' t t' st He Ht. unfold act_b_roll_list. eapply abind_sim; [apply as_vroll_sim; look|]. intros b b' _. eapply abind_sim; [apply to_iface_sim; look|].
  intros o o' Ho. apply rolls_loop_sim; [reflexivity|apply elems_sim, Ho].
Qed.
Lemma act_compare_sim w : (forall op l r op' l' r', nsim (w (NInfix (OpCmp op) l r)) (w (NInfix (OpCmp op') l' r'))) -> acts_sim (act_compare w).
Proof.
  intros Hw e e' t t' st He Ht. unfold act_compare. eapply abind_sim; [apply as_node_sim; look|]. intros l l' _. eapply abind_sim; [apply as_bytes_sim; look|]. intros op op' _.
  eapply abind_sim; [apply as_node_sim; look|]. intros r r' _. constructor. apply Hw.
Qed.
Lemma act_r_roll_list_sim : acts_sim act_r_roll_list.
Proof.
  intros e e' t t' st He Ht. unfold act_r_roll_list. eapply abind_sim; [apply to_iface_sim; look|]. intros ths ths' Hths. apply (abind_sim (fun _ _ => True)).
  - destruct ths as [l|], ths' as [l'|]; try (destruct Hths; fail); [|exact I]. cbn [osim] in Hths. pose proof (index_sim _ _ 1%nat Hths) as H. destruct (Grammar.index l 1), (Grammar.index l' 1); try (destruct H; fail); [|exact H].
    cbn [ssim] in H. apply as_node_sim in H. destruct (as_node v), (as_node v0); try (destruct H; fail); [exact I|exact H].
  - intros th th' _. eapply abind_sim; [apply as_vroll_sim; look|]. intros b b' _. eapply abind_sim; [apply to_iface_sim; look|].
    intros o o' Ho. apply rolls_loop_sim; [reflexivity|apply elems_sim, Ho].
Qed.
Definition bonus_ok (e : env) : Prop := forall op l, lookup "bonus" e = VSlice (VBytes op :: l) -> op = "+"%string \/ op = "-"%string.
Lemma act_u_roll_expr_sim e e' t t' st : bonus_ok e -> esim e e' -> asim (act_u_roll_expr e t st) (act_u_roll_expr e' t' st).
Proof.
  intros Hok He. unfold act_u_roll_expr.
  assert (forall b b', asim (match lookup "uRollList" e with VNode (NRRollList rolls th) => AVal (VNode (NURollExpr rolls th b)) | _ => APanic "interface conversion: not *ast.RRollList" end)
    (match lookup "uRollList" e' with VNode (NRRollList rolls th) => AVal (VNode (NURollExpr rolls th b')) | _ => APanic "interface conversion: not *ast.RRollList" end)) as Hf.
  { intros b b'. pose proof (lookup_sim "uRollList" e e' He) as H. destruct H as [| | |n n' H]; try reflexivity.
    destruct n as [| | | | | |op ? ?| | | | |]; try (destruct op); destruct n' as [| | | | | |op' ? ?| | | | |]; try (destruct op'); try discriminate H; cbn; try reflexivity; constructor; reflexivity. }
  unfold bonus_ok in Hok. pose proof (lookup_sim "bonus" e e' He) as Hb. destruct Hb as [|s s' Hs|l l' Hl|n n' Hn]; cbn [to_iface_slice abind]; cbv zeta; [apply Hf|reflexivity| |reflexivity].
  destruct Hl as [|x x' l l' Hx Hl]; [reflexivity|]. cbn [Grammar.index nth_error abind]. destruct Hx as [|s s' Hs|k k' Hk|n n' Hn]; cbn [as_bytes abind]; try reflexivity.
  eapply abind_sim; [apply (index_sim _ _ 1%nat (Forall2_cons _ _ (vsim_bytes _ _ Hs) Hl))|]. intros y y' Hy. eapply abind_sim; [apply as_node_sim, Hy|]. intros r r' _.
  rewrite <- (bsim_symbol s s' "+"%char), <- (bsim_symbol s s' "-"%char) by (try exact Hs; cbn; auto).
  destruct (Hok s l eq_refl) as [-> | ->]; cbn; apply Hf.
Qed.

(** ** The engine *)
Inductive sim : dstate rule -> dstate rule -> Prop :=
  sim_intro p r r' st er en en' rs fl ex iv : lc r = lc r' -> Forall plain r -> esim en en' -> sim (DState p r st er en rs fl ex iv) (DState p r' st er en' rs fl ex iv).
Definition rsim (r r' : pres) : Prop :=
  match r, r' with PMatch v, PMatch v' => vsim v v' | PFail, PFail => True | PPanic m, PPanic m' => m = m' | _, _ => False end.
Definition outsim (o o' : @dout rule) : Prop :=
  match o, o' with
  | Some (r, d, n), Some (r', d', n') => rsim r r' /\ sim d d' /\ n = n'
  | None, None => True
  | _, _ => False
  end.
Lemma lc_length t t' : lc t = lc t' -> length t = length t'.
Proof. intros H. apply (f_equal (@length _)) in H. unfold lc in H. rewrite !map_length in H. exact H. Qed.
Lemma lc_cons c t t' : lc (c :: t) = lc t' -> exists c' u, t' = c' :: u /\ lower_char c = lower_char c' /\ lc t = lc u.
Proof. destruct t' as [|c' u]; [discriminate|]. unfold lc. cbn [map]. intros H. exists c', u. assert (lower_char c = lower_char c' /\ map lower_char t = map lower_char u) as (A & B) by (split; [exact (f_equal (hd c) H)|exact (f_equal (@tl _) H)]). auto. Qed.
Lemma slice_sim a a' b b' : lc a = lc a' -> lc b = lc b' -> lc (slice_from a b) = lc (slice_from a' b').
Proof.
  intros Ha Hb. unfold slice_from. rewrite (lc_length _ _ Ha), (lc_length _ _ Hb). unfold lc in *. rewrite <- !firstn_map, Ha. reflexivity.
Qed.
Lemma raw_sim t t' : lc t = lc t' -> lowercase (raw_text t) = lowercase (raw_text t').
Proof. intros H. rewrite <- !raw_lower. unfold lc in H. rewrite H. reflexivity. Qed.
Lemma char_raw c c' : lower_char c = lower_char c' -> lowercase (gc_raw c) = lowercase (gc_raw c').
Proof. unfold lower_char. intros H. injection H. auto. Qed.
Lemma arrive_sim d d' : sim d d' -> sim (d_arrive d) (d_arrive d').
Proof.
  intros [p r r' st er en en' rs fl ex iv Hr Hp He]. unfold d_arrive. cbn [d_rest d_pt]. destruct r as [|c r], r' as [|c' r']; try discriminate Hr; [constructor; assumption|].
  destruct (lc_cons _ _ _ Hr) as (c1 & u & E & Hc & Hu). injection E as <- <-. rewrite <- (bad_lower c), <- (bad_lower c'), Hc.
  assert ((gc_rune c =? 10) = (gc_rune c' =? 10)) as Hn.
  { apply lc_rune in Hc. unfold lower_rune, in_range in Hc. destruct ((65 <=? gc_rune c) && (gc_rune c <=? 90)) eqn:E1, ((65 <=? gc_rune c') && (gc_rune c' <=? 90)) eqn:E2; lia. }
  rewrite Hn. destruct (gc_rune c' =? 10), (gc_bad (lower_char c')); constructor; assumption.
Qed.
Lemma plain_tl r : Forall plain r -> Forall plain (tl r).
Proof. intros []; [constructor|assumption]. Qed.
Lemma read_sim d d' : sim d d' -> sim (d_read d) (d_read d').
Proof.
  intros H. unfold d_read. apply arrive_sim. destruct H as [p r r' st er en en' rs fl ex iv Hr Hp He]. cbn [d_rest d_pt].
  assert (lc (tl r) = lc (tl r')) as Ht by (destruct r as [|c r], r' as [|c' r']; try discriminate Hr; [reflexivity|]; destruct (lc_cons _ _ _ Hr) as (c1 & u & E & Hc & Hu); injection E as <- <-; exact Hu).
  assert (match r with c :: _ => Z.of_nat (String.length (gc_raw c)) | [] => 0 end = match r' with c :: _ => Z.of_nat (String.length (gc_raw c)) | [] => 0 end) as ->.
  { destruct r as [|c r], r' as [|c' r']; try discriminate Hr; [reflexivity|]. destruct (lc_cons _ _ _ Hr) as (c1 & u & E & Hc & Hu). injection E as <- <-.
    apply char_raw in Hc. rewrite <- (lowercase_length (gc_raw c)), Hc, lowercase_length. reflexivity. }
  constructor; [exact Ht|apply plain_tl, Hp|exact He].
Qed.
Lemma fail_sim b p w d d' : sim d d' -> sim (fail_at d b p w) (fail_at d' b p w).
Proof.
  intros [q r r' st er en en' rs fl ex iv Hr Hp He]. unfold fail_at. cbn [d_invert d_fail]. destruct (Bool.eqb b iv); [|constructor; assumption]. destruct (p_offset p <? p_offset fl); constructor; assumption.
Qed.
Definition symbol (z : Z) : Prop := ~ 65 <= z <= 90 /\ ~ 97 <= z <= 122.
Lemma lit_sim lt ic : (ic = false -> Forall symbol lt) -> forall d d', sim d d' ->
  fst (d_lit_loop lt ic d) = fst (d_lit_loop lt ic d') /\ sim (snd (d_lit_loop lt ic d)) (snd (d_lit_loop lt ic d')).
Proof.
  intros Hs. induction lt as [|w lt IH]; intros d d' H; cbn [d_lit_loop]; [auto|].
  assert (lc (d_rest d) = lc (d_rest d')) as Hr by (destruct H; assumption).
  destruct (d_rest d) as [|c r], (d_rest d') as [|c' r']; try discriminate Hr; [auto|]. destruct (lc_cons _ _ _ Hr) as (c1 & u & E & Hc & Hu). injection E as <- <-. apply lc_rune in Hc.
  assert (((if ic then to_lower (gc_rune c) else gc_rune c) =? w) = ((if ic then to_lower (gc_rune c') else gc_rune c') =? w)) as ->.
  { destruct ic; [rewrite <- (to_lower_rune (gc_rune c)), <- (to_lower_rune (gc_rune c')), Hc; reflexivity|].
    specialize (Hs eq_refl). inversion Hs as [|? ? (S1 & S2) _]. subst. unfold lower_rune, in_range in Hc. destruct ((65 <=? gc_rune c) && (gc_rune c <=? 90)) eqn:E1, ((65 <=? gc_rune c') && (gc_rune c' <=? 90)) eqn:E2; lia. }
  destruct (_ =? w); [|auto]. apply IH; [intros E; specialize (Hs E); inversion Hs; assumption|apply read_sim, H].
Qed.
Lemma sim_env d d' : sim d d' -> esim (d_env d) (d_env d').
Proof. intros []; assumption. Qed.
Lemma sim_rest d d' : sim d d' -> lc (d_rest d) = lc (d_rest d').
Proof. intros []; assumption. Qed.
Lemma sim_set_env d d' e e' : sim d d' -> esim e e' -> sim (d_set_env d e) (d_set_env d' e').
Proof. intros [] He. constructor; assumption. Qed.
Lemma esim_nil : esim [] [].
Proof. constructor. Qed.
Lemma sim_back d d' x x' : sim d d' -> sim x x' -> sim (d_set_point d (d_pt x) (d_rest x)) (d_set_point d' (d_pt x') (d_rest x')).
Proof. intros [] []. constructor; assumption. Qed.
Lemma sim_point d d' p r r' : sim d d' -> lc r = lc r' -> Forall plain r -> sim (d_set_point d p r) (d_set_point d' p r').
Proof. intros [] A1 A2. constructor; assumption. Qed.
Lemma sim_set_st d d' x x' : sim d d' -> sim x x' -> sim (d_set_st d (d_st x)) (d_set_st d' (d_st x')).
Proof. intros [] []. constructor; assumption. Qed.
Lemma sim_st d d' : sim d d' -> d_st d = d_st d'.
Proof. intros []. reflexivity. Qed.
Lemma sim_pt d d' : sim d d' -> d_pt d = d_pt d'.
Proof. intros []. reflexivity. Qed.
Lemma sim_rstack d d' : sim d d' -> d_rstack d = d_rstack d'.
Proof. intros []. reflexivity. Qed.
Lemma sim_invert d d' : sim d d' -> d_invert d = d_invert d'.
Proof. intros []. reflexivity. Qed.
Lemma sim_set_rstack d d' l : sim d d' -> sim (d_set_rstack d l) (d_set_rstack d' l).
Proof. intros []. constructor; assumption. Qed.
Lemma sim_set_invert d d' l : sim d d' -> sim (d_set_invert d l) (d_set_invert d' l).
Proof. intros []. constructor; assumption. Qed.
Lemma sim_set_stv d d' g : sim d d' -> sim (d_set_st d g) (d_set_st d' g).
Proof. intros []. constructor; assumption. Qed.
Lemma sim_err d d' m p : sim d d' -> sim (d_err_at d m p) (d_err_at d' m p).
Proof. intros []. constructor; assumption. Qed.

Inductive good : expr rule -> Prop :=
| g_action a e : acts_sim a -> good e -> good (EAction a e)
| g_bonus e : (forall f d v d' n, Forall plain (d_rest d) -> dexpr rules f e d = Some (PMatch v, d', n) -> bonus_ok (d_env d')) -> good e -> good (EAction act_u_roll_expr e)
| g_label l e : good e -> good (ELabel l e)
| g_choice es : Forall good es -> good (EChoice es)
| g_seq es : Forall good es -> good (ESeq es)
| g_lit lt ic : (ic = false -> Forall symbol lt) -> good (ELit lt ic)
| g_class c : (forall r r', lower_rune r = lower_rune r' -> class_match c r = class_match c r') -> good (EClass c)
| g_any : good EAny
| g_ref r : good (ERef r)
| g_star e : good e -> good (EStar e)
| g_plus e : good e -> good (EPlus e)
| g_opt e : good e -> good (EOpt e)
| g_not e : good e -> good (ENot e)
| g_state g : good (Peg.EState g).
Definition psim (p : expr rule -> dstate rule -> @dout rule) : Prop := forall e d d', good e -> sim d d' -> outsim (p e d) (p e d').
Lemma seq_sim p : psim p -> forall es, Forall good es -> forall d0 d0' d d' vs vs' n, sim d0 d0' -> sim d d' -> Forall2 vsim vs vs' ->
  outsim (d_seq_loop p es d0 d vs n) (d_seq_loop p es d0' d' vs' n).
Proof.
  intros Hp. induction 1 as [|e es He _ IH]; intros d0 d0' d d' vs vs' n H0 H Hv; cbn [d_seq_loop].
  - split; [constructor; exact Hv|]. auto.
  - pose proof (Hp e d d' He H) as X. destruct (p e d) as [(([v| |m], x), k)|], (p e d') as [(([v'| |m'], x'), k')|]; try (destruct X as (X & _); destruct X; fail); try (destruct X; fail); try exact I; destruct X as (X1 & X2 & <-).
    + apply IH; [exact H0|exact X2|]. apply Forall2_app; [exact Hv|]. constructor; [exact X1|constructor].
    + split; [exact I|]. split; [|reflexivity]. apply sim_back; [|exact H0]. apply sim_set_st; assumption.
    + split; [exact X1|]. auto.
Qed.
Lemma choice_sim p : psim p -> forall es, Forall good es -> forall d d' n, sim d d' -> outsim (d_choice_loop p es d n) (d_choice_loop p es d' n).
Proof.
  intros Hp. induction 1 as [|e es He _ IH]; intros d d' n H; cbn [d_choice_loop].
  - split; [exact I|]. auto.
  - pose proof (Hp e _ _ He (sim_set_env _ _ _ _ H esim_nil)) as X.
    destruct (p e (d_set_env d [])) as [(([v| |m], x), k)|], (p e (d_set_env d' [])) as [(([v'| |m'], x'), k')|]; try (destruct X as (X & _); destruct X; fail); try (destruct X; fail); try exact I; destruct X as (X1 & X2 & <-).
    + split; [exact X1|]. split; [|reflexivity]. apply sim_set_env; [exact X2|apply sim_env, H].
    + apply IH. apply sim_set_env; [|apply sim_env, H]. apply sim_set_st; assumption.
    + split; [exact X1|]. auto.
Qed.
Lemma star_sim p : (forall d d', sim d d' -> outsim (p d) (p d')) -> forall need k d d' vs vs' n, sim d d' -> Forall2 vsim vs vs' -> outsim (d_star_loop k p need d vs n) (d_star_loop k p need d' vs' n).
Proof.
  intros Hp need. induction k as [|k IH]; intros d d' vs vs' n H Hv; cbn [d_star_loop]; [exact I|].
  pose proof (Hp _ _ (sim_set_env _ _ _ _ H esim_nil)) as X.
  destruct (p (d_set_env d [])) as [(([v| |m], x), j)|], (p (d_set_env d' [])) as [(([v'| |m'], x'), j')|]; try (destruct X as (X & _); destruct X; fail); try (destruct X; fail); try exact I; destruct X as (X1 & X2 & <-).
  - apply IH; [apply sim_set_env; [exact X2|apply sim_env, H]|]. apply Forall2_app; [exact Hv|]. constructor; [exact X1|constructor].
  - assert (sim (d_set_env x (d_env d)) (d_set_env x' (d_env d'))) as Y by (apply sim_set_env; [exact X2|apply sim_env, H]).
    destruct Hv as [|y y' vs vs' Hy Hv]; [destruct need|]; (split; [cbn [rsim]; try exact I; constructor; try constructor; assumption|]; auto).
  - split; [exact X1|]. auto.
Qed.
Section Rules.
  Hypothesis Hrules : forall r, good (rules r).
  Ltac both := match goal with
    | X : outsim ?a ?b |- _ => destruct a as [(([?v| |?m], ?x), ?k)|] eqn:?, b as [(([?v'| |?m'], ?x'), ?k')|]; try (exfalso; destruct X as (X & _); destruct X; fail); try (exfalso; destruct X; fail); try exact I; destruct X as (X1 & X2 & <-)
    end.
  Theorem dexpr_sim f : psim (dexpr rules f).
  Proof.
    induction f as [|f IH]; intros e d d' He H; [exact I|]. pose proof (sim_env _ _ H) as Hen. destruct He; cbn [dexpr].
    - pose proof (IH e d d' He H) as X. both; try (split; [exact X1|auto]; fail).
      pose proof (H0 _ _ _ _ (d_st x) (sim_env _ _ X2) (slice_sim _ _ _ _ (sim_rest _ _ H) (sim_rest _ _ X2))) as Y. rewrite <- (sim_st _ _ X2).
      destruct (a (d_env x) _ _), (a (d_env x') _ _); try (destruct Y; fail); cbn [asim] in Y.
      + split; [exact Y|auto].
      + subst. split; [constructor|]. split; [|reflexivity]. rewrite (sim_pt _ _ H). apply sim_err, X2.
      + split; [exact Y|auto].
    - pose proof (IH e d d' He H) as X. both; try (split; [exact X1|auto]; fail).
      assert (bonus_ok (d_env x)) as Hb. { eapply H0; [|eassumption]. destruct H; assumption. }
      pose proof (act_u_roll_expr_sim _ _ (slice_from (d_rest d) (d_rest x)) (slice_from (d_rest d') (d_rest x')) (d_st x) Hb (sim_env _ _ X2)) as Y. rewrite <- (sim_st _ _ X2).
      destruct (act_u_roll_expr (d_env x) _ _), (act_u_roll_expr (d_env x') _ _); try (destruct Y; fail); cbn [asim] in Y.
      + split; [exact Y|auto].
      + subst. split; [constructor|]. split; [|reflexivity]. rewrite (sim_pt _ _ H). apply sim_err, X2.
      + split; [exact Y|auto].
    - pose proof (IH e _ _ He (sim_set_env _ _ _ _ H esim_nil)) as X. both.
      + split; [exact X1|]. split; [|reflexivity]. apply sim_set_env; [exact X2|]. constructor; [split; [reflexivity|exact X1]|exact Hen].
      + split; [exact X1|]. split; [|reflexivity]. apply sim_set_env; assumption.
      + split; [exact X1|]. split; [|reflexivity]. apply sim_set_env; assumption.
    - apply choice_sim; assumption.
    - apply seq_sim; try assumption. constructor.
    - pose proof (lit_sim lt ic H0 d d' H) as X. destruct (d_lit_loop lt ic d) as (b, x), (d_lit_loop lt ic d') as (b', x'). cbn [fst snd] in X. destruct X as (<- & X2). rewrite <- (sim_pt _ _ H). destruct b.
      + split; [constructor; apply raw_sim, slice_sim; apply sim_rest; assumption|]. split; [|reflexivity]. apply fail_sim, X2.
      + split; [exact I|]. split; [|reflexivity]. apply sim_point; [apply fail_sim, X2|apply sim_rest, H|destruct H; assumption].
    - pose proof (sim_rest _ _ H) as Hr. rewrite <- (sim_pt _ _ H). destruct (d_rest d) as [|ch r], (d_rest d') as [|ch' r']; try discriminate Hr; [split; [exact I|split; [apply fail_sim, H|reflexivity]]|].
      destruct (lc_cons _ _ _ Hr) as (c1 & u & E & Hc & Hu). injection E as <- <-. rewrite (H0 _ _ (lc_rune _ _ Hc)). destruct (class_match c (gc_rune ch')).
      + split; [constructor; apply char_raw, Hc|]. split; [|reflexivity]. apply fail_sim, read_sim, H.
      + split; [exact I|]. split; [|reflexivity]. apply fail_sim, H.
    - pose proof (sim_rest _ _ H) as Hr. rewrite <- (sim_pt _ _ H). destruct (d_rest d) as [|ch r], (d_rest d') as [|ch' r']; try discriminate Hr; [split; [exact I|split; [apply fail_sim, H|reflexivity]]|].
      destruct (lc_cons _ _ _ Hr) as (c1 & u & E & Hc & Hu). injection E as <- <-.
      split; [constructor; apply char_raw, Hc|]. split; [|reflexivity]. apply fail_sim, read_sim, H.
    - rewrite <- (sim_rstack _ _ H). pose proof (IH (rules r) _ _ (Hrules r) (sim_set_rstack _ _ (r :: d_rstack d) (sim_set_env _ _ _ _ H esim_nil))) as X. both.
      + split; [exact X1|]. split; [|reflexivity]. apply sim_set_rstack, sim_set_env; assumption.
      + split; [exact X1|]. split; [|reflexivity]. apply sim_set_rstack, sim_set_env; assumption.
      + split; [exact X1|]. split; [|reflexivity]. apply sim_set_env; assumption.
    - apply star_sim; [|exact H|constructor]. intros x x' Hx. apply IH; assumption.
    - apply star_sim; [|exact H|constructor]. intros x x' Hx. apply IH; assumption.
    - pose proof (IH e _ _ He (sim_set_env _ _ _ _ H esim_nil)) as X. both.
      + split; [exact X1|]. split; [|reflexivity]. apply sim_set_env; assumption.
      + split; [constructor|]. split; [|reflexivity]. apply sim_set_env; assumption.
      + split; [exact X1|]. auto.
    - rewrite <- (sim_invert _ _ H). pose proof (IH e _ _ He (sim_set_invert _ _ (negb (d_invert d)) (sim_set_env _ _ _ _ H esim_nil))) as X. both.
      + split; [exact I|]. split; [|reflexivity]. apply sim_back; [|exact H]. apply sim_set_st; [|exact H]. apply sim_set_env; [|exact Hen]. apply sim_set_invert, X2.
      + split; [constructor|]. split; [|reflexivity]. apply sim_back; [|exact H]. apply sim_set_st; [|exact H]. apply sim_set_env; [|exact Hen]. apply sim_set_invert, X2.
      + split; [exact X1|]. auto.
    - rewrite <- (sim_st _ _ H). destruct (g (d_st d)) as ([v|m|m], st').
      + split; [constructor|]. split; [|reflexivity]. apply sim_set_stv, H.
      + split; [constructor|]. split; [|reflexivity]. unfold d_add_err. rewrite (sim_pt _ _ (sim_set_stv _ _ st' H)). apply sim_err, sim_set_stv, H.
      + split; [reflexivity|]. auto.
  Qed.
End Rules.

Lemma one_char (z : Z) r r' t : 0 <= z < 128 -> Forall plain (r :: r') -> gc_rune r = z -> slice_from (r :: r') r' = t -> raw_text t = String (byte_of z) EmptyString.
Proof.
  intros Hz Hp Hr <-. unfold slice_from. cbn [length]. replace (S (length r') - length r')%nat with 1%nat by lia. cbn [firstn raw_text]. inversion Hp as [|? ? P _]. subst. rewrite P by exact Hz. reflexivity.
Qed.
Lemma read_rest (d : dstate rule) : d_rest (d_read d) = tl (d_rest d).
Proof. unfold d_read, d_arrive. cbn [d_rest d_set_point]. destruct (tl (d_rest d)) as [|c r]; [reflexivity|]. destruct (gc_bad c); reflexivity. Qed.
Lemma symbol_lit f (z : Z) (d : dstate rule) v d' n : 0 <= z < 128 -> Forall plain (d_rest d) -> dexpr rules f (ELit [z] false) d = Some (PMatch v, d', n) -> v = VBytes (String (byte_of z) EmptyString).
Proof.
  intros Hz Hp. destruct f as [|f]; [discriminate|]. cbn [dexpr d_lit_loop]. destruct (d_rest d) as [|c r] eqn:E; [discriminate|]. destruct (gc_rune c =? z) eqn:Ez; [|discriminate].
  cbn [d_lit_loop]. intros H. injection H as <- _ _. f_equal. apply (one_char z c r); [exact Hz|exact Hp|lia|]. rewrite read_rest, E. reflexivity.
Qed.
Lemma plain_after f e (d : dstate rule) v d' n : dexpr rules f e d = Some (PMatch v, d', n) -> Forall plain (d_rest d) -> Forall plain (d_rest d').
Proof.
  intros H Hp. pose proof (erase_dexpr rules f e d) as E. rewrite H in E. cbn [erase_out] in E. pose proof (pexpr_ok rules f e (erase d)) as X. rewrite E in X. cbn [result_ok] in X.
  destruct X as (t & a & X & _). cbn [erase ps_rest] in X. rewrite X in Hp. apply Forall_app in Hp. apply Hp.
Qed.
Lemma bonus_good f (d : dstate rule) v d' n : Forall plain (d_rest d) ->
  dexpr rules f (ESeq [ELabel "uRollList" (ERef URollList); ELabel "bonus" (EOpt (ESeq [EChoice [lit "+"; lit "-"]; ERef IntExprAdditive]))]) d = Some (PMatch v, d', n) -> bonus_ok (d_env d').
Proof.
  intros Hp. destruct f as [|f]; [discriminate|]. cbn [dexpr d_seq_loop].
  destruct (dexpr rules f (ELabel "uRollList" (ERef URollList)) d) as [(([v1| |m1], d1), n1)|] eqn:E1; try discriminate. apply plain_after in E1; [|exact Hp].
  destruct (dexpr rules f (ELabel "bonus" _) d1) as [(([v2| |m2], d2), n2)|] eqn:E2; try discriminate. intros H. injection H as _ <- _.
  destruct f as [|f]; [discriminate|]. cbn [dexpr] in E2. destruct (dexpr rules f (EOpt _) (d_set_env d1 [])) as [(([v3| |m3], d3), n3)|] eqn:E3; try discriminate. injection E2 as _ <- _. cbn [d_env d_set_env].
  intros op l Hl. cbn in Hl. subst v3.
  destruct f as [|f]; [discriminate|]. cbn [dexpr] in E3. destruct (dexpr rules f (ESeq _) _) as [(([v4| |m4], d4), n4)|] eqn:E4; try discriminate. injection E3 as -> _ _.
  destruct f as [|f]; [discriminate|]. cbn [dexpr d_seq_loop] in E4. destruct (dexpr rules f (EChoice _) _) as [(([v5| |m5], d5), n5)|] eqn:E5; try discriminate.
  destruct (dexpr rules f (ERef IntExprAdditive) d5) as [(([v6| |m6], d6), n6)|]; try discriminate. cbn [app] in E4. injection E4 as -> _ _ _.
  destruct f as [|f]; [discriminate|]. cbn [dexpr d_choice_loop] in E5.
  destruct (dexpr rules f (lit "+") _) as [(([v7| |m7], d7), n7)|] eqn:E7; try discriminate.
  - injection E5 as -> _ _. apply symbol_lit in E7; [|vm_compute; split; [intros X; discriminate X|reflexivity]|exact E1]. injection E7 as ->. left. reflexivity.
  - destruct (dexpr rules f (lit "-") _) as [(([v8| |m8], d8), n8)|] eqn:E8; try discriminate. injection E5 as -> _ _.
    assert (d_rest d7 = d_rest d1) as Hd.
    { pose proof (erase_dexpr rules f (lit "+") (d_set_env (d_set_env (d_set_env d1 []) []) [])) as E. pose proof (pexpr_ok rules f (lit "+") (erase (d_set_env (d_set_env (d_set_env d1 []) []) []))) as X. rewrite E in X.
      match type of X with context [dexpr rules f (lit "+") ?y] => match type of E7 with dexpr rules f (lit "+") ?y' = _ => change y with y' in X end end. rewrite E7 in X. destruct X as (X & _). exact X. }
    apply symbol_lit in E8; [|vm_compute; split; [intros X; discriminate X|reflexivity]|cbn [d_rest d_set_env d_set_st]; rewrite Hd; exact E1]. injection E8 as ->. right. reflexivity.
Qed.
Lemma class_Z r r' : lower_rune r = lower_rune r' -> class_match (CharClass [] [] true false false) r = class_match (CharClass [] [] true false false) r'.
Proof. intros H. unfold class_match, class_hit. cbn [cc_chars cc_ranges cc_Z cc_ignore_case cc_inverted existsb orb andb xorb]. destruct (is_Z r') eqn:E; [rewrite (is_Z_lower _ _ H E)|rewrite (is_Z_lower' _ _ H E)]; reflexivity. Qed.
Lemma class_digit r r' : lower_rune r = lower_rune r' -> class_match (CharClass [] [(48, 57)] false false false) r = class_match (CharClass [] [(48, 57)] false false false) r'.
Proof.
  intros H. unfold class_match, class_hit. cbn [cc_chars cc_ranges cc_Z cc_ignore_case cc_inverted existsb orb andb xorb fst snd]. unfold lower_rune, in_range in *.
  destruct ((65 <=? r) && (r <=? 90)) eqn:E1, ((65 <=? r') && (r' <=? 90)) eqn:E2; repeat match goal with |- context [?x <=? ?y] => destruct (Z.leb_spec x y) | |- context [?x =? ?y] => destruct (Z.eqb_spec x y) end; try reflexivity; exfalso; lia.
Qed.
Lemma class_item r r' : lower_rune r = lower_rune r' -> class_match (CharClass (runes "],") [] false false true) r = class_match (CharClass (runes "],") [] false false true) r'.
Proof.
  intros H. unfold class_match, class_hit. cbn [cc_chars cc_ranges cc_Z cc_ignore_case cc_inverted andb xorb]. change (runes "],") with [93; 44]. cbn [existsb orb]. unfold lower_rune, in_range in *.
  destruct ((65 <=? r) && (r <=? 90)) eqn:E1, ((65 <=? r') && (r' <=? 90)) eqn:E2; repeat match goal with |- context [?x <=? ?y] => destruct (Z.leb_spec x y) | |- context [?x =? ?y] => destruct (Z.eqb_spec x y) end; try reflexivity; exfalso; lia.
Qed.
Lemma class_ur r r' : lower_rune r = lower_rune r' -> class_match (CharClass (runes "ur") [] false true false) r = class_match (CharClass (runes "ur") [] false true false) r'.
Proof.
  intros H. unfold class_match, class_hit. cbn [cc_chars cc_ranges cc_Z cc_ignore_case cc_inverted andb xorb]. rewrite <- (to_lower_rune r), <- (to_lower_rune r'), H. reflexivity.
Qed.
Ltac g_one := match goal with
  | |- good (EAction act_u_roll_expr _) => apply g_bonus; [apply bonus_good|]
  | |- good (EAction _ _) => apply g_action
  | |- good (ELabel _ _) => apply g_label
  | |- good (EChoice _) => apply g_choice
  | |- good (ESeq _) => apply g_seq
  | |- good (ELit _ true) => apply g_lit; intros X; discriminate X
  | |- good (ELit _ false) => apply g_lit; intros _; vm_compute; repeat constructor; intros (Hx & Hy); first [apply Hx; reflexivity|apply Hy; reflexivity]
  | |- good (EClass (CharClass _ _ true _ _)) => apply g_class, class_Z
  | |- good (EClass (CharClass _ _ _ _ true)) => apply g_class, class_item
  | |- good (EClass (CharClass _ _ _ true _)) => apply g_class, class_ur
  | |- good (EClass _) => apply g_class, class_digit
  | |- good EAny => apply g_any
  | |- good (ERef _) => apply g_ref
  | |- good (EStar _) => apply g_star
  | |- good (EPlus _) => apply g_plus
  | |- good (EOpt _) => apply g_opt
  | |- good (ENot _) => apply g_not
  | |- good (Peg.EState _) => apply g_state
  | |- Forall good [] => apply Forall_nil
  | |- Forall good (_ :: _) => apply Forall_cons
  | |- acts_sim (act_label _) => apply act_label_sim
  | |- acts_sim (act_node _) => apply act_node_sim
  | |- acts_sim (act_unary_minus _) => apply act_unary_minus_sim
  | |- acts_sim act_choice_items => apply act_choice_items_sim
  | |- acts_sim act_choice_chars => apply act_choice_chars_sim
  | |- acts_sim act_calc => apply act_calc_sim
  | |- acts_sim (act_d_command _) => apply act_d_command_sim
  | |- acts_sim act_b_roll_list => apply act_b_roll_list_sim
  | |- acts_sim (act_compare _) => apply act_compare_sim; intros; reflexivity
  | |- acts_sim act_r_roll_list => apply act_r_roll_list_sim
  | |- acts_sim act_integer => apply act_integer_sim
  end.
Lemma first_rest_additive : acts_sim (act_first_rest left_assoc_additive).
Proof.
  intros e e' t t' st He _. unfold act_first_rest, left_assoc_additive. eapply abind_sim; [apply as_node_sim; look|]. intros n n' Hn. eapply abind_sim; [apply to_iface_sim; look|].
  intros o o' Ho. apply additive_loop_sim; [apply elems_sim, Ho|exact Hn].
Qed.
Lemma first_rest_multitive : acts_sim (act_first_rest left_assoc_multitive).
Proof.
  intros e e' t t' st He _. unfold act_first_rest, left_assoc_multitive. eapply abind_sim; [apply as_node_sim; look|]. intros n n' Hn. eapply abind_sim; [apply to_iface_sim; look|].
  intros o o' Ho. apply multitive_loop_sim; [apply elems_sim, Ho|exact Hn].
Qed.
Lemma act_var_sim k a b : acts_sim (act_var k a b).
Proof.
  intros e e' t t' st He _. unfold act_var. eapply abind_sim; [apply as_node_sim; look|]. intros n n' Hn. eapply abind_sim; [apply as_node_sim; look|]. intros m m' Hm. constructor. reflexivity.
Qed.
Lemma rules_good r : good (rules r).
Proof.
  destruct r; cbn [rules]; unfold additive, multitive, parenthesized, unary_plus, unary_minus, roll_rule, compare_rule, r_list_rule, lit, lit_i, cls_Z, cls_not_item, cls_ur, cls_digit;
    repeat first [apply first_rest_additive | apply first_rest_multitive | apply act_var_sim | g_one].
Qed.
Lemma start_sim s s' : same_but_case s s' -> sim (d_set_rstack (d_start s) [Command]) (d_set_rstack (d_start s') [Command]).
Proof.
  intros H. apply sim_set_rstack. unfold d_start. apply arrive_sim. constructor; [|apply ParseSound.decode_plain|constructor]. unfold lc. rewrite <- !decode_lower. f_equal. exact H.
Qed.
(** Parse reports the same errors. *)
Theorem parse_error_case filename s s' e : same_but_case s s' -> parse_text filename s = Err e -> parse_text filename s' = Err e.
Proof.
  intros H. unfold parse_text. assert (parse_fuel s' = parse_fuel s) as ->. { unfold parse_fuel. f_equal. f_equal. rewrite <- (lowercase_length s'), <- H, lowercase_length. reflexivity. }
  pose proof (dexpr_sim rules_good (parse_fuel s) (rules Command) _ _ (rules_good Command) (start_sim s s' H)) as X.
  destruct (dexpr rules (parse_fuel s) (rules Command) (d_set_rstack (d_start s) [Command])) as [((r, d), n)|], (dexpr rules (parse_fuel s) (rules Command) (d_set_rstack (d_start s') [Command])) as [((r', d'), n')|]; try (destruct X; fail); [|intros E; discriminate E].
  destruct X as (X1 & X2 & _). destruct X2 as [p r0 r0' st er en en' rs fl ex iv Hr Hp He]. destruct r as [v| |m], r' as [v'| |m']; try (destruct X1; fail); cbn [d_errs d_rstack d_set_rstack].
  - destruct er; [|exact (fun E => E)]. destruct v; discriminate.
  - exact (fun E => E).
  - cbn [rsim] in X1. subst m'. exact (fun E => E).
Qed.
