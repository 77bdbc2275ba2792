(** Upper bounds for the number of expressions the parser tries: rule by rule. *)
From Coq Require Import NArith Nnat.
From Verif Require Import Grammar ProofBase CostUpper CostLevel.
Open Scope list_scope.
Open Scope N_scope.

Lemma ends_length (l' l : rest) : ends l' l -> (length l' <= length l)%nat.
Proof. intros (x & ->). rewrite app_length. lia. Qed.

(** ** Single steps *)
Lemma lit1_ok w (k : Z) l l' n : runes w = [k] -> st (lit w) l true l' n -> n = 1 /\ exists c, l = c :: l' /\ gc_rune c = k.
Proof.
  unfold lit. intros -> H. inversion H; subst. split; [reflexivity|]. cbn [lit_rest] in *. destruct l as [|c t]; [discriminate|]. destruct (Z.eqb_spec (gc_rune c) k); [|discriminate].
  match goal with X : Some _ = Some _ |- _ => injection X as -> end. eauto.
Qed.
Lemma lit1_no w (k : Z) l l' n : runes w = [k] -> st (lit w) l false l' n -> n = 1 /\ l' = l /\ (forall c t, l = c :: t -> gc_rune c <> k).
Proof.
  unfold lit. intros -> H. inversion H; subst. split; [reflexivity|]. split; [reflexivity|]. intros c t ->. cbn [lit_rest] in *. destruct (Z.eqb_spec (gc_rune c) k); [discriminate|assumption].
Qed.
Lemma lit_any w ic l ok l' n : st (ELit w ic) l ok l' n -> n = 1.
Proof. intros H. inversion H; reflexivity. Qed.
Lemma liti_ok w (k : Z) l l' n : runes w = [k] -> st (lit_i w) l true l' n -> n = 1 /\ exists c, l = c :: l' /\ to_lower (gc_rune c) = k.
Proof.
  unfold lit_i. intros -> H. inversion H; subst. split; [reflexivity|]. cbn [lit_rest] in *. destruct l as [|c t]; [discriminate|]. destruct (Z.eqb_spec (to_lower (gc_rune c)) k); [|discriminate].
  match goal with X : Some _ = Some _ |- _ => injection X as -> end. eauto.
Qed.
Lemma class_step c l ok l' n : st (EClass c) l ok l' n -> n = 1 /\ (ok = true -> exists ch, l = ch :: l' /\ class_match c (gc_rune ch) = true).
Proof. intros H. inversion H; subst; split; try reflexivity; try discriminate; eauto. Qed.

(** ** Numbers *)
Lemma digit_flat ch : class_match (CharClass [] [(48, 57)%Z] false false false) (gc_rune ch) = true -> flat_rune (gc_rune ch) = true.
Proof.
  unfold class_match, class_hit. cbn [cc_inverted cc_ignore_case cc_chars cc_ranges cc_Z existsb fst snd xorb orb andb]. unfold in_range.
  destruct (Z.leb_spec 48 (gc_rune ch)); destruct (Z.leb_spec (gc_rune ch) 57); cbn; try discriminate. intros _. unfold flat_rune, opener, closer.
  repeat match goal with |- context [(?a =? ?b)%Z] => destruct (Z.eqb_spec a b); [lia|] end. reflexivity.
Qed.
Lemma digits_loop e l l' k n : sk e l l' k n -> e = cls_digit -> V l = V l' + N.of_nat k /\ n = 1 + N.of_nat k.
Proof.
  induction 1; intros ->.
  - pose proof (st_fail _ _ _ _ H) as ->. apply class_step in H as (-> & _). lia.
  - destruct (IHsk eq_refl) as (E & ->). apply class_step in H as (-> & Hc). destruct (Hc eq_refl) as (ch & -> & Hm). rewrite (V_flat _ _ (digit_flat _ Hm)). lia.
Qed.
Lemma integer_cost l ok l' n : st (ERef Integer) l ok l' n -> if ok then V l' < V l /\ n + 5 * V l' <= 5 * V l else n = 4.
Proof.
  intros H. inversion H; subst; clear H. match goal with X : st (rules _) _ _ _ _ |- _ => cbn [rules] in X; inversion X; subst; clear X end.
  match goal with X : st (EPlus _) _ _ _ _ |- _ => inversion X; subst; clear X end; match goal with X : sk _ _ _ _ _ |- _ => apply digits_loop in X; [|reflexivity] end; lia.
Qed.

(** ** Tactics: take a run apart *)
Ltac inv1 :=
  match goal with
  | H : ?x = ?x |- _ => clear H
  | H : @cons gochar _ _ = _ :: _ |- _ => injection H; clear H; intros; subst
  | H : @nil gochar = _ :: _ |- _ => discriminate H
  | H : @cons gochar _ _ = [] |- _ => discriminate H
  | H : st (EAction _ _) _ _ _ _ |- _ => inversion H; clear H; subst
  | H : st (ELabel _ _) _ _ _ _ |- _ => inversion H; clear H; subst
  | H : st (EChoice _) _ _ _ _ |- _ => inversion H; clear H; subst
  | H : st (ESeq _) _ _ _ _ |- _ => inversion H; clear H; subst
  | H : st (EOpt _) _ _ _ _ |- _ => inversion H; clear H; subst
  | H : st (Peg.EState _) _ _ _ _ |- _ => inversion H; clear H; subst
  | H : ss _ _ _ _ _ |- _ => inversion H; clear H; subst
  | H : sc _ _ _ _ _ |- _ => inversion H; clear H; subst
  | H : st (lit ?w) _ true _ _ |- _ => let k := eval vm_compute in (hd 0%Z (runes w)) in destruct (lit1_ok w k _ _ _ eq_refl H) as (? & ? & ? & ?); clear H; subst
  | H : st (lit ?w) _ false _ _ |- _ => let k := eval vm_compute in (hd 0%Z (runes w)) in destruct (lit1_no w k _ _ _ eq_refl H) as (? & ? & ?); clear H; subst
  end.
Ltac other := match goal with
  | H : forall c t, ?x :: ?l = c :: t -> gc_rune c <> _, E : gc_rune ?x = _ |- _ => exfalso; exact (H x l eq_refl E)
  | E1 : gc_rune ?x = ?a, E2 : gc_rune ?x = ?b |- _ => exfalso; rewrite E1 in E2; discriminate E2
  end.
Ltac apart := repeat inv1; try other.
(** the potential of a text whose first character is known *)
Lemma V_at c t k : gc_rune c = k -> if opener k then 3 * V t + 1 <= V (c :: t) else if closer k then V (c :: t) = 1 else V (c :: t) = 1 * V t + 1.
Proof. intros <-. destruct (opener _) eqn:E1; [apply V_open, E1|]. destruct (closer _) eqn:E2; [apply V_close, E2|]. apply V_plain; assumption. Qed.
Ltac learn_V c t E := lazymatch goal with
  | _ : V (c :: t) = _ |- _ => fail
  | _ : 3 * V t + 1 <= V (c :: t) |- _ => fail
  | _ => let X := fresh in pose proof (V_at c t _ E) as X; lazymatch type of E with _ = ?k => let b := eval vm_compute in (opener k) in change (opener k) with b in X; let b' := eval vm_compute in (closer k) in change (closer k) with b' in X end; cbn iota in X end.
Ltac known := repeat match goal with
  | E : gc_rune ?c = ?k |- context [V (?c :: ?t)] => learn_V c t E
  | E : gc_rune ?c = ?k, H : context [V (?c :: ?t)] |- _ => learn_V c t E
  end; repeat match goal with E : V (?c :: ?t) = _ |- _ => repeat match goal with H : context [V (c :: t)] |- _ => lazymatch H with E => fail | _ => rewrite E in H end end; try rewrite E; clear E end; cbn [orb].

(** ** Sums and products of operands *)
Definition dhead (l : rest) : bool := match l with c :: _ => (to_lower (gc_rune c) =? 100)%Z | [] => false end.
Definition stop (l : rest) : bool := match l with c :: _ => dhead l || (gc_rune c =? 42)%Z || (gc_rune c =? 47)%Z | [] => false end.
Definition prim_spec (L : nat) (r : rule) (a o f : N) : Prop := forall l ok l' n, (length l <= L)%nat -> st (ERef r) l ok l' n ->
  if ok then V l' < V l /\ n + a * V l' <= a * V l + (if dhead l' then o * V l' else 0) else n <= f * V l.
Definition mul_spec (L : nat) (r : rule) (a o f : N) : Prop := forall l ok l' n, (length l <= L)%nat -> st (ERef r) l ok l' n ->
  if ok then V l' < V l /\ n + a * V l' <= a * V l + (if stop l' then o * V l' else 0) else n <= f * V l.
Definition add_spec (L : nat) (r : rule) (C : N) : Prop := forall l ok l' n, (length l <= L)%nat -> st (ERef r) l ok l' n -> n <= C * V l /\ (ok = true -> V l' < V l).

Lemma lower_ascii k : (0 <= k < 64)%Z -> to_lower k = k.
Proof. intros H. unfold to_lower. repeat match goal with |- context [if ?b then _ else _] => destruct b eqn:? end; try reflexivity; unfold in_range in *; lia. Qed.

Definition mul_step (p : rule) : expr rule := EChoice [ESeq [lit "/"; ERef p; cls_ur]; ESeq [EChoice [lit "*"; lit "/"]; ERef p]].
Definition add_step (m : rule) : expr rule := ESeq [EChoice [lit "+"; lit "-"]; ERef m].
Lemma d_not l c : dhead l = true -> (to_lower c =? 100)%Z = false -> forall x t, l = x :: t -> gc_rune x <> c.
Proof. intros H Hc x t -> E. cbn [dhead] in H. rewrite E, Hc in H. discriminate H. Qed.
(** nothing continues a product at a "d" *)
Lemma mul_d p l l' k n : dhead l = true -> sk (mul_step p) l l' k n -> l' = l /\ n = 7.
Proof.
  intros Hd H. pose proof (d_not l 47 Hd eq_refl). pose proof (d_not l 42 Hd eq_refl). inversion H; subst; clear H.
  - pose proof (st_fail _ _ _ _ H2) as ->. unfold mul_step in H2. apart; try (split; [reflexivity|lia]); exfalso; eauto.
  - unfold mul_step in H2. apart; exfalso; eauto.
Qed.
Ltac det := repeat match goal with
  | A : st ?e ?l ?ok ?l1 ?n1, B : st ?e ?l ?ok2 ?l2 ?n2 |- _ => lazymatch A with B => fail | _ => destruct (st_det _ _ _ _ _ _ _ _ A B) as (? & ? & ?); clear B; subst end
  end; try discriminate.
Ltac fails := repeat match goal with H : st ?e ?l false ?l' _ |- _ => lazymatch l' with l => fail | _ => pose proof (st_fail _ _ _ _ H); subst end end.
Lemma ur_not_d l l' n : st cls_ur l true l' n -> dhead l = false.
Proof.
  intros H. apply class_step in H as (_ & H). destruct (H eq_refl) as (c & -> & Hm). cbn [dhead]. revert Hm. unfold class_match, class_hit.
  cbn [cc_inverted cc_ignore_case cc_chars cc_ranges cc_Z existsb xorb]. destruct (Z.eqb_spec (to_lower (gc_rune c)) 100) as [->|]; [|reflexivity]. vm_compute. discriminate.
Qed.
Ltac refs p Hp := repeat match goal with X : st (ERef p) _ _ _ _ |- _ => pose proof (ends_length _ _ (st_ends _ _ _ _ _ X)); apply Hp in X; [|cbn [length] in *; lia]; cbn iota in X end.
Lemma mul_step_ok L p a o f l l' n : prim_spec L p a o f -> (length l <= L)%nat -> st (mul_step p) l true l' n -> n + (2 * a + 10) * V l' <= (2 * a + 10) * V l + (if dhead l' then 2 * o * V l' else 0).
Proof.
  intros Hp Hl H. unfold mul_step in H. apart; fails; det;
  try match goal with X : st cls_ur _ true _ _ |- _ => pose proof (ur_not_d _ _ _ X); pose proof (level_V _ _ (st_level _ _ _ _ _ lev_ur X)); apply class_step in X as (-> & X); destruct (X eq_refl) as (ch & -> & _); clear X end;
  repeat match goal with X : st cls_ur _ _ _ _ |- _ => apply class_step in X as (-> & _) end;
  refs p Hp; repeat match goal with X : _ /\ _ |- _ => destruct X end; known; try (destruct (dhead _); lia).
  match goal with X : dhead (ch :: _) = false, Y : context [dhead (ch :: _)] |- _ => rewrite X in Y end.
  assert (a * V l' <= a * V (ch :: l')) by (apply N.mul_le_mono_l; lia). assert (a * V l' <= a * V l1) by (apply N.mul_le_mono_l; lia). destruct (dhead l'); lia.
Qed.
Lemma mul_loop L p a o f : prim_spec L p a o f -> forall e l l' k n, sk e l l' k n -> e = mul_step p -> (length l <= L)%nat ->
  n + (2 * a + 10) * V l' <= (2 * a + 10) * V l + 7 + (if stop l' then (2 * o + 2 * f) * V l' else 0).
Proof.
  intros Hp. induction 1; intros -> Hl.
  - pose proof (st_fail _ _ _ _ H) as ->. unfold mul_step in H. apart; fails; det; cbn [stop];
    repeat match goal with E : gc_rune ?x = _ |- context [gc_rune ?x] => rewrite E end; cbn [Z.eqb Pos.eqb orb dhead]; rewrite ?orb_true_r;
    repeat match goal with X : st (ERef p) _ _ _ _ |- _ => apply Hp in X; [|cbn [length] in *; lia]; cbn iota in X end;
    repeat match goal with X : st cls_ur _ _ _ _ |- _ => apply class_step in X as (-> & _) end; known; try lia.
  - pose proof (ends_length _ _ (st_ends _ _ _ _ _ H)). apply (mul_step_ok _ _ _ _ _ _ _ _ Hp Hl) in H. destruct (dhead l1) eqn:Ed.
    + destruct (mul_d _ _ _ _ _ Ed H0) as (-> & ->). assert (stop l1 = true) as -> by (unfold stop; destruct l1; [discriminate Ed|rewrite Ed; reflexivity]). lia.
    + specialize (IHsk eq_refl). lia.
Qed.

Lemma sk_ends e l l' k n : sk e l l' k n -> ends l' l.
Proof. apply ends_all. Qed.
Lemma multitive_spec L p m a o f : fam p = true -> rules m = multitive p -> prim_spec L p a o f -> mul_spec L m (2 * a + 24) (2 * o + 2 * f) (f + 6).
Proof.
  intros Hf Hm Hp l ok l' n Hl H. inversion H; clear H; subst. rewrite Hm in *. unfold multitive in *. apart; fails.
  - match goal with X : st (EStar _) _ _ _ _ |- _ => inversion X; clear X; subst end. match goal with X : sk _ _ _ _ _ |- _ => rename X into Hs end. change (sk (mul_step p) l1 l' k n0) in Hs.
    assert (V l' <= V l1) by (eapply level_V, sk_level; [|exact Hs]; unfold mul_step; lv). match goal with X : st (ERef p) _ _ _ _ |- _ => rename X into H1 end. pose proof (ends_length _ _ (st_ends _ _ _ _ _ H1)). apply Hp in H1; [|exact Hl].
    destruct H1 as (H1 & H2). split; [lia|]. assert (a * V l1 <= a * V l) by (apply N.mul_le_mono_l; lia). destruct (dhead l1) eqn:Ed.
    + destruct (mul_d _ _ _ _ _ Ed Hs) as (-> & ->). assert (stop l1 = true) as -> by (unfold stop; destruct l1; [discriminate Ed|rewrite Ed; reflexivity]). lia.
    + pose proof (mul_loop _ _ _ _ _ Hp _ _ _ _ _ Hs eq_refl ltac:(lia)). lia.
  - match goal with X : st (ERef p) _ _ _ _ |- _ => rename X into H1 end. apply Hp in H1; [|exact Hl]. pose proof (V_pos l'). lia.
  - match goal with X : st (EStar _) _ _ _ _ |- _ => inversion X end.
Qed.

(** nothing continues a sum at a "d", a "*" or a "/" *)
Lemma add_stop m l l' k n : stop l = true -> sk (add_step m) l l' k n -> l' = l /\ n = 4.
Proof.
  intros Hd H. assert (forall x t, l = x :: t -> gc_rune x <> 43 /\ gc_rune x <> 45)%Z as Hn.
  { intros x t ->. cbn [stop dhead] in Hd. split; intros E; rewrite E in Hd; discriminate Hd. }
  inversion H; subst; clear H.
  - pose proof (st_fail _ _ _ _ H0) as ->. unfold add_step in H0. apart; try (split; [reflexivity|lia]); exfalso; edestruct Hn; eauto.
  - unfold add_step in H0. apart; exfalso; edestruct Hn; eauto.
Qed.
Lemma add_loop L m a o f : mul_spec L m a o f -> f <= o -> forall e l l' k n, sk e l l' k n -> e = add_step m -> (length l <= L)%nat ->
  n + (a + 4) * V l' <= (a + 4) * V l + 4 + o * V l'.
Proof.
  intros Hp Ho. induction 1; intros -> Hl.
  - pose proof (st_fail _ _ _ _ H) as ->. unfold add_step in H. apart; fails; det; refs m Hp; known; try lia.
    all: match goal with |- context [_ * V ?x + 1] => assert (f * V x <= o * V x) by (apply N.mul_le_mono_r; lia) end; lia.
  - pose proof (ends_length _ _ (st_ends _ _ _ _ _ H)). destruct (stop l1) eqn:Es.
    + destruct (add_stop _ _ _ _ _ Es H0) as (-> & ->). unfold add_step in H. apart; refs m Hp; known; rewrite Es in *; lia.
    + specialize (IHsk eq_refl ltac:(lia)). unfold add_step in H. apart; refs m Hp; known; rewrite Es in *; lia.
Qed.
Lemma additive_spec L m r a o f C : fam m = true -> rules r = additive m -> mul_spec L m a o f -> f <= o -> a + 14 <= C -> o + 14 <= C -> add_spec L r C.
Proof.
  intros Hf Hr Hp Ho HC1 HC2 l ok l' n Hl H. inversion H; clear H; subst. rewrite Hr in *. unfold additive in *. apart; fails.
  - match goal with X : st (EStar _) _ _ _ _ |- _ => inversion X; clear X; subst end. match goal with X : sk _ _ _ _ _ |- _ => rename X into Hs end. change (sk (add_step m) l1 l' k n0) in Hs.
    assert (V l' <= V l1) by (eapply level_V, sk_level; [|exact Hs]; unfold add_step; lv). match goal with X : st (ERef m) _ _ _ _ |- _ => rename X into H1 end. pose proof (ends_length _ _ (st_ends _ _ _ _ _ H1)). apply Hp in H1; [|exact Hl].
    destruct H1 as (H1 & H2). split; [|intros _; lia]. pose proof (V_pos l').
    assert (a * V l1 <= a * V l) by (apply N.mul_le_mono_l; lia). assert ((a + 14) * V l <= C * V l) by (apply N.mul_le_mono_r; lia). assert ((o + 14) * V l' <= C * V l') by (apply N.mul_le_mono_r; lia).
    assert (V l = V l' + (V l - V l')) as E by lia. set (d := V l - V l') in *. clearbody d. assert ((a + 14) * d <= C * d) by (apply N.mul_le_mono_r; lia). destruct (stop l1) eqn:Ed.
    + destruct (add_stop _ _ _ _ _ Ed Hs) as (-> & ->). rewrite E in *. lia.
    + pose proof (add_loop _ _ _ _ _ Hp Ho _ _ _ _ _ Hs eq_refl ltac:(lia)). rewrite E in *. lia.
  - match goal with X : st (ERef m) _ _ _ _ |- _ => rename X into H1 end. apply Hp in H1; [|exact Hl]. pose proof (V_pos l'). split; [|intros; discriminate].
    assert ((o + 14) * V l' <= C * V l') by (apply N.mul_le_mono_r; lia). assert (f * V l' <= o * V l') by (apply N.mul_le_mono_r; lia). lia.
  - match goal with X : st (EStar _) _ _ _ _ |- _ => inversion X end.
Qed.

(** ** Signs and parentheses *)
Definition head_not (k : Z) (l : rest) : Prop := forall c t, l = c :: t -> gc_rune c <> k.
Lemma sign_cost u p w (k : Z) a : runes w = [k] -> rules u = EAction a (ESeq [lit w; ELabel "e" (ERef p)]) -> forall l ok l' n, st (ERef u) l ok l' n ->
  (ok = false /\ n = 4 /\ head_not k l) \/ exists c t n', l = c :: t /\ gc_rune c = k /\ n = 5 + n' /\ exists l1, st (ERef p) t ok l1 n' /\ (ok = true -> l1 = l').
Proof.
  intros Hw Hu l ok l' n H. inversion H; clear H; subst. rewrite Hu in *.
  repeat match goal with
  | H : st (lit w) _ true _ _ |- _ => destruct (lit1_ok w k _ _ _ Hw H) as (? & ? & ? & ?); clear H; subst
  | H : st (lit w) _ false _ _ |- _ => destruct (lit1_no w k _ _ _ Hw H) as (? & ? & ?); clear H; subst
  | _ => inv1 end.
  - right. eexists _, _, _. split; [reflexivity|]. split; [first [reflexivity|eassumption]|]. split; [|eexists; split; [eassumption|intros _; reflexivity]]. lia.
  - left. split; [reflexivity|]. split; [lia|assumption].
  - right. eexists _, _, _. split; [reflexivity|]. split; [first [reflexivity|eassumption]|]. split; [|eexists; split; [eassumption|intros X; discriminate X]]. lia.
Qed.
Lemma paren_cost L q e C : fam e = true -> rules q = parenthesized e -> add_spec L e C -> forall l ok l' n, (length l <= S L)%nat -> st (ERef q) l ok l' n ->
  (ok = false /\ n = 4 /\ head_not 40 l) \/ exists c t, l = c :: t /\ gc_rune c = 40%Z /\ n <= 6 + C * V t /\ (ok = true -> V l = 3 * V t + 1 + V l' /\ skip 0 t = Some l').
Proof.
  intros Hf Hq He l ok l' n Hl H. inversion H; clear H; subst. rewrite Hq in *. unfold parenthesized in *. apart; fails;
  try match goal with X : st (ERef e) _ true _ _ |- _ => pose proof (st_level _ _ _ _ _ (lev_ref e Hf) X) end; refs e He.
  - right. eexists _, _. split; [reflexivity|]. split; [eassumption|]. match goal with X : _ <= C * _ /\ (true = true -> _) |- _ => destruct X as (X & Y); specialize (Y eq_refl) end. split; [lia|]. intros _. eapply V_brackets; [| |eassumption]; match goal with E : gc_rune ?c = _ |- _ (gc_rune ?c) = _ => rewrite E; reflexivity end.
  - left. split; [reflexivity|]. split; [lia|assumption].
  - right. eexists _, _. split; [reflexivity|]. split; [eassumption|]. split; [lia|intros X; discriminate X].
  - right. eexists _, _. split; [reflexivity|]. split; [eassumption|]. split; [lia|intros X; discriminate X].
Qed.
Lemma alias_spec L r r' C : rules r = ERef r' -> add_spec L r' C -> add_spec L r (C + 1).
Proof.
  intros Hr H l ok l' n Hl X. inversion X; clear X; subst. rewrite Hr in *. apply H in H1; [|exact Hl]. pose proof (V_pos l). destruct H1. split; [lia|assumption].
Qed.

(** ** Integer expressions *)
Ltac facts := repeat match goal with
  | X : _ /\ _ |- _ => destruct X
  | X : _ \/ _ |- _ => destruct X
  | X : exists _, _ |- _ => destruct X
  | X : true = true -> _ |- _ => specialize (X eq_refl)
  | X : false = true -> _ |- _ => clear X
  | X : true = false |- _ => discriminate X
  | X : head_not _ _ |- _ => unfold head_not in X
  | X : ?l = _ :: _ |- _ => is_var l; subst l
  | _ => first [inv1|other]
  end; subst.
Definition plus_cost u p (H : rules u = unary_plus p) := sign_cost u p "+" 43%Z _ eq_refl H.
Definition minus_cost u p (H : rules u = unary_minus p) := sign_cost u p "-" 45%Z _ eq_refl H.
Lemma int_prim L : (forall L', (L' < L)%nat -> add_spec L' IntExprAdditive 119 /\ prim_spec L' IntExprPrimary 40 0 40) -> prim_spec L IntExprPrimary 40 0 40.
Proof.
  intros IH l ok l' n Hl H.
  assert (forall q, rules q = parenthesized IntExpr -> forall ok l' n, st (ERef q) l ok l' n ->
    (ok = false /\ n = 4 /\ head_not 40 l) \/ exists c t, l = c :: t /\ gc_rune c = 40%Z /\ n <= 6 + 120 * V t /\ (ok = true -> V l = 3 * V t + 1 + V l' /\ skip 0 t = Some l')) as Hpar.
  { intros q Hq ok1 l1 n1 H1. destruct l as [|c t]. 
    - left. inversion H1; clear H1; subst. rewrite Hq in *. unfold parenthesized in *. apart. split; [reflexivity|]. split; [lia|assumption].
    - cbn [length] in Hl. apply (paren_cost (length t) q IntExpr 120 eq_refl Hq) in H1; [exact H1| |cbn [length]; lia]. apply (alias_spec _ IntExpr IntExprAdditive 119 eq_refl). apply IH. lia. }
  assert (forall t ok l' n c, l = c :: t -> st (ERef IntExprPrimary) t ok l' n -> if ok then V l' < V t /\ n + 40 * V l' <= 40 * V t else n <= 40 * V t) as Hsub.
  { intros t ok1 l1 n1 c -> H1. cbn [length] in Hl. apply (proj2 (IH (length t) ltac:(lia))) in H1; [|lia]. destruct ok1; [|exact H1]. destruct (dhead l1); lia. }
  pose proof (V_pos l'). inversion H; clear H; subst. cbn [rules] in *. repeat inv1; fails;
  repeat match goal with
  | X : st (ERef Integer) _ _ _ _ |- _ => apply integer_cost in X; cbn iota in X
  | X : st (ERef IntExprUnaryPlus) _ _ _ _ |- _ => apply (plus_cost IntExprUnaryPlus IntExprPrimary eq_refl) in X
  | X : st (ERef IntExprUnaryMinus) _ _ _ _ |- _ => apply (minus_cost IntExprUnaryMinus IntExprPrimary eq_refl) in X
  | X : st (ERef ParenthesizedIntExpr) _ _ _ _ |- _ => apply (Hpar ParenthesizedIntExpr eq_refl) in X
  end; facts; fails; det.
  all: repeat match goal with X : st (ERef IntExprPrimary) _ _ _ _ |- _ => eapply Hsub in X; [|reflexivity]; cbn iota in X end; facts; known; repeat match goal with |- context [dhead ?x] => destruct (dhead x) end; try split; try lia.
Qed.
Lemma int_family : forall L, prim_spec L IntExprPrimary 40 0 40 /\ add_spec L IntExprAdditive 119.
Proof.
  induction L as [L IH] using (well_founded_induction lt_wf). assert (prim_spec L IntExprPrimary 40 0 40) as H by (apply int_prim; intros L' HL; split; apply IH, HL).
  split; [exact H|]. apply (multitive_spec _ IntExprPrimary IntExprMultitive _ _ _ eq_refl eq_refl) in H. eapply (additive_spec _ IntExprMultitive IntExprAdditive _ _ _ _ eq_refl eq_refl H); lia.
Qed.
Lemma int_cost l ok l' n : st (ERef IntExpr) l ok l' n -> n <= 120 * V l /\ (ok = true -> V l' < V l).
Proof. intros H. apply (alias_spec _ IntExpr IntExprAdditive 119 eq_refl (proj2 (int_family (length l)))) in H; [exact H|lia]. Qed.
Lemma int_add_cost l ok l' n : st (ERef IntExprAdditive) l ok l' n -> n <= 119 * V l /\ (ok = true -> V l' < V l).
Proof. intros H. apply (proj2 (int_family (length l))) in H; [exact H|lia]. Qed.

(** ** Random numbers *)
Lemma int_paren_cost l ok l' n : st (ERef ParenthesizedIntExpr) l ok l' n ->
  (ok = false /\ n = 4 /\ head_not 40 l) \/ exists c t, l = c :: t /\ gc_rune c = 40%Z /\ n <= 6 + 120 * V t /\ (ok = true -> V l = 3 * V t + 1 + V l' /\ skip 0 t = Some l').
Proof. intros H. eapply (paren_cost (length l) ParenthesizedIntExpr IntExpr 120 eq_refl eq_refl); [|lia|exact H]. intros x okx x' nx _. apply int_cost. Qed.
Lemma rand_operand l ok l' n : st (ERef RandomNumberOperand) l ok l' n -> if ok then V l' < V l /\ n + 40 * V l' <= 40 * V l else n <= 40 * V l.
Proof.
  intros H. pose proof (V_pos l'). inversion H; clear H; subst. cbn [rules] in *. repeat inv1; fails;
  repeat match goal with
  | X : st (ERef Integer) _ _ _ _ |- _ => apply integer_cost in X; cbn iota in X
  | X : st (ERef ParenthesizedIntExpr) _ _ _ _ |- _ => apply int_paren_cost in X
  end; facts; known; try split; lia.
Qed.
Lemma inc_cost l ok l' n : st (ERef IncRandCount) l ok l' n -> ok = true /\ l' = l /\ n = 2.
Proof. intros H. inversion H; clear H; subst. cbn [rules] in *. repeat inv1. repeat split. Qed.
(** keep what is known of the texts *)
Ltac levels := repeat match goal with
  | X : st ?e ?l true ?l' _ |- _ => lazymatch goal with _ : level l l' |- _ => fail | _ => let H := fresh in assert (lev e) as H by (solve [lv]); pose proof (st_level _ _ _ _ _ H X); clear H end
  end; repeat match goal with
  | X : sk ?e ?l ?l' _ _ |- _ => lazymatch goal with _ : level l l' |- _ => fail | _ => let H := fresh in assert (lev e) as H by (solve [lv]); pose proof (sk_level _ _ _ _ _ H X); clear H end
  end; repeat match goal with X : level ?l ?l' |- _ => lazymatch goal with _ : V l' <= V l |- _ => fail | _ => pose proof (level_V _ _ X) end end.
Ltac here := solve [left; split; [reflexivity|split; [lia|assumption]] | right; eexists _, _; split; [reflexivity|split; [eassumption|split; [known; lia|intros X; discriminate X]]]].
Lemma rand_cost l ok l' n : st (ERef RandomNumber) l ok l' n ->
  (ok = false /\ n = 4 /\ head_not 91 l) \/ exists c t, l = c :: t /\ gc_rune c = 91%Z /\ n <= 12 + 40 * V t /\ (ok = true -> V l = 3 * V t + 1 + V l' /\ skip 0 t = Some l').
Proof.
  intros H. inversion H; clear H; subst. cbn [rules] in *. apart; fails; try match goal with X : st (ERef IncRandCount) _ _ _ _ |- _ => apply inc_cost in X; destruct X as (X & ? & ?); try discriminate X; subst end; levels;
  repeat match goal with X : st (lit "...") _ _ _ _ |- _ => apply lit_any in X; subst end;
  repeat match goal with X : st (ERef RandomNumberOperand) _ _ _ _ |- _ => apply rand_operand in X; cbn iota in X end; facts.
  all: try here.
  right. exists x0, l1. split; [reflexivity|]. split; [assumption|]. split; [known; lia|]. intros _. apply (V_brackets x0 l1 x l5); [match goal with E : gc_rune ?c = _ |- _ (gc_rune ?c) = _ => rewrite E; reflexivity end..|].
  unfold level. eapply mv_trans; [eassumption|]. eapply mv_trans; eassumption.
Qed.

(** ** Expressions with random numbers *)
Lemma paren_sub L q e r C l : fam e = true -> rules q = parenthesized e -> rules e = ERef r -> (length l <= L)%nat -> (forall L', (L' < L)%nat -> add_spec L' r C) -> forall ok l' n, st (ERef q) l ok l' n ->
    (ok = false /\ n = 4 /\ head_not 40 l) \/ exists c t, l = c :: t /\ gc_rune c = 40%Z /\ n <= 6 + (C + 1) * V t /\ (ok = true -> V l = 3 * V t + 1 + V l' /\ skip 0 t = Some l').
Proof.
  intros Hf Hq He Hl IH ok1 l1 n1 H1. destruct l as [|c t]. 
  - left. inversion H1; clear H1; subst. rewrite Hq in *. unfold parenthesized in *. apart. split; [reflexivity|]. split; [lia|assumption].
  - cbn [length] in Hl. apply (paren_cost (length t) q e (C + 1) Hf Hq) in H1; [exact H1| |cbn [length]; lia]. apply (alias_spec _ e r C He). apply IH. lia.
Qed.
Lemma intrand_prim L : (forall L', (L' < L)%nat -> add_spec L' IntRandExprAdditive 119 /\ prim_spec L' IntRandExprPrimary 40 0 40) -> prim_spec L IntRandExprPrimary 40 0 40.
Proof.
  intros IH l ok l' n Hl H.
  pose proof (paren_sub L ParenthesizedIntRandExpr IntRandExpr IntRandExprAdditive 119 l eq_refl eq_refl eq_refl Hl (fun L' HL => proj1 (IH L' HL))) as Hpar. change (119 + 1) with 120 in Hpar.
  assert (forall t ok l' n c, l = c :: t -> st (ERef IntRandExprPrimary) t ok l' n -> if ok then V l' < V t /\ n + 40 * V l' <= 40 * V t else n <= 40 * V t) as Hsub.
  { intros t ok1 l1 n1 c -> H1. cbn [length] in Hl. apply (proj2 (IH (length t) ltac:(lia))) in H1; [|lia]. destruct ok1; [|exact H1]. destruct (dhead l1); lia. }
  pose proof (V_pos l'). inversion H; clear H; subst. cbn [rules] in *. repeat inv1; fails;
  repeat match goal with
  | X : st (ERef Integer) _ _ _ _ |- _ => apply integer_cost in X; cbn iota in X
  | X : st (ERef RandomNumber) _ _ _ _ |- _ => apply rand_cost in X
  | X : st (ERef IntRandExprUnaryPlus) _ _ _ _ |- _ => apply (plus_cost IntRandExprUnaryPlus IntRandExprPrimary eq_refl) in X
  | X : st (ERef IntRandExprUnaryMinus) _ _ _ _ |- _ => apply (minus_cost IntRandExprUnaryMinus IntRandExprPrimary eq_refl) in X
  | X : st (ERef ParenthesizedIntRandExpr) _ _ _ _ |- _ => apply Hpar in X
  end; facts; fails; det.
  all: repeat match goal with X : st (ERef IntRandExprPrimary) _ _ _ _ |- _ => eapply Hsub in X; [|reflexivity]; cbn iota in X end; facts; known; repeat match goal with |- context [dhead ?x] => destruct (dhead x) end; try split; try lia.
Qed.
Lemma intrand_family : forall L, prim_spec L IntRandExprPrimary 40 0 40 /\ add_spec L IntRandExprAdditive 119.
Proof.
  induction L as [L IH] using (well_founded_induction lt_wf). assert (prim_spec L IntRandExprPrimary 40 0 40) as H by (apply intrand_prim; intros L' HL; split; apply IH, HL).
  split; [exact H|]. apply (multitive_spec _ IntRandExprPrimary IntRandExprMultitive _ _ _ eq_refl eq_refl) in H. eapply (additive_spec _ IntRandExprMultitive IntRandExprAdditive _ _ _ _ eq_refl eq_refl H); lia.
Qed.
Lemma intrand_paren_cost l ok l' n : st (ERef ParenthesizedIntRandExpr) l ok l' n ->
  (ok = false /\ n = 4 /\ head_not 40 l) \/ exists c t, l = c :: t /\ gc_rune c = 40%Z /\ n <= 6 + 120 * V t /\ (ok = true -> V l = 3 * V t + 1 + V l' /\ skip 0 t = Some l').
Proof. intros H. eapply (paren_sub (length l) ParenthesizedIntRandExpr IntRandExpr IntRandExprAdditive 119 l eq_refl eq_refl eq_refl) in H; [exact H|lia|intros L' _; apply intrand_family]. Qed.

(** ** Operands of dice rolls, and dice rolls *)
Lemma operand_cost l ok l' n : st (ERef RollOperand) l ok l' n -> if ok then V l' < V l /\ n + 40 * V l' <= 40 * V l else n <= 40 * V l.
Proof.
  intros H. pose proof (V_pos l'). inversion H; clear H; subst. cbn [rules] in *. repeat inv1; fails;
  repeat match goal with
  | X : st (ERef Integer) _ _ _ _ |- _ => apply integer_cost in X; cbn iota in X
  | X : st (ERef RandomNumber) _ _ _ _ |- _ => apply rand_cost in X
  | X : st (ERef ParenthesizedIntRandExpr) _ _ _ _ |- _ => apply intrand_paren_cost in X
  end; facts; known; try split; lia.
Qed.
Lemma liti_V s (c : Z) l l' n : runes s = [c] -> (97 <= c <= 122)%Z -> st (lit_i s) l true l' n -> n = 1 /\ V l = 1 * V l' + 1.
Proof. intros Hw Hc H. destruct (liti_ok s c _ _ _ Hw H) as (-> & x & -> & E). split; [reflexivity|]. apply V_flat, (lower_letter _ c Hc E). Qed.
Lemma roll_cost r k w (c : Z) : rules r = roll_rule k w -> runes w = [c] -> (97 <= c <= 122)%Z -> forall l ok l' n, st (ERef r) l ok l' n -> if ok then V l' < V l /\ n + 50 * V l' <= 50 * V l else n <= 50 * V l.
Proof.
  intros Hr Hw Hc l ok l' n H. pose proof (V_pos l'). inversion H; clear H; subst. rewrite Hr in *. unfold roll_rule in *. repeat inv1; fails;
  repeat match goal with X : st (lit_i w) _ true _ _ |- _ => apply (liti_V w c _ _ _ Hw Hc) in X; destruct X | X : st (lit_i w) _ _ _ _ |- _ => apply lit_any in X; subst
  | X : st (ERef IncRandCount) _ _ _ _ |- _ => apply inc_cost in X; destruct X as (? & ? & ?); subst
  | X : st (ERef RollOperand) _ _ _ _ |- _ => apply operand_cost in X; cbn iota in X | X : _ /\ _ |- _ => destruct X end; try discriminate; try split; lia.
Qed.

(** ** Expressions with dice *)
Lemma d_letter : (97 <= 100 <= 122)%Z. Proof. lia. Qed.
Lemma operand_shape l ok l1 n1 : st (ERef RollOperand) l ok l1 n1 ->
  (ok = true /\ exists n, st (ERef Integer) l true l1 n /\ n1 = 2 + n) \/
  (exists c t, l = c :: t /\ (gc_rune c = 40 \/ gc_rune c = 91)%Z /\ n1 <= 22 + 120 * V t /\ (ok = true -> V l = 3 * V t + 1 + V l1 /\ skip 0 t = Some l1)) \/
  (ok = false /\ head_not 40 l /\ head_not 91 l /\ n1 = 14).
Proof.
  intros H. inversion H; clear H; subst. cbn [rules] in *. repeat inv1; fails.
  - left. split; [reflexivity|]. eexists. split; [eassumption|lia].
  - match goal with X : st (ERef RandomNumber) _ _ _ _ |- _ => apply rand_cost in X end. match goal with X : st (ERef Integer) _ _ _ _ |- _ => apply integer_cost in X; subst end. facts. right. left.
    eexists _, _. split; [reflexivity|]. split; [right; eassumption|]. split; [lia|]. intros _. split; assumption.
  - match goal with X : st (ERef RandomNumber) _ _ _ _ |- _ => apply rand_cost in X end. match goal with X : st (ERef ParenthesizedIntRandExpr) _ _ _ _ |- _ => apply intrand_paren_cost in X end. match goal with X : st (ERef Integer) _ _ _ _ |- _ => apply integer_cost in X; subst end.
    facts. right. left. eexists _, _. split; [reflexivity|]. split; [left; eassumption|]. split; [lia|]. intros _. split; assumption.
  - match goal with X : st (ERef RandomNumber) _ _ _ _ |- _ => apply rand_cost in X end. match goal with X : st (ERef ParenthesizedIntRandExpr) _ _ _ _ |- _ => apply intrand_paren_cost in X end.
    match goal with X : st (ERef Integer) _ _ _ _ |- _ => apply integer_cost in X; subst end. facts; right;
    first [solve [left; eexists _, _; split; [reflexivity|]; split; [first [left; eassumption|right; eassumption]|]; split; [lia|intros X; discriminate X]]|right; repeat split; try assumption; lia].
Qed.
(** how a roll can fail *)
Definition over (l1 : rest) (n2 : N) : Prop := n2 = 0 \/ dhead l1 = true /\ n2 <= 1 + 40 * V l1.
Lemma droll_fail l l' n : st (ERef DRoll) l false l' n ->
  (exists l1 n1 n2, st (ERef Integer) l true l1 n1 /\ n = 7 + n1 + n2 /\ over l1 n2) \/
  (exists c t, l = c :: t /\ (gc_rune c = 40 \/ gc_rune c = 91)%Z /\ (n <= 30 + 120 * V t \/ exists l1 n2, V l = 3 * V t + 1 + V l1 /\ skip 0 t = Some l1 /\ n <= 30 + 120 * V t + n2 /\ over l1 n2)) \/
  (head_not 40 l /\ head_not 91 l /\ n = 18).
Proof.
  intros H. assert ((exists n1, st (ERef RollOperand) l false l n1 /\ n = n1 + 4) \/ exists l1 n1 n2, st (ERef RollOperand) l true l1 n1 /\ n = 5 + n1 + n2 /\ over l1 n2) as X.
  { inversion H; clear H; subst. cbn [rules] in *. unfold roll_rule in *. repeat inv1; fails.
    - left. eexists. split; [eassumption|lia].
    - right. match goal with X : st (lit_i _) _ _ _ _ |- _ => apply lit_any in X; subst end. eexists _, _, 0. split; [eassumption|]. split; [lia|left; reflexivity].
    - right. match goal with X : st (lit_i _) _ _ _ _ |- _ => apply (liti_ok "d" 100%Z _ _ _ eq_refl) in X as (-> & c & -> & Hc) end.
      match goal with X : st (ERef RollOperand) _ false _ _ |- _ => apply operand_cost in X end. match goal with X : ?m <= 40 * V _ |- _ => eexists _, _, (1 + m) end. split; [eassumption|]. split; [lia|]. right.
      rewrite (V_flat _ _ (lower_letter _ _ d_letter Hc)). cbn [dhead]. rewrite Hc. split; [reflexivity|lia].
    - match goal with X : st (ERef IncRandCount) _ _ _ _ |- _ => apply inc_cost in X; destruct X as (X & _); discriminate X end. }
  clear H. destruct X as [(n1 & H & ->)|(l1 & n1 & n2 & H & -> & Hd)].
  - destruct (operand_shape _ _ _ _ H) as [(X & _)|[(c & t & -> & Hc & Hn & _)|(_ & H1 & H2 & ->)]]; [discriminate X| |].
    + right. left. exists c, t. split; [reflexivity|]. split; [exact Hc|]. left. lia.
    + right. right. repeat split; try assumption. 
  - destruct (operand_shape _ _ _ _ H) as [(_ & n & Hn & ->)|[(c & t & -> & Hc & Hn & Hv)|(X & _)]]; [| |discriminate X].
    + left. exists l1, n, n2. split; [exact Hn|]. split; [lia|exact Hd].
    + right. left. exists c, t. split; [reflexivity|]. split; [exact Hc|]. right. destruct (Hv eq_refl) as (Hv1 & Hv2). exists l1, n2. split; [exact Hv1|]. split; [exact Hv2|]. split; [lia|exact Hd].
Qed.
Lemma integer_head l l' n : st (ERef Integer) l true l' n -> head_not 40 l /\ head_not 91 l /\ head_not 43 l /\ head_not 45 l.
Proof.
  intros H. inversion H; clear H; subst. cbn [rules] in *. inv1. match goal with X : st (EPlus _) _ _ _ _ |- _ => inversion X; clear X; subst end. match goal with X : sk _ _ _ _ _ |- _ => inversion X; clear X; subst end.
  match goal with X : st cls_digit _ _ _ _ |- _ => apply class_step in X as (_ & X); destruct (X eq_refl) as (c & -> & Hm) end.
  unfold class_match, class_hit in Hm. cbn [cc_inverted cc_ignore_case cc_chars cc_ranges cc_Z existsb fst snd xorb orb andb] in Hm. unfold in_range in Hm.
  repeat split; intros c' t' [= <- <-] E; rewrite E in Hm; discriminate Hm.
Qed.
Lemma droll_prim L : (forall L', (L' < L)%nat -> add_spec L' DRollExprAdditive 694 /\ prim_spec L' DRollExprPrimary 300 40 300) -> prim_spec L DRollExprPrimary 300 40 300.
Proof.
  intros IH l ok l' n Hl H.
  pose proof (paren_sub L ParenthesizedDRollExpr DRollExpr DRollExprAdditive 694 l eq_refl eq_refl eq_refl Hl (fun L' HL => proj1 (IH L' HL))) as Hpar. change (694 + 1) with 695 in Hpar.
  assert (forall t ok l' n c, l = c :: t -> st (ERef DRollExprPrimary) t ok l' n -> if ok then V l' < V t /\ n + 300 * V l' <= 300 * V t + (if dhead l' then 40 * V l' else 0) else n <= 300 * V t) as Hsub.
  { intros t ok1 l1 n1 c -> H1. cbn [length] in Hl. apply (proj2 (IH (length t) ltac:(lia))) in H1; [|lia]. exact H1. }
  pose proof (V_pos l'). inversion H; clear H; subst. cbn [rules] in *. repeat inv1; fails.
  1: match goal with X : st (ERef DRoll) _ true _ _ |- _ => apply (roll_cost DRoll KD "d" 100%Z eq_refl eq_refl d_letter) in X; destruct X; destruct (dhead l'); split; lia end.
  all: match goal with X : st (ERef DRoll) _ false _ _ |- _ => apply droll_fail in X; destruct X as [(? & ? & ? & Hi & -> & Hd)|X]; [destruct (integer_head _ _ _ Hi) as (? & ? & ? & ?)|] end.
  all: det.
  all: try match goal with X : st (ERef Integer) _ true _ _ |- _ => destruct (integer_head _ _ _ X) as (? & ? & ? & ?) end.
  all: repeat match goal with
  | X : st (ERef Integer) _ _ _ _ |- _ => apply integer_cost in X; cbn iota in X
  | X : st (ERef RandomNumber) _ _ _ _ |- _ => apply rand_cost in X
  | X : st (ERef DRollExprUnaryPlus) _ _ _ _ |- _ => apply (plus_cost DRollExprUnaryPlus DRollExprPrimary eq_refl) in X
  | X : st (ERef DRollExprUnaryMinus) _ _ _ _ |- _ => apply (minus_cost DRollExprUnaryMinus DRollExprPrimary eq_refl) in X
  | X : st (ERef ParenthesizedDRollExpr) _ _ _ _ |- _ => apply Hpar in X
  end; facts; fails; det.
  all: repeat match goal with X : st (ERef DRollExprPrimary) _ _ _ _ |- _ => eapply Hsub in X; [|reflexivity]; cbn iota in X end; facts; known.
  all: repeat match goal with A : skip 0 ?t = Some ?a, B : skip 0 ?t = Some ?b |- _ => lazymatch A with B => fail | _ => rewrite A in B; injection B; clear B; intros; subst end end.
  all: unfold over in *; facts.
  all: repeat match goal with X : dhead ?l = true |- _ => rewrite X in * end.
  all: repeat match goal with |- context [dhead ?x] => destruct (dhead x) end; try split; try lia.
Qed.
Lemma droll_family : forall L, prim_spec L DRollExprPrimary 300 40 300 /\ add_spec L DRollExprAdditive 694.
Proof.
  induction L as [L IH] using (well_founded_induction lt_wf). assert (prim_spec L DRollExprPrimary 300 40 300) as H by (apply droll_prim; intros L' HL; split; apply IH, HL).
  split; [exact H|]. apply (multitive_spec _ DRollExprPrimary DRollExprMultitive _ _ _ eq_refl eq_refl) in H. eapply (additive_spec _ DRollExprMultitive DRollExprAdditive _ _ _ _ eq_refl eq_refl H); lia.
Qed.
Lemma droll_add_cost l ok l' n : st (ERef DRollExprAdditive) l ok l' n -> n <= 694 * V l.
Proof. intros H. apply (proj2 (droll_family (length l))) in H; [apply H|lia]. Qed.
Lemma droll_expr_cost l ok l' n : st (ERef DRollExpr) l ok l' n -> n <= 695 * V l.
Proof. intros H. apply (alias_spec _ DRollExpr DRollExprAdditive 694 eq_refl (proj2 (droll_family (length l)))) in H; [apply H|lia]. Qed.

(** ** Lists of rolls *)
Lemma list_loop e r l l' k n : (forall l ok l' n, st (ERef r) l ok l' n -> if ok then V l' < V l /\ n + 50 * V l' <= 50 * V l else n <= 50 * V l) ->
  sk e l l' k n -> e = ESeq [lit "+"; ERef r] -> n + 52 * V l' <= 52 * V l + 52 * V l'.
Proof.
  intros Hr. induction 1; intros ->.
  - pose proof (V_pos l'). apart; fails; try lia. match goal with X : st (ERef r) _ _ _ _ |- _ => apply Hr in X end. known. lia.
  - specialize (IHsk eq_refl). apart. match goal with X : st (ERef r) _ _ _ _ |- _ => apply Hr in X; destruct X end. known. lia.
Qed.
Definition bounded (r : rule) (C : N) : Prop := forall l ok l' n, st (ERef r) l ok l' n -> n <= C * V l.
Ltac sizes := levels; known.
Ltac use r H := repeat match goal with X : st (ERef r) _ _ _ _ |- _ => apply H in X; cbn iota in X end.
Lemma blist_cost : bounded BRollList 60.
Proof.
  intros l ok l' n H. pose proof (V_pos l). pose proof (roll_cost BRoll KB "b" 98%Z eq_refl eq_refl ltac:(lia)) as Hb. inversion H; clear H; subst. cbn [rules] in *. repeat inv1; fails; try match goal with X : st (EStar _) _ _ _ _ |- _ => inversion X; clear X; subst end; sizes.
  - match goal with X : sk _ _ _ _ _ |- _ => apply (list_loop _ BRoll) in X; [|exact Hb|reflexivity] end. use BRoll Hb. facts. lia.
  - use BRoll Hb. lia.
Qed.
Lemma rlist_cost r e k w (c : Z) : fam e = true -> rules r = r_list_rule e -> rules e = roll_rule k w -> runes w = [c] -> (97 <= c <= 122)%Z -> bounded r 190.
Proof.
  intros Hf Hr He Hw Hc l ok l' n H. pose proof (V_pos l). pose proof (roll_cost e k w c He Hw Hc) as Hb. inversion H; clear H; subst. rewrite Hr in *. unfold r_list_rule in *. repeat inv1; fails; try match goal with X : st (EStar _) _ _ _ _ |- _ => inversion X; clear X; subst end; sizes;
  try match goal with X : sk _ _ _ _ _ |- _ => apply (list_loop _ e) in X; [|exact Hb|reflexivity] end; use e Hb; use IntExpr int_cost; facts; sizes; lia.
Qed.
Lemma compare_op_cost l ok l' n : st (ERef CompareOp) l ok l' n -> n <= 8 /\ V l' <= V l.
Proof.
  intros H. split; [|apply level_V, (st_level (ERef CompareOp) _ _ _ _ (lev_ref CompareOp eq_refl) H)]. inversion H; clear H; subst. cbn [rules] in *.
  repeat match goal with X : st (lit _) _ _ _ _ |- _ => apply lit_any in X; subst | X : st (EChoice _) _ _ _ _ |- _ => inversion X; clear X; subst | X : sc _ _ _ _ _ |- _ => inversion X; clear X; subst end; lia.
Qed.
Lemma compare_cost r f lft C : fam lft = true -> rules r = compare_rule f lft -> bounded lft C -> bounded r (C + 136).
Proof.
  intros Hf Hr Hl l ok l' n H. pose proof (V_pos l). inversion H; clear H; subst. rewrite Hr in *. unfold compare_rule in *. repeat inv1; fails; sizes; use CompareOp compare_op_cost; use IntExpr int_cost; use lft Hl; facts; lia.
Qed.
Lemma uexpr_cost : bounded URollExpr 330.
Proof.
  intros l ok l' n H. pose proof (V_pos l). pose proof (rlist_cost URollList URoll KU "u" 117%Z eq_refl eq_refl eq_refl eq_refl ltac:(lia)) as Hb. inversion H; clear H; subst. cbn [rules] in *. repeat inv1; fails; sizes; use IntExprAdditive int_add_cost; use URollList Hb; facts; sizes; lia.
Qed.

(** ** Choices: linear in the length *)
Definition len (l : rest) : N := N.of_nat (length l) + 1.
Lemma len_cons c t : len (c :: t) = len t + 1. Proof. unfold len. cbn [length]. lia. Qed.
Lemma len_pos l : 1 <= len l. Proof. unfold len. lia. Qed.
Lemma len_ends l' l : ends l' l -> len l' <= len l.
Proof. intros H. apply ends_length in H. unfold len. lia. Qed.
Ltac lens := repeat match goal with X : st ?e ?l ?ok ?l' ?n |- _ => lazymatch goal with _ : len l' <= len l |- _ => fail | _ => pose proof (len_ends _ _ (st_ends _ _ _ _ _ X)) end end;
  repeat match goal with X : sk ?e ?l ?l' ?k ?n |- _ => lazymatch goal with _ : len l' <= len l |- _ => fail | _ => pose proof (len_ends _ _ (sk_ends _ _ _ _ _ X)) end end; rewrite ?len_cons in *.
Lemma class_loop c e l l' k n : sk e l l' k n -> e = EClass c -> len l' + N.of_nat k <= len l /\ n = 1 + N.of_nat k.
Proof.
  induction 1; intros ->.
  - pose proof (st_fail _ _ _ _ H) as ->. apply class_step in H as (-> & _). lia.
  - destruct (IHsk eq_refl) as (E & ->). apply class_step in H as (-> & Hc). destruct (Hc eq_refl) as (ch & -> & Hm). rewrite len_cons. lia.
Qed.
Lemma item_cost l ok l' n : st (ERef ChoiceItem) l ok l' n -> if ok then len l' < len l /\ n + 12 * len l' <= 12 * len l else n <= 12 * len l.
Proof.
  intros H. pose proof (len_pos l). pose proof (len_pos l'). inversion H; clear H; subst. cbn [rules] in *.
  repeat match goal with X : st (ERef ChoiceItemChars) _ _ _ _ |- _ => inversion X; clear X; subst | X : st (rules _) _ _ _ _ |- _ => cbn [rules] in X | X : st (EStar _) _ _ _ _ |- _ => inversion X; clear X; subst | X : st (EPlus _) _ _ _ _ |- _ => inversion X; clear X; subst | _ => inv1 end;
  repeat match goal with X : sk _ _ _ _ _ |- _ => eapply class_loop in X; [|reflexivity]; destruct X end; try split; lia.
Qed.
Lemma items_loop e l l' k n : sk e l l' k n -> e = ESeq [lit ","; ERef ChoiceItem] -> n <= 15 * len l.
Proof.
  intros H He. cut (n + 14 * len l' <= 14 * len l + 15 * len l'); [intros; pose proof (len_ends _ _ (sk_ends _ _ _ _ _ H)); lia|]. revert He. induction H; intros ->.
  - pose proof (len_pos l'). apart; fails; try lia. use ChoiceItem item_cost. rewrite ?len_cons in *. lia.
  - specialize (IHsk eq_refl). apart. use ChoiceItem item_cost. rewrite ?len_cons in *. lia.
Qed.
Lemma items_cost l ok l' n : st (ERef ChoiceItems) l ok l' n -> n <= 35 * len l.
Proof.
  intros H. pose proof (len_pos l). inversion H; clear H; subst. cbn [rules] in *. repeat inv1; fails; try match goal with X : st (EStar _) _ _ _ _ |- _ => inversion X; clear X; subst end; lens;
  try match goal with X : sk _ _ _ _ _ |- _ => apply items_loop in X; [|reflexivity] end; use ChoiceItem item_cost; lia.
Qed.
Lemma choice_cost l ok l' n : st (ERef Choice) l ok l' n -> n <= 60 * len l.
Proof.
  intros H. pose proof (len_pos l). inversion H; clear H; subst. cbn [rules] in *.
  repeat match goal with X : st (EStar _) _ _ _ _ |- _ => inversion X; clear X; subst | _ => inv1 end; fails; lens; use ChoiceItems items_cost;
  repeat match goal with X : sk _ _ _ _ _ |- _ => eapply class_loop in X; [|reflexivity]; destruct X end;
  repeat match goal with X : st (lit_i _) _ _ _ _ |- _ => apply lit_any in X; subst end; rewrite ?len_cons in *; lia.
Qed.
Lemma calc_cost : bounded Calc 130.
Proof.
  intros l ok l' n H. pose proof (V_pos l). inversion H; clear H; subst. cbn [rules] in *. repeat inv1; fails; sizes; use IntExpr int_cost; repeat match goal with X : st (lit_i _) _ _ _ _ |- _ => apply lit_any in X; subst end; facts; sizes; lia.
Qed.
(** ** Commands *)
Lemma label_cost r a x e C : rules r = EAction a (ELabel x (ERef e)) -> bounded e C -> bounded r (C + 3).
Proof. intros Hr He l ok l' n H. pose proof (V_pos l). inversion H; clear H; subst. rewrite Hr in *. repeat inv1. use e He. lia. Qed.
Lemma droll_comp_cost : bounded DRollComp 830.
Proof. exact (compare_cost DRollComp _ DRollExprAdditive 694 eq_refl eq_refl droll_add_cost). Qed.
Lemma eot_cost l ok l' n : st (ERef EOT) l ok l' n -> n <= 3.
Proof. intros H. inversion H; clear H; subst. cbn [rules] in *. match goal with X : st (ENot _) _ _ _ _ |- _ => inversion X; clear X; subst end. match goal with X : st EAny _ _ _ _ |- _ => inversion X; clear X; subst end; lia. Qed.
Lemma with_cost : bounded CommandWithExpression 3115.
Proof.
  intros l ok l' n H. pose proof (V_pos l). 
  pose proof (compare_cost BRollComp _ BRollList 60 eq_refl eq_refl blist_cost) as H1. pose proof blist_cost as H2.
  pose proof (rlist_cost RRollList RRoll KR "r" 114%Z eq_refl eq_refl eq_refl eq_refl ltac:(lia)) as H4. pose proof (compare_cost RRollComp _ RRollList 190 eq_refl eq_refl H4) as H3.
  pose proof uexpr_cost as H6. pose proof (compare_cost URollComp _ URollExpr 330 eq_refl eq_refl H6) as H5.
  pose proof (label_cost DRollCompCommand _ "expr" DRollComp 830 eq_refl droll_comp_cost) as H7. pose proof (label_cost DRollExprCommand _ "expr" DRollExpr 695 eq_refl droll_expr_cost) as H8.
  cbn in H1, H3, H5, H7, H8.
  inversion H; clear H; subst. cbn [rules] in *. repeat inv1; fails; sizes;
  use BRollComp H1; use BRollList H2; use RRollComp H3; use RRollList H4; use URollComp H5; use URollExpr H6; use DRollCompCommand H7; use DRollExprCommand H8; use EOT eot_cost; lia.
Qed.
Lemma reset_cost l ok l' n : st (ERef ResetRandCount) l ok l' n -> n = 2 /\ l' = l.
Proof. intros H. inversion H; clear H; subst. cbn [rules] in *. repeat inv1. split; reflexivity. Qed.
Lemma command_cost l ok l' n : st (rules Command) l ok l' n -> n <= 60 * len l + 3251 * V l.
Proof.
  intros H. pose proof (V_pos l). pose proof (len_pos l). cbn [rules] in *. repeat inv1; fails; use ResetRandCount reset_cost; facts; use Choice choice_cost; use Calc calc_cost; use CommandWithExpression with_cost; lia.
Qed.
