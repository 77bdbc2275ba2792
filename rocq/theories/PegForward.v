(** Forward reasoning about the engine: judgements "matches" and "fails" without fuel. *)
From Verif Require Import Grammar ProofBase SpecSyntax SpecGrammar TextFacts PegProofs GrammarSound PegTotal.
Open Scope list_scope.
Open Scope Z_scope.

Definition run (e : expr rule) (s : pstate) (r : pres) (s' : pstate) : Prop :=
  exists f0, forall f, (f0 <= f)%nat -> exists n, pexpr rules f e s = Some (r, s', n).

(** [M e l D v l' j]: on the remaining input l, e matches with value v, leaves l', adds the labels D and j random elements. *)
Definition M (e : expr rule) (l : text) (D : env) (v : val) (l' : text) (j : Z) : Prop :=
  forall k er E, in_int64 k -> run e (PState l (Some k) er E) (PMatch v) (PState l' (Some (wrap64 (k + j))) er (D ++ E)).
(** [Fl e l]: e fails on l *)
Definition Fl (e : expr rule) (l : text) : Prop :=
  forall k er E, in_int64 k -> exists E', run e (PState l (Some k) er E) PFail (PState l (Some k) er E').

Lemma M_ref r l D v l' j : M (rules r) l D v l' j -> M (ERef r) l [] v l' j.
Proof.
  intros H k er E Hk. destruct (H k er [] Hk) as (f0 & Hf). exists (S f0). intros f Hle. destruct f as [|f]; [lia|].
  destruct (Hf f ltac:(lia)) as (n & Hn). exists (1 + n)%N. cbn [pexpr]. unfold set_env at 1. cbn [ps_rest ps_st ps_errs]. rewrite Hn. reflexivity.
Qed.
Lemma Fl_ref r l : Fl (rules r) l -> Fl (ERef r) l.
Proof.
  intros H k er E Hk. destruct (H k er [] Hk) as (E' & f0 & Hf). exists E, (S f0). intros f Hle. destruct f as [|f]; [lia|].
  destruct (Hf f ltac:(lia)) as (n & Hn). exists (1 + n)%N. cbn [pexpr]. unfold set_env at 1. cbn [ps_rest ps_st ps_errs]. rewrite Hn. reflexivity.
Qed.
Lemma M_label x e l D v l' j : M e l D v l' j -> M (ELabel x e) l [(x, v)] v l' j.
Proof.
  intros H k er E Hk. destruct (H k er [] Hk) as (f0 & Hf). exists (S f0). intros f Hle. destruct f as [|f]; [lia|].
  destruct (Hf f ltac:(lia)) as (n & Hn). exists (1 + n)%N. cbn [pexpr]. unfold set_env at 1. cbn [ps_rest ps_st ps_errs]. rewrite Hn. reflexivity.
Qed.
Lemma Fl_label x e l : Fl e l -> Fl (ELabel x e) l.
Proof.
  intros H k er E Hk. destruct (H k er [] Hk) as (E' & f0 & Hf). exists E, (S f0). intros f Hle. destruct f as [|f]; [lia|].
  destruct (Hf f ltac:(lia)) as (n & Hn). exists (1 + n)%N. cbn [pexpr]. unfold set_env at 1. cbn [ps_rest ps_st ps_errs]. rewrite Hn. reflexivity.
Qed.
(** a rule whose body is an action *)
Lemma M_rule r act e l D v l' j w : rules r = EAction act e -> M e l D v l' j ->
  (forall st, act D (slice_from l l') st = AVal w) -> M (ERef r) l [] w l' j.
Proof.
  intros Hr H Ha k er E Hk. destruct (H k er [] Hk) as (f0 & Hf). exists (S (S f0)). intros f Hle. destruct f as [|[|f]]; [lia|lia|].
  destruct (Hf f ltac:(lia)) as (n & Hn). exists (1 + (1 + n))%N. cbn [pexpr]. rewrite Hr. cbn [pexpr]. unfold set_env at 1. cbn [ps_rest ps_st ps_errs]. rewrite Hn.
  cbn [ps_rest ps_st ps_env]. rewrite app_nil_r, Ha. reflexivity.
Qed.
Lemma Fl_rule r act e l : rules r = EAction act e -> Fl e l -> Fl (ERef r) l.
Proof.
  intros Hr H k er E Hk. destruct (H k er [] Hk) as (E' & f0 & Hf). exists E, (S (S f0)). intros f Hle. destruct f as [|[|f]]; [lia|lia|].
  destruct (Hf f ltac:(lia)) as (n & Hn). exists (1 + (1 + n))%N. cbn [pexpr]. rewrite Hr. cbn [pexpr]. unfold set_env at 1. cbn [ps_rest ps_st ps_errs]. rewrite Hn. reflexivity.
Qed.

(** ** Sequences *)
Inductive Ms : list (expr rule) -> text -> env -> list val -> text -> Z -> Prop :=
| Ms_nil l : Ms [] l [] [] l 0
| Ms_cons e es l D v l1 j D' vs l' j' : M e l D v l1 j -> Ms es l1 D' vs l' j' -> Ms (e :: es) l (D' ++ D) (v :: vs) l' (j + j').
Lemma seq_loop_match es l D vs l' j : Ms es l D vs l' j -> forall k er E, in_int64 k ->
  exists f0, forall f, (f0 <= f)%nat -> forall s0 done n, exists n',
    seq_loop (pexpr rules f) es s0 (PState l (Some k) er E) done n = Some (PMatch (VSlice (done ++ vs)), PState l' (Some (wrap64 (k + j))) er (D ++ E), n').
Proof.
  induction 1 as [l|e es l D v l1 j D' vs l' j' He _ IH]; intros k er E Hk.
  - exists O. intros f _ s0 done n. exists n. cbn. rewrite app_nil_r, Z.add_0_r, wrap64_id by exact Hk. reflexivity.
  - destruct (He k er E Hk) as (f1 & H1). destruct (IH (wrap64 (k + j)) er (D ++ E) (wrap64_range _)) as (f2 & H2).
    exists (Nat.max f1 f2). intros f Hf s0 done n. destruct (H1 f ltac:(lia)) as (n1 & E1). cbn [seq_loop]. rewrite E1.
    destruct (H2 f ltac:(lia) s0 (done ++ [v]) (n + n1)%N) as (n2 & E2). exists n2. rewrite E2, <- !app_assoc, wrap64_add_l. cbn [app]. rewrite Z.add_assoc. reflexivity.
Qed.
Lemma M_seq es l D vs l' j : Ms es l D vs l' j -> M (ESeq es) l D (VSlice vs) l' j.
Proof.
  intros H k er E Hk. destruct (seq_loop_match _ _ _ _ _ _ H k er E Hk) as (f0 & Hf). exists (S f0). intros f Hle. destruct f as [|f]; [lia|].
  destruct (Hf f ltac:(lia) (PState l (Some k) er E) [] 1%N) as (n & Hn). exists n. exact Hn.
Qed.
(** a prefix matches, the next element fails *)
Lemma seq_loop_fail es1 e es2 l D vs l' j : Ms es1 l D vs l' j -> Fl e l' -> forall s0 k er E, in_int64 k ->
  exists st' E' f0, forall f, (f0 <= f)%nat -> forall done n, exists n',
    seq_loop (pexpr rules f) (es1 ++ e :: es2) s0 (PState l (Some k) er E) done n = Some (PFail, set_rest (set_st (PState l' st' er E') (ps_st s0)) (ps_rest s0), n').
Proof.
  intros H He s0. induction H as [l|x es l D v l1 j D' vs l' j' Hx _ IH]; intros k er E Hk.
  - destruct (He k er E Hk) as (E' & f0 & Hf). exists (Some k), E', f0. intros f Hle done n. destruct (Hf f Hle) as (n1 & E1). exists (n + n1)%N. cbn [app seq_loop]. rewrite E1. reflexivity.
  - destruct (Hx k er E Hk) as (f1 & H1). destruct (IH He (wrap64 (k + j)) er (D ++ E) (wrap64_range _)) as (st' & E' & f2 & H2).
    exists st', E', (Nat.max f1 f2). intros f Hf done n. destruct (H1 f ltac:(lia)) as (n1 & E1). cbn [app seq_loop]. rewrite E1.
    destruct (H2 f ltac:(lia) (done ++ [v]) (n + n1)%N) as (n2 & E2). exists n2. exact E2.
Qed.
Lemma Fl_seq es1 e es2 l D vs l' j : Ms es1 l D vs l' j -> Fl e l' -> Fl (ESeq (es1 ++ e :: es2)) l.
Proof.
  intros H He k er E Hk. destruct (seq_loop_fail es1 e es2 _ _ _ _ _ H He (PState l (Some k) er E) k er E Hk) as (st' & E' & f0 & Hf).
  exists E', (S f0). intros f Hle. destruct f as [|f]; [lia|]. destruct (Hf f ltac:(lia) [] 1%N) as (n & Hn). exists n. exact Hn.
Qed.
Lemma Fl_seq0 e es l : Fl e l -> Fl (ESeq (e :: es)) l.
Proof. intros H. exact (Fl_seq [] e es l [] [] l 0 (Ms_nil l) H). Qed.

(** ** Ordered choice *)
Definition Mc (alts : list (expr rule)) (l : text) (v : val) (l' : text) (j : Z) : Prop :=
  forall k er E, in_int64 k -> exists f0, forall f, (f0 <= f)%nat -> forall n, exists n',
    choice_loop (pexpr rules f) alts (PState l (Some k) er E) n = Some (PMatch v, PState l' (Some (wrap64 (k + j))) er E, n').
Lemma M_choice alts l v l' j : Mc alts l v l' j -> M (EChoice alts) l [] v l' j.
Proof.
  intros H k er E Hk. destruct (H k er E Hk) as (f0 & Hf). exists (S f0). intros f Hle. destruct f as [|f]; [lia|].
  destruct (Hf f ltac:(lia) 1%N) as (n & Hn). exists n. exact Hn.
Qed.
Lemma Mc_here e alts l D v l' j : M e l D v l' j -> Mc (e :: alts) l v l' j.
Proof.
  intros H k er E Hk. destruct (H k er [] Hk) as (f0 & Hf). exists f0. intros f Hle n. destruct (Hf f Hle) as (n1 & E1).
  exists (n + n1)%N. cbn [choice_loop]. unfold set_env at 1. cbn [ps_rest ps_st ps_errs]. rewrite E1. reflexivity.
Qed.
Lemma Mc_next e alts l v l' j : Fl e l -> Mc alts l v l' j -> Mc (e :: alts) l v l' j.
Proof.
  intros H1 H2 k er E Hk. destruct (H1 k er [] Hk) as (E' & f1 & Hf1). destruct (H2 k er E Hk) as (f2 & Hf2). exists (Nat.max f1 f2). intros f Hle n.
  destruct (Hf1 f ltac:(lia)) as (n1 & E1). destruct (Hf2 f ltac:(lia) (n + n1)%N) as (n2 & E2). exists n2.
  cbn [choice_loop]. unfold set_env at 1. cbn [ps_rest ps_st ps_errs]. rewrite E1. exact E2.
Qed.
Lemma Fl_choice alts l : Forall (fun e => Fl e l) alts -> Fl (EChoice alts) l.
Proof.
  intros H k er E Hk. assert (exists f0, forall f, (f0 <= f)%nat -> forall n, exists n', choice_loop (pexpr rules f) alts (PState l (Some k) er E) n = Some (PFail, PState l (Some k) er E, n')) as (f0 & Hf).
  { induction H as [|e alts He _ (f2 & Hf2)]; [exists O; intros f _ n; exists n; reflexivity|].
    destruct (He k er [] Hk) as (E' & f1 & Hf1). exists (Nat.max f1 f2). intros f Hle n.
    destruct (Hf1 f ltac:(lia)) as (n1 & E1). destruct (Hf2 f ltac:(lia) (n + n1)%N) as (n2 & E2). exists n2.
    cbn [choice_loop]. unfold set_env at 1. cbn [ps_rest ps_st ps_errs]. rewrite E1. exact E2. }
  exists E, (S f0). intros f Hle. destruct f as [|f]; [lia|]. destruct (Hf f ltac:(lia) 1%N) as (n & Hn). exists n. exact Hn.
Qed.

(** ** Repetition *)
Inductive Mr (e : expr rule) : text -> list val -> text -> Z -> Prop :=
| Mr_stop l : Fl e l -> Mr e l [] l 0
| Mr_more l D v l1 j vs l' j' : M e l D v l1 j -> Mr e l1 vs l' j' -> Mr e l (v :: vs) l' (j + j').
Lemma star_loop_match e need l vs l' j : Mr e l vs l' j -> forall k er E, in_int64 k ->
  exists f0, forall f i, (f0 <= f)%nat -> (f0 <= i)%nat -> forall done n, (need = true -> done ++ vs <> []) -> exists n',
    star_loop i (pexpr rules f e) need (PState l (Some k) er E) done n = Some (PMatch (VSlice (done ++ vs)), PState l' (Some (wrap64 (k + j))) er E, n').
Proof.
  induction 1 as [l Hf|l D v l1 j vs l' j' He _ IH]; intros k er E Hk.
  - destruct (Hf k er [] Hk) as (E' & f0 & Hf0). exists (S f0). intros f i Hle Hi done n Hd. destruct i as [|i]; [lia|].
    destruct (Hf0 f ltac:(lia)) as (n1 & E1). exists (n + n1)%N. cbn [star_loop]. unfold set_env at 1. cbn [ps_rest ps_st ps_errs]. rewrite E1.
    rewrite app_nil_r, Z.add_0_r, wrap64_id in * by exact Hk. destruct done; [|reflexivity]. destruct need; [destruct (Hd eq_refl eq_refl)|reflexivity].
  - destruct (He k er [] Hk) as (f1 & H1). destruct (IH (wrap64 (k + j)) er E (wrap64_range _)) as (f2 & H2).
    exists (S (Nat.max f1 f2)). intros f i Hle Hi done n Hd. destruct i as [|i]; [lia|].
    destruct (H1 f ltac:(lia)) as (n1 & E1). cbn [star_loop]. unfold set_env at 1. cbn [ps_rest ps_st ps_errs]. rewrite E1.
    destruct (H2 f i ltac:(lia) ltac:(lia) (done ++ [v]) (n + n1)%N) as (n2 & E2); [intros _; destruct done; discriminate|].
    exists n2. unfold set_env. cbn [ps_rest ps_st ps_errs ps_env]. rewrite E2, <- app_assoc, wrap64_add_l. cbn [app]. rewrite Z.add_assoc. reflexivity.
Qed.
Lemma M_star e l vs l' j : Mr e l vs l' j -> M (EStar e) l [] (VSlice vs) l' j.
Proof.
  intros H k er E Hk. destruct (star_loop_match e false _ _ _ _ H k er E Hk) as (f0 & Hf). exists (S f0). intros f Hle. destruct f as [|f]; [lia|].
  destruct (Hf f f ltac:(lia) ltac:(lia) [] 1%N) as (n & Hn); [discriminate|]. exists n. exact Hn.
Qed.
Lemma M_plus e l vs l' j : Mr e l vs l' j -> vs <> [] -> M (EPlus e) l [] (VSlice vs) l' j.
Proof.
  intros H Hne k er E Hk. destruct (star_loop_match e true _ _ _ _ H k er E Hk) as (f0 & Hf). exists (S f0). intros f Hle. destruct f as [|f]; [lia|].
  destruct (Hf f f ltac:(lia) ltac:(lia) [] 1%N) as (n & Hn); [intros _; exact Hne|]. exists n. exact Hn.
Qed.
Lemma Fl_plus e l : Fl e l -> Fl (EPlus e) l.
Proof.
  intros H k er E Hk. destruct (H k er [] Hk) as (E' & f0 & Hf). exists E, (S (S f0)). intros f Hle. destruct f as [|[|f]]; [lia|lia|].
  destruct (Hf (S f) ltac:(lia)) as (n & Hn). exists (1 + n)%N. change (star_loop (S f) (pexpr rules (S f) e) true (PState l (Some k) er E) [] 1 = Some (PFail, PState l (Some k) er E, (1 + n)%N)).
  cbn [star_loop]. unfold set_env at 1. cbn [ps_rest ps_st ps_errs]. rewrite Hn. reflexivity.
Qed.
Lemma M_opt e l D v l' j : M e l D v l' j -> M (EOpt e) l [] v l' j.
Proof.
  intros H k er E Hk. destruct (H k er [] Hk) as (f0 & Hf). exists (S f0). intros f Hle. destruct f as [|f]; [lia|].
  destruct (Hf f ltac:(lia)) as (n & Hn). exists (1 + n)%N. cbn [pexpr]. unfold set_env at 1. cbn [ps_rest ps_st ps_errs]. rewrite Hn. reflexivity.
Qed.
Lemma M_opt_none e l : Fl e l -> M (EOpt e) l [] VNil l 0.
Proof.
  intros H k er E Hk. destruct (H k er [] Hk) as (E' & f0 & Hf). exists (S f0). intros f Hle. destruct f as [|f]; [lia|].
  destruct (Hf f ltac:(lia)) as (n & Hn). exists (1 + n)%N. cbn [pexpr]. unfold set_env at 1. cbn [ps_rest ps_st ps_errs]. rewrite Hn.
  rewrite Z.add_0_r, wrap64_id by exact Hk. reflexivity.
Qed.

(** ** Characters *)
Lemma read_valid c l st er E : valid_head l -> read (PState (c :: l) st er E) = PState l st er E.
Proof. unfold read, arrive, set_rest. cbn. destruct l as [|d l]; [reflexivity|]. cbn. intros ->. reflexivity. Qed.
Lemma valid_head_app t l : valid t -> valid_head l -> valid_head (t ++ l).
Proof. destruct t; [auto|]. intros H _. inversion H. assumption. Qed.
Lemma lit_loop_match (ic : bool) t l st er E : valid t -> valid_head l ->
  lit_loop (map (fun c => if ic then to_lower (gc_rune c) else gc_rune c) t) ic (PState (t ++ l) st er E) = (true, PState l st er E).
Proof.
  intros Hv Hl. induction t as [|c t IH]; [reflexivity|]. cbn [map lit_loop app ps_rest]. rewrite Z.eqb_refl. inversion Hv; subst.
  rewrite read_valid by (apply valid_head_app; assumption). apply IH. assumption.
Qed.
Lemma M_ELit ic lit t l : map (fun c => if ic : bool then to_lower (gc_rune c) else gc_rune c) t = lit -> valid t -> valid_head l ->
  M (ELit lit ic) (t ++ l) [] (VBytes (raw_text t)) l 0.
Proof.
  intros <- Hv Hl k er E Hk. exists 1%nat. intros f Hle. destruct f as [|f]; [lia|]. exists 1%N. cbn [pexpr].
  rewrite lit_loop_match by assumption. cbn [ps_rest]. rewrite slice_from_app, Z.add_0_r, wrap64_id by exact Hk. reflexivity.
Qed.
Lemma M_lit w t l : word w t -> forallb (fun z => z <? 128) (codes w) = true -> Forall plain t -> valid t -> valid_head l -> M (lit w) (t ++ l) [] (VBytes w) l 0.
Proof.
  intros Hw Ha Hp Hv Hl. pose proof (word_raw w t Ha Hp Hw) as E. unfold word in Hw. rewrite <- runes_codes in Hw. rewrite <- E at 2. apply M_ELit; assumption.
Qed.
Lemma M_lit_i w t l : word_i w t -> valid t -> valid_head l -> M (lit_i w) (t ++ l) [] (VBytes (raw_text t)) l 0.
Proof. intros Hw Hv Hl. unfold word_i in Hw. change small_letter with to_lower in Hw. rewrite <- runes_codes in Hw. apply M_ELit; assumption. Qed.
(** A literal fails at its first character, or at the end of the input. *)
Definition not_head (P : gochar -> Prop) (l : text) : Prop := match l with c :: _ => ~ P c | [] => True end.
Lemma Fl_ELit ic w lit l : not_head (fun c => (if ic : bool then to_lower (gc_rune c) else gc_rune c) = w) l -> Fl (ELit (w :: lit) ic) l.
Proof.
  intros H k er E Hk. exists E, 1%nat. intros f Hle. destruct f as [|f]; [lia|]. exists 1%N. cbn [pexpr lit_loop ps_rest]. destruct l as [|c l]; [reflexivity|].
  cbn in H. replace (_ =? w) with false; [reflexivity|]. symmetry. apply Z.eqb_neq. exact H.
Qed.
(** ... or at its second character *)
Lemma Fl_ELit2 ic w x lit c l : valid_head l -> not_head (fun c => (if ic : bool then to_lower (gc_rune c) else gc_rune c) = x) l -> Fl (ELit (w :: x :: lit) ic) (c :: l).
Proof.
  intros Hv H k er E Hk. exists E, 1%nat. intros f Hle. destruct f as [|f]; [lia|]. exists 1%N. cbn [pexpr lit_loop ps_rest].
  destruct (_ =? w); [|reflexivity]. rewrite read_valid by exact Hv. cbn [ps_rest]. destruct l as [|d l]; [reflexivity|].
  cbn in H. replace (_ =? x) with false; [reflexivity|]. symmetry. apply Z.eqb_neq. exact H.
Qed.
Lemma M_class cc c l : class_match cc (gc_rune c) = true -> valid_head l -> M (EClass cc) (c :: l) [] (VBytes (gc_raw c)) l 0.
Proof.
  intros Hc Hl k er E Hk. exists 1%nat. intros f Hle. destruct f as [|f]; [lia|]. exists 1%N. cbn [pexpr ps_rest]. rewrite Hc, read_valid by exact Hl.
  rewrite Z.add_0_r, wrap64_id by exact Hk. reflexivity.
Qed.
Lemma Fl_class cc l : not_head (fun c => class_match cc (gc_rune c) = true) l -> Fl (EClass cc) l.
Proof.
  intros H k er E Hk. exists E, 1%nat. intros f Hle. destruct f as [|f]; [lia|]. exists 1%N. cbn [pexpr ps_rest]. destruct l as [|c l]; [reflexivity|].
  cbn in H. destruct (class_match cc (gc_rune c)); [congruence|reflexivity].
Qed.
Lemma M_inc l : M (ERef IncRandCount) l [] VNil l 1.
Proof. intros k er E Hk. exists 2%nat. intros f Hle. destruct f as [|[|f]]; [lia|lia|]. exists 2%N. reflexivity. Qed.

(** ** Failure by soundness: a rule fails where no prefix is spelled by it *)
Lemma enough_rule r s : exists f0, forall f, (f0 <= f)%nat -> pexpr rules f (ERef r) s <> None.
Proof.
  exists (100 * length (ps_rest s) + 100)%nat. intros f Hf. destruct f as [|f]; [lia|]. cbn [pexpr].
  pose proof (enough rules consuming rank_of 100 consuming_ok rank_ok fine_ok ltac:(lia) f (rules r) (set_env s []) (fine_ok r)) as H.
  assert (lneed consuming rank_of (rules r) <= 99)%nat as Hl by (apply Nat.leb_le; destruct r; vm_compute; reflexivity).
  specialize (H ltac:(cbn [set_env ps_rest]; lia)). destruct (pexpr rules f (rules r) (set_env s [])) as [[[res s'] n]|]; [discriminate|exact (fun _ => H eq_refl)].
Qed.
Lemma Fl_sound r l : inner r = true -> Forall plain l -> valid l ->
  (forall t v j l', l = t ++ l' -> Post r t v j -> False) -> Fl (ERef r) l.
Proof.
  intros Hr Hp Hv Hno k er E Hk. set (s := PState l (Some k) er E). destruct (enough_rule r s) as (f0 & Hf).
  assert (counted s) as Hc by (split; [exact Hp|exists k; auto]).
  exists E, f0. intros f Hle. specialize (Hf f Hle). pose proof (rule_sound f r s Hr Hc) as Hs. unfold wpp, holds in Hs.
  assert (forall s' n v, pexpr rules f (ERef r) s = Some (v, s', n) -> ps_env s' = E) as He.
  { intros s' n v. destruct f as [|f']; [discriminate|]. cbn [pexpr]. destruct (pexpr rules f' (rules r) (set_env s [])) as [[[res s1] n1]|]; [|discriminate]. injection 1 as _ <- _. reflexivity. }
  destruct (pexpr rules f (ERef r) s) as [[[[v| |m] s'] n]|]; [| |contradiction|congruence].
  - destruct Hs as (t & j & S1 & _ & P1). destruct (Hno t v j (ps_rest s') (proj1 S1) P1).
  - exists n. destruct Hs as (H1 & H2 & H3). specialize (He _ _ _ eq_refl). destruct s' as [r' st' er' E']. cbn in *. rewrite H1, H2, H3, He by exact Hv. reflexivity.
Qed.
