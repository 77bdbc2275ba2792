(** Two texts with a common beginning: what the engine does within it is the same. *)
From Verif Require Import Grammar PegText ProofBase SpecGrammar SpecErrors ErrInv ErrGrow.
Open Scope list_scope.
Open Scope Z_scope.

(** ** Fuel *)
Section Mono.
  Context {R : Type}.
  Implicit Types p q : expr R -> dstate R -> @dout R.
  Definition le_d p q := forall e s x, p e s = Some x -> q e s = Some x.
  Lemma d_seq_mono p q es : le_d p q -> forall s0 s vals n x, d_seq_loop p es s0 s vals n = Some x -> d_seq_loop q es s0 s vals n = Some x.
  Proof.
    intros Hpq. induction es as [|e es IH]; intros s0 s vals n x H; cbn [d_seq_loop] in *; [exact H|].
    destruct (p e s) as [[[[v| |m] s'] n']|] eqn:E; [| | |discriminate]; rewrite (Hpq _ _ _ E); try exact H. apply IH, H.
  Qed.
  Lemma d_choice_mono p q es : le_d p q -> forall s n x, d_choice_loop p es s n = Some x -> d_choice_loop q es s n = Some x.
  Proof.
    intros Hpq. induction es as [|e es IH]; intros s n x H; cbn [d_choice_loop] in *; [exact H|].
    destruct (p e (d_set_env s [])) as [[[[v| |m] s'] n']|] eqn:E; [| | |discriminate]; rewrite (Hpq _ _ _ E); try exact H. apply IH, H.
  Qed.
  Lemma d_star_mono (p q : dstate R -> @dout R) need k : (forall s x, p s = Some x -> q s = Some x) ->
    forall k' s vals n x, (k <= k')%nat -> d_star_loop k p need s vals n = Some x -> d_star_loop k' q need s vals n = Some x.
  Proof.
    intros Hpq. induction k as [|k IH]; intros k' s vals n x Hk H; [discriminate|].
    destruct k' as [|k']; [lia|]. cbn [d_star_loop] in *.
    destruct (p (d_set_env s [])) as [[[[v| |m] s'] n']|] eqn:E; [| | |discriminate]; rewrite (Hpq _ _ E); try exact H. apply IH; [lia|exact H].
  Qed.
  Variable rules : R -> expr R.
  Lemma dexpr_mono f : forall f' e s x, (f <= f')%nat -> dexpr rules f e s = Some x -> dexpr rules f' e s = Some x.
  Proof.
    induction f as [|f IH]; intros f' e s x Hf H; [discriminate|]. destruct f' as [|f']; [lia|].
    assert (le_d (dexpr rules f) (dexpr rules f')) as Hle by (intros e1 s1 x1; apply IH; lia).
    destruct e as [act e|l e|alts|es|lt ic|c| |r|e|e|e|e|g]; cbn [dexpr] in *; try exact H.
    - destruct (dexpr rules f e s) as [[[res s'] n]|] eqn:E; [|discriminate]. rewrite (Hle _ _ _ E). exact H.
    - destruct (dexpr rules f e (d_set_env s [])) as [[[res s'] n]|] eqn:E; [|discriminate]. rewrite (Hle _ _ _ E). exact H.
    - apply (d_choice_mono _ _ _ Hle), H.
    - apply (d_seq_mono _ _ _ Hle), H.
    - destruct (dexpr rules f (rules r) _) as [[[res s'] n]|] eqn:E; [|discriminate]. rewrite (Hle _ _ _ E). exact H.
    - eapply d_star_mono; [|  |exact H]; [intros; apply Hle; assumption|lia].
    - eapply d_star_mono; [|  |exact H]; [intros; apply Hle; assumption|lia].
    - destruct (dexpr rules f e (d_set_env s [])) as [[[res s'] n]|] eqn:E; [|discriminate]. rewrite (Hle _ _ _ E). exact H.
    - destruct (dexpr rules f e _) as [[[res s'] n]|] eqn:E; [|discriminate]. rewrite (Hle _ _ _ E). exact H.
  Qed.
End Mono.

(** ** Reading ahead *)
Definition class_at (c : charclass) (t : text) : bool := match t with ch :: _ => class_match c (gc_rune ch) | [] => false end.
Definition hits (x : bool * want) (t : text) : Prop :=
  match x with
  | (false, WLit l ic) => starts l ic t = true
  | (false, WClass c) => class_at c t = true
  | (true, WAny) => t = []
  | _ => False
  end.
Lemma starts_firstn l ic : forall n t, (length l <= n)%nat -> starts l ic (firstn n t) = starts l ic t.
Proof. induction l as [|w l IH]; intros n t H; [reflexivity|]. cbn in H. destruct n as [|n]; [lia|]. destruct t as [|c t]; [reflexivity|]. cbn [firstn starts]. rewrite IH by lia. reflexivity. Qed.
Lemma class_firstn c n t : (1 <= n)%nat -> class_at c (firstn n t) = class_at c t.
Proof. intros H. destruct n as [|n]; [lia|]. destruct t; reflexivity. Qed.
Lemma share_skip (a b : text) k i : firstn k a = firstn k b -> (i <= k)%nat -> firstn (k - i) (skipn i a) = firstn (k - i) (skipn i b).
Proof. intros H Hi. rewrite !firstn_skipn_comm. replace (i + (k - i))%nat with k by lia. rewrite H. reflexivity. Qed.
Lemma slice_at (a : text) i i' : (i <= i' <= length a)%nat -> slice_from (skipn i a) (skipn i' a) = firstn (i' - i) (skipn i a).
Proof. intros H. unfold slice_from. rewrite !skipn_length. f_equal. lia. Qed.
Lemma share_less (a b : text) k i : firstn k a = firstn k b -> (i <= k)%nat -> firstn i a = firstn i b.
Proof. intros H Hi. replace i with (Nat.min i k) by lia. rewrite <- !firstn_firstn, H. reflexivity. Qed.

Section Two.
  Variables a1 a2 : text.
  Hypothesis V1 : valid a1.
  Hypothesis V2 : valid a2.
  Hypothesis R1 : Forall (fun c => gc_raw c <> EmptyString) a1.
  Hypothesis R2 : Forall (fun c => gc_raw c <> EmptyString) a2.
  Variable k : nat.
  Variable strict : bool.
  Hypothesis K1 : (k <= length a1)%nat.
  Hypothesis K2 : (k <= length a2)%nat.
  Hypothesis Hshare : firstn k a1 = firstn k a2.
  (** a limit to what is expected at character [k] *)
  Variable lim : list (bool * want) -> Prop.
  Hypothesis lim_sub : forall l l', incl l l' -> lim l' -> lim l.
  (** what is found ahead in the second text and noted as expected is found in the first *)
  Hypothesis Hstrict : strict = true -> forall x i, known x -> (i <= k)%nat -> hits x (skipn i a2) -> (i = k -> exists l, lim l /\ In x l) -> hits x (skipn i a1).

  Definition core2 (d : dstate rule) := (d_st d, map (fun e => (e_rule e, e_text e)) (d_errs d), d_env d, d_rstack d, d_expected d).
  Definition linked (i j : nat) (d1 d2 : dstate rule) : Prop :=
    at_ a1 i j d1 /\ at_ a2 i j d2 /\ core2 d1 = core2 d2 /\ (j = k -> forall x, In x (d_expected d2) -> ~ hits x (skipn k a2)).
  Definition near (d : dstate rule) : Prop := p_offset (d_pt d) <= off a1 k /\ p_offset (d_fail d) <= off a1 k /\ (p_offset (d_fail d) = off a1 k -> lim (d_expected d)).
  Definition ok3 (i j : nat) (d : dstate rule) : Prop := (i <= k)%nat /\ (j <= k)%nat /\ (j = k -> lim (d_expected d)).
  Lemma off_same : off a1 k = off a2 k.
  Proof. unfold off. rewrite Hshare. reflexivity. Qed.
  Lemma off_eq (a : text) (R : Forall (fun c => gc_raw c <> EmptyString) a) x y : (x <= length a)%nat -> (y <= length a)%nat -> off a x = off a y -> x = y.
  Proof. intros Hx Hy E. pose proof (off_le a R x y Hx Hy). pose proof (off_le a R y x Hy Hx). lia. Qed.
  Lemma near1 i j d : at_ a1 i j d -> near d <-> ok3 i j d.
  Proof.
    intros A. unfold near, ok3. rewrite (at_pt _ _ _ _ A), (at_fail _ _ _ _ A), spot_off, fspot_off. rewrite (off_le a1 R1 _ _ (at_i _ _ _ _ A) K1), (off_le a1 R1 _ _ (at_j _ _ _ _ A) K1).
    split; intros (H1 & H2 & H3); (split; [exact H1|split; [exact H2|]]); [intros ->; apply H3; reflexivity|intros E; apply H3; exact (off_eq a1 R1 _ _ (at_j _ _ _ _ A) K1 E)].
  Qed.
  Lemma near2 i j d : at_ a2 i j d -> near d <-> ok3 i j d.
  Proof.
    intros A. unfold near, ok3. rewrite (at_pt _ _ _ _ A), (at_fail _ _ _ _ A), spot_off, fspot_off, off_same. rewrite (off_le a2 R2 _ _ (at_i _ _ _ _ A) K2), (off_le a2 R2 _ _ (at_j _ _ _ _ A) K2).
    split; intros (H1 & H2 & H3); (split; [exact H1|split; [exact H2|]]); [intros ->; apply H3; reflexivity|intros E; apply H3; exact (off_eq a2 R2 _ _ (at_j _ _ _ _ A) K2 E)].
  Qed.
  Lemma ok3_back (a : text) i j d i' j' d' : at_ a i j d -> at_ a i' j' d' -> farther d d' -> (i <= i' \/ i <= j')%nat -> (j <= j')%nat -> ok3 i' j' d' -> ok3 i j d.
  Proof.
    intros A A' (_ & G) Hi Hj (O1 & O2 & O3). split; [lia|]. split; [lia|]. intros ->. assert (j' = k) as -> by lia. eapply lim_sub; [apply G|apply O3; reflexivity].
    rewrite (at_fail _ _ _ _ A), (at_fail _ _ _ _ A'). reflexivity.
  Qed.

  Lemma ex_note_in (j : nat) x ex : (j <= k)%nat -> In x (ex_note k j x ex).
  Proof. intros H. unfold ex_note. destruct (Nat.ltb_spec k j); [lia|]. destruct (j <? k)%nat; [left; reflexivity|apply in_or_app; right; left; reflexivity]. Qed.
  Ltac ok3t W := let H1 := fresh in let H2 := fresh in let H3 := fresh in destruct W as (H1 & H2 & H3); split; [lia|split; [lia|exact H3]].

  Definition within (o : @dout rule) : Prop := match o with Some (PPanic _, _, _) | None => False | Some (_, d, _) => near d end.
  Definition past (o : @dout rule) : Prop := strict = false /\ match o with Some (PPanic _, _, _) | None => True | Some (_, d, _) => ~ near d end.
  Definition same (o1 o2 : @dout rule) : Prop :=
    match o1, o2 with Some (r1, d1, _), Some (r2, d2, _) => r1 = r2 /\ exists i j, linked i j d1 d2 | _, _ => False end.
  Definition rel2 (o1 o2 : @dout rule) : Prop := within o1 -> o2 = None \/ same o1 o2 \/ past o2.

  Lemma within_start i0 i j d o : at_ a1 i j d -> run_ok a1 i0 i j d o -> fart d o -> within o -> ok3 i j d.
  Proof.
    destruct o as [[[[v| |m] d'] n]|]; cbn [run_ok within fart]; intros A0 H G N; [| |destruct N|destruct N].
    - destruct H as (i' & j' & A & H1 & H2 & _). apply (near1 _ _ _ A) in N. eapply (ok3_back a1); try eassumption. left. exact H1.
    - destruct H as (j' & A & H1 & H2 & _). apply (near1 _ _ _ A) in N. eapply (ok3_back a1); try eassumption. right. exact H1.
  Qed.
  Lemma past_on i0 i j d o : strict = false -> at_ a2 i j d -> ~ near d -> run_ok a2 i0 i j d o -> fart d o -> past o.
  Proof.
    intros Hs A N H G. split; [exact Hs|]. destruct o as [[[[v| |m] d'] n]|]; cbn [run_ok fart] in *; [| |exact I|exact I].
    - destruct H as (i' & j' & A' & H1 & H2 & _). intros X. apply N, (near2 _ _ _ A). apply (near2 _ _ _ A') in X. eapply (ok3_back a2); try eassumption. left. exact H1.
    - destruct H as (j' & A' & H1 & H2 & _). intros X. apply N, (near2 _ _ _ A). apply (near2 _ _ _ A') in X. eapply (ok3_back a2); try eassumption. right. exact H1.
  Qed.
  Lemma linked_env i j d1 d2 e : linked i j d1 d2 -> linked i j (d_set_env d1 e) (d_set_env d2 e).
  Proof.
    intros (A & B & C & Q). split; [apply -> at_set_env; exact A|]. split; [apply -> at_set_env; exact B|]. split; [|exact Q].
    unfold core2 in *. cbn. congruence.
  Qed.
  Lemma linked_st i j d1 d2 g : linked i j d1 d2 -> linked i j (d_set_st d1 g) (d_set_st d2 g).
  Proof.
    intros (A & B & C & Q). split; [apply -> at_set_st; exact A|]. split; [apply -> at_set_st; exact B|]. split; [|exact Q].
    unfold core2 in *. cbn. congruence.
  Qed.
  Lemma linked_rstack i j d1 d2 l : linked i j d1 d2 -> linked i j (d_set_rstack d1 l) (d_set_rstack d2 l).
  Proof.
    intros (A & B & C & Q). split; [apply -> at_set_rstack; exact A|]. split; [apply -> at_set_rstack; exact B|]. split; [|exact Q].
    unfold core2 in *. cbn. congruence.
  Qed.
  Lemma linked_err i j d1 d2 m p p' : linked i j d1 d2 -> linked i j (d_err_at d1 m p) (d_err_at d2 m p').
  Proof.
    intros (A & B & C & Q). split; [apply -> at_err; exact A|]. split; [apply -> at_err; exact B|]. split; [|exact Q].
    unfold core2 in *. cbn. rewrite !map_app. cbn. congruence.
  Qed.
  Lemma linked_point i j i' d1 d2 : linked i j d1 d2 -> (i' <= length a1)%nat -> (i' <= length a2)%nat ->
    linked i' j (d_set_point d1 (spot a1 i') (skipn i' a1)) (d_set_point d2 (spot a2 i') (skipn i' a2)).
  Proof.
    intros (A & B & C & Q) H1 H2. split; [eapply at_set_point; eassumption|]. split; [eapply at_set_point; eassumption|]. split; [|exact Q].
    unfold core2 in *. cbn. congruence.
  Qed.
  Lemma core2_parts d1 d2 : core2 d1 = core2 d2 -> d_st d1 = d_st d2 /\ d_env d1 = d_env d2 /\ d_rstack d1 = d_rstack d2 /\ d_expected d1 = d_expected d2 /\ map (fun e => (e_rule e, e_text e)) (d_errs d1) = map (fun e => (e_rule e, e_text e)) (d_errs d2).
  Proof. unfold core2. intros H. injection H as E1 E2 E3 E4 E5. auto. Qed.

  Definition good2 (p : expr rule -> dstate rule -> @dout rule) : Prop := forall e i j d1 d2, plain_e false e -> linked i j d1 d2 -> rel2 (p e d1) (p e d2).
  Lemma good_any b e : plain_e false e -> plain_e b e.
  Proof.
    destruct b; [|auto]. revert e. fix IH 1. intros e. destruct e as [act e|l e|alts|es|lt ic|c| |r|e|e|e|e|g]; cbn [plain_e]; intros H; try (apply IH, H); try exact H.
    - split; [apply H|]. destruct H as (_ & H). revert alts H. fix go 1. intros [|e alts] H; [exact I|]. split; [apply IH, H|apply go, H].
    - revert es H. fix go 1. intros [|e es] H; [exact I|]. split; [apply IH, H|apply go, H].
    - reflexivity.
    - destruct H as (H & _). discriminate.
  Qed.

  Lemma seq2 p : (forall e d, fart d (p e d)) -> good a1 false p -> good a2 false p -> good2 p -> forall es i0 j0 d01 d02 i j d1 d2 vals n1 n2, Forall (plain_e false) es -> linked i0 j0 d01 d02 -> linked i j d1 d2 -> (i0 <= i)%nat ->
    rel2 (d_seq_loop p es d01 d1 vals n1) (d_seq_loop p es d02 d2 vals n2).
  Proof.
    intros Fp G1 G2 Hp es. induction es as [|e es IH]; intros i0 j0 d01 d02 i j d1 d2 vals n1 n2 Hes L0 L Hi W.
    - right. left. split; [reflexivity|]. exists i, j. exact L.
    - inversion Hes as [|? ? He Hes']; subst. pose proof L as (A & B & C & _). pose proof L0 as (A0 & B0 & C0 & _).
      pose proof (Hp e i j d1 d2 He L) as Hr. pose proof (G1 e i j d1 He A) as O1. pose proof (G2 e i j d2 He B) as O2.
      cbn [d_seq_loop] in *. destruct (p e d1) as [[[[v| |m] d1'] n1']|]; [| |destruct W|destruct W].
      + cbn [run_ok] in O1. destruct O1 as (i' & j' & A' & I1 & J1 & _).
        pose proof (seq_good a1 false p G1 es i0 d01 i' j' d1' (vals ++ [v]) (n1 + n1')%N Hes' (or_intror (ex_intro _ j0 A0)) A' ltac:(lia)) as O1'.
        pose proof (within_start _ _ _ _ _ A' O1' (seq_fart p Fp _ _ _ _ _) W) as N. specialize (Hr (proj2 (near1 _ _ _ A') N)). destruct Hr as [Hr|[Hr|Hr]].
        * rewrite Hr. left. reflexivity.
        * destruct (p e d2) as [[[r2 d2'] n2']|]; [|destruct Hr]. destruct Hr as (<- & i2 & j2 & L'). pose proof L' as (A2 & B2 & _).
          eapply IH; [exact Hes'|exact L0|exact L'| |exact W].
          assert (i' <= i2)%nat as X; [|lia]. pose proof (at_rest _ _ _ _ A') as X1. rewrite (at_rest _ _ _ _ A2) in X1. apply (f_equal (@length _)) in X1. rewrite !skipn_length in X1. pose proof (at_i _ _ _ _ A'). pose proof (at_i _ _ _ _ A2). lia.
        * destruct (p e d2) as [[[[v2| |m2] d2'] n2']|]; [| |right; right; exact Hr|left; reflexivity]; destruct Hr as (Hs & Hr); right; right.
          -- cbn [run_ok] in O2. destruct O2 as (i2 & j2 & B2 & I2 & J2 & _). eapply past_on; [exact Hs|exact B2|exact Hr| |apply (seq_fart p Fp)].
             eapply (seq_good a2 false p G2 es i0); [exact Hes'|right; exists j0; exact B0|exact B2|lia].
          -- cbn [run_ok] in O2. destruct O2 as (j2 & B2 & I2 & J2 & _). split; [exact Hs|]. cbn [dret]. intros X. apply Hr. apply (near2 _ _ _ B2).
             rewrite (at_pt _ _ _ _ B0), (at_rest _ _ _ _ B0) in X. apply (near2 i0 j2) in X; [ok3t X|]. eapply at_set_point; [apply -> at_set_st; exact B2|apply B0].
      + cbn [run_ok] in O1. destruct O1 as (j' & A' & I1 & J1 & _). cbn [dret within] in W. rewrite (at_pt _ _ _ _ A0), (at_rest _ _ _ _ A0) in W.
        assert (at_ a1 i0 j' (d_set_point (d_set_st d1' (d_st d01)) (spot a1 i0) (skipn i0 a1))) as A'' by (eapply at_set_point; [apply -> at_set_st; exact A'|apply A0]).
        apply (near1 _ _ _ A'') in W. assert (near d1') as N by (apply (near1 _ _ _ A'); ok3t W). specialize (Hr N). destruct Hr as [Hr|[Hr|Hr]].
        * rewrite Hr. left. reflexivity.
        * destruct (p e d2) as [[[r2 d2'] n2']|]; [|destruct Hr]. destruct Hr as (<- & i2 & j2 & L'). right. left. split; [reflexivity|]. exists i0, j2.
          rewrite (at_pt _ _ _ _ A0), (at_rest _ _ _ _ A0), (at_pt _ _ _ _ B0), (at_rest _ _ _ _ B0). destruct (core2_parts _ _ C0) as (-> & _). eapply linked_point; [apply linked_st; exact L'|apply A0|apply B0].
        * destruct (p e d2) as [[[[v2| |m2] d2'] n2']|]; [| |right; right; exact Hr|left; reflexivity]; destruct Hr as (Hs & Hr); right; right.
          -- cbn [run_ok] in O2. destruct O2 as (i2 & j2 & B2 & I2 & J2 & _). eapply past_on; [exact Hs|exact B2|exact Hr| |apply (seq_fart p Fp)].
             eapply (seq_good a2 false p G2 es i0); [exact Hes'|right; exists j0; exact B0|exact B2|lia].
          -- cbn [run_ok] in O2. destruct O2 as (j2 & B2 & I2 & J2 & _). split; [exact Hs|]. cbn [dret]. intros X. apply Hr. apply (near2 _ _ _ B2).
             rewrite (at_pt _ _ _ _ B0), (at_rest _ _ _ _ B0) in X. apply (near2 i0 j2) in X; [ok3t X|]. eapply at_set_point; [apply -> at_set_st; exact B2|apply B0].
  Qed.
  Lemma choice2 p : (forall e d, fart d (p e d)) -> good a1 false p -> good a2 false p -> good2 p -> forall es i j d1 d2 n1 n2, Forall (plain_e false) es -> linked i j d1 d2 -> (es <> [] \/ (i <= j)%nat /\ d_expected d1 <> []) ->
    rel2 (d_choice_loop p es d1 n1) (d_choice_loop p es d2 n2).
  Proof.
    intros Fp G1 G2 Hp es. induction es as [|e es IH]; intros i j d1 d2 n1 n2 Hes L Hne W.
    - right. left. split; [reflexivity|]. exists i, j. exact L.
    - inversion Hes as [|? ? He Hes']; subst. pose proof (linked_env _ _ _ _ [] L) as L1. pose proof L1 as (A & B & C & _). destruct (core2_parts _ _ (proj1 (proj2 (proj2 L)))) as (Cst & Cenv & _ & Cex & _).
      pose proof (Hp e i j _ _ He L1) as Hr. pose proof (G1 e i j _ He A) as O1. pose proof (G2 e i j _ He B) as O2. cbn [d_choice_loop] in *. rewrite <- Cst, <- Cenv.
      assert (past (p e (d_set_env d2 [])) -> match p e (d_set_env d2 []) with
        | None => None | Some (PMatch v, d', n) => dret (PMatch v) (d_set_env d' (d_env d1)) (n2 + n)
        | Some (PFail, d', n) => d_choice_loop p es (d_set_env (d_set_st d' (d_st d1)) (d_env d1)) (n2 + n)
        | Some (PPanic m, d', n) => dret (PPanic m) d' (n2 + n) end = None \/ past match p e (d_set_env d2 []) with
        | None => None | Some (PMatch v, d', n) => dret (PMatch v) (d_set_env d' (d_env d1)) (n2 + n)
        | Some (PFail, d', n) => d_choice_loop p es (d_set_env (d_set_st d' (d_st d1)) (d_env d1)) (n2 + n)
        | Some (PPanic m, d', n) => dret (PPanic m) d' (n2 + n) end) as Hpast.
      { intros (Hs & Hr'). destruct (p e (d_set_env d2 [])) as [[[[v2| |m2] d2'] n2']|]; [right; split; [exact Hs|exact Hr']| |right; split; [exact Hs|exact I]|left; reflexivity].
        right. cbn [run_ok] in O2. destruct O2 as (j2 & B2 & I2 & J2 & _ & X2). assert (at_ a2 i j2 (d_set_env (d_set_st d2' (d_st d1)) (d_env d1))) as B3 by (apply -> at_set_env; apply -> at_set_st; exact B2).
        eapply past_on; [exact Hs|exact B3|exact Hr'| |apply (choice_fart p Fp)]. apply (choice_good a2 false p G2); [exact Hes'|exact B3|right; split; [exact I2|exact X2]]. }
      destruct (p e (d_set_env d1 [])) as [[[[v| |m] d1'] n1']|]; [| |destruct W|destruct W].
      + specialize (Hr W). destruct Hr as [Hr|[Hr|Hr]]; [rewrite Hr; left; reflexivity| |destruct (Hpast Hr); auto].
        destruct (p e (d_set_env d2 [])) as [[[r2 d2'] n2']|]; [|destruct Hr]. destruct Hr as (<- & i2 & j2 & L'). right. left. split; [reflexivity|]. exists i2, j2. apply linked_env. exact L'.
      + cbn [run_ok] in O1. destruct O1 as (j' & A' & I1 & J1 & _ & X1). assert (at_ a1 i j' (d_set_env (d_set_st d1' (d_st d1)) (d_env d1))) as A3 by (apply -> at_set_env; apply -> at_set_st; exact A').
        pose proof (choice_good a1 false p G1 es i j' _ (n1 + n1')%N Hes' A3 (or_intror (conj I1 X1))) as O1'. pose proof (within_start _ _ _ _ _ A3 O1' (choice_fart p Fp _ _ _) W) as N.
        specialize (Hr (proj2 (near1 _ _ _ A') N)). destruct Hr as [Hr|[Hr|Hr]]; [rewrite Hr; left; reflexivity| |destruct (Hpast Hr); auto].
        destruct (p e (d_set_env d2 [])) as [[[r2 d2'] n2']|]; [|destruct Hr]. destruct Hr as (<- & i2 & j2 & L').
        assert (i2 = i) as ->. { destruct L' as (A2 & _). pose proof (at_rest _ _ _ _ A') as Y. rewrite (at_rest _ _ _ _ A2) in Y. apply (f_equal (@length _)) in Y. rewrite !skipn_length in Y. pose proof (at_i _ _ _ _ A'). pose proof (at_i _ _ _ _ A2). lia. }
        assert (j2 = j') as ->. { destruct L' as (A2 & _). pose proof (at_fail _ _ _ _ A') as Y. rewrite (at_fail _ _ _ _ A2) in Y. apply (f_equal p_offset) in Y. rewrite !fspot_off in Y. pose proof (off_le a1 R1 j2 j' (at_j _ _ _ _ A2) (at_j _ _ _ _ A')). pose proof (off_le a1 R1 j' j2 (at_j _ _ _ _ A') (at_j _ _ _ _ A2)). lia. }
        apply (IH i j'); [exact Hes'|apply linked_env, linked_st; exact L'|right; split; [exact I1|exact X1]|exact W].
  Qed.
  Lemma star2 p need : (forall d, fart d (p d)) -> (forall i j d, at_ a1 i j d -> run_ok a1 i i j d (p d)) -> (forall i j d, at_ a2 i j d -> run_ok a2 i i j d (p d)) ->
    (forall i j d1 d2, linked i j d1 d2 -> rel2 (p d1) (p d2)) ->
    forall f i0 i j d1 d2 vals n1 n2, linked i j d1 d2 -> (vals = [] -> i = i0) -> rel2 (d_star_loop f p need d1 vals n1) (d_star_loop f p need d2 vals n2).
  Proof.
    intros Fp G1 G2 Hp f. induction f as [|f IH]; intros i0 i j d1 d2 vals n1 n2 L Hv W; [destruct W|].
    pose proof (linked_env _ _ _ _ [] L) as L1. pose proof L1 as (A & B & C & _). destruct (core2_parts _ _ (proj1 (proj2 (proj2 L)))) as (Cst & Cenv & _ & Cex & _).
    pose proof (Hp i j _ _ L1) as Hr. pose proof (G1 i j _ A) as O1. pose proof (G2 i j _ B) as O2. cbn [d_star_loop] in *. rewrite <- Cenv.
    assert (forall v d' n, p (d_set_env d2 []) = Some (PMatch v, d', n) -> strict = false -> ~ near d' -> past (d_star_loop f p need (d_set_env d' (d_env d1)) (vals ++ [v]) (n2 + n))) as Hpast.
    { intros v d' n E Hs N. rewrite E in O2. cbn [run_ok] in O2. destruct O2 as (i2 & j2 & B2 & I2 & J2 & _). assert (at_ a2 i2 j2 (d_set_env d' (d_env d1))) as B3 by (apply -> at_set_env; exact B2).
      eapply past_on; [exact Hs|exact B3|exact N| |apply (star_fart p need Fp)]. apply (star_good a2 false p (Peg.EState st_reset) G2 I need f i2 i2 j2); [exact B3|reflexivity]. }
    assert (forall d' n, p (d_set_env d2 []) = Some (PFail, d', n) -> strict = false -> ~ near d' -> past match vals with
        | [] => if need then dret PFail (d_set_env d' (d_env d1)) (n2 + n) else dret (PMatch (VSlice [])) (d_set_env d' (d_env d1)) (n2 + n)
        | _ => dret (PMatch (VSlice vals)) (d_set_env d' (d_env d1)) (n2 + n) end) as Hfail.
    { intros d' n _ Hs N. split; [exact Hs|]. destruct vals; [destruct need|]; exact N. }
    destruct (p (d_set_env d1 [])) as [[[[v| |m] d1'] n1']|]; [| |destruct W|destruct W].
    - cbn [run_ok] in O1. destruct O1 as (i' & j' & A' & I1 & J1 & _). assert (at_ a1 i' j' (d_set_env d1' (d_env d1))) as A3 by (apply -> at_set_env; exact A').
      assert (vals ++ [v] = [] -> i' = i0) as Hv' by (intros E; apply app_eq_nil in E as (_ & E); discriminate).
      pose proof (star_good a1 false p (Peg.EState st_reset) G1 I need f i0 i' j' _ (vals ++ [v]) (n1 + n1')%N A3 Hv') as O1'.
      pose proof (within_start _ _ _ _ _ A3 O1' (star_fart p need Fp _ _ _ _) W) as N. specialize (Hr (proj2 (near1 _ _ _ A') N)). destruct Hr as [Hr|[Hr|Hr]]; [rewrite Hr; left; reflexivity| |].
      + destruct (p (d_set_env d2 [])) as [[[r2 d2'] n2']|]; [|destruct Hr]. destruct Hr as (<- & i2 & j2 & L'). eapply (IH i0 i2 j2); [apply linked_env; exact L'| |exact W]. intros E; apply app_eq_nil in E as (_ & E); discriminate.
      + destruct (p (d_set_env d2 [])) as [[[[v2| |m2] d2'] n2']|]; [| |right; right; split; [apply Hr|exact I]|left; reflexivity]; destruct Hr as (Hs & Hr); right; right; [eapply Hpast; [reflexivity|exact Hs|exact Hr]|eapply Hfail; [reflexivity|exact Hs|exact Hr]].
    - assert (near d1') as N by (destruct vals; [destruct need|]; exact W). specialize (Hr N). destruct Hr as [Hr|[Hr|Hr]]; [rewrite Hr; left; reflexivity| |].
      + destruct (p (d_set_env d2 [])) as [[[r2 d2'] n2']|]; [|destruct Hr]. destruct Hr as (<- & i2 & j2 & L'). right. left. pose proof (linked_env _ _ _ _ (d_env d1) L') as L2. cbv zeta.
        destruct vals; [destruct need|]; (split; [reflexivity|]); exists i2, j2; exact L2.
      + destruct (p (d_set_env d2 [])) as [[[[v2| |m2] d2'] n2']|]; [| |right; right; split; [apply Hr|exact I]|left; reflexivity]; destruct Hr as (Hs & Hr); right; right; [eapply Hpast; [reflexivity|exact Hs|exact Hr]|eapply Hfail; [reflexivity|exact Hs|exact Hr]].
  Qed.

  (** terminals *)
  Lemma note2 i j d1 d2 d1' d2' i1 i2 w : linked i j d1 d2 -> at_ a1 i1 j d1' -> at_ a2 i2 j d2' -> core d1' = core d1 -> core d2' = core d2 -> d_expected d1' = d_expected d1 -> d_expected d2' = d_expected d2 ->
    known (false, w) -> (i = k -> ~ hits (false, w) (skipn k a2)) ->
    linked i (Nat.max i j) (d_set_point (fail_at d1' false (spot a1 i) w) (spot a1 i) (skipn i a1)) (d_set_point (fail_at d2' false (spot a2 i) w) (spot a2 i) (skipn i a2)).
  Proof.
    intros L A B HA HB XA XB Hk Hh. pose proof L as (A0 & B0 & C & Q). destruct (at_note a1 R1 i1 i j d1' w A (at_i _ _ _ _ A0) Hk) as (A2 & C2 & X2 & _). destruct (at_note a2 R2 i2 i j d2' w B (at_i _ _ _ _ B0) Hk) as (B2 & D2 & Y2 & _).
    destruct (core2_parts _ _ C) as (Cst & Cenv & Crs & Cex & Cer). rewrite HA in C2. rewrite HB in D2. unfold core in C2, D2. injection C2 as E1 E2 E3 E4. injection D2 as F1 F2 F3 F4.
    split; [eapply at_set_point; [exact A2|apply A0]|]. split; [eapply at_set_point; [exact B2|apply B0]|]. split.
    - unfold core2. cbn. rewrite E1, E2, E3, E4, F1, F2, F3, F4, X2, Y2, XA, XB, Cst, Cenv, Crs, Cex, Cer. reflexivity.
    - cbn. rewrite Y2, XB. unfold ex_note. intros Hm x Hx. destruct (Nat.ltb_spec i j); [apply Q; [lia|exact Hx]|]. destruct (Nat.ltb_spec j i).
      + destruct Hx as [<-|[]]. apply Hh. lia.
      + apply in_app_or in Hx as [Hx|[<-|[]]]; [apply Q; [lia|exact Hx]|apply Hh; lia].
  Qed.
  Lemma self_point a i j d : at_ a i j d -> d_set_point d (spot a i) (skipn i a) = d.
  Proof. intros A. rewrite <- (at_pt _ _ _ _ A), <- (at_rest _ _ _ _ A). destruct d; reflexivity. Qed.
  Lemma keep2 i j d1 d2 d1' d2' i' : linked i j d1 d2 -> at_ a1 i' j d1' -> at_ a2 i' j d2' -> core d1' = core d1 -> core d2' = core d2 -> d_expected d1' = d_expected d1 -> d_expected d2' = d_expected d2 -> linked i' j d1' d2'.
  Proof.
    intros (_ & _ & C & Q) A B HA HB XA XB. split; [exact A|]. split; [exact B|]. split; [|rewrite XB; exact Q].
    destruct (core2_parts _ _ C) as (Cst & Cenv & Crs & Cex & Cer). unfold core in HA, HB. injection HA as E1 E2 E3 E4. injection HB as F1 F2 F3 F4. unfold core2. rewrite E1, E2, E3, E4, F1, F2, F3, F4, XA, XB, Cst, Cenv, Crs, Cex, Cer. reflexivity.
  Qed.
  (** within the common part, or with enough look-ahead *)
  Lemma ahead_near i n : (i + n <= k)%nat -> firstn n (skipn i a1) = firstn n (skipn i a2).
  Proof. intros H. rewrite !firstn_skipn_comm, (share_less _ _ _ _ Hshare H). reflexivity. Qed.
  Lemma starts_near l ic i : (i + length l <= k)%nat -> starts l ic (skipn i a1) = starts l ic (skipn i a2).
  Proof. intros H. rewrite <- (starts_firstn l ic (length l) (skipn i a1)), <- (starts_firstn l ic (length l) (skipn i a2)), (ahead_near i _ H) by lia. reflexivity. Qed.
  Lemma class_near c i : (i + 1 <= k)%nat -> class_at c (skipn i a1) = class_at c (skipn i a2).
  Proof. intros H. rewrite <- (class_firstn c 1 (skipn i a1)), <- (class_firstn c 1 (skipn i a2)), (ahead_near i _ H) by lia. reflexivity. Qed.
  Lemma slice2 i i' : (i <= i' <= k)%nat -> slice_from (skipn i a1) (skipn i' a1) = slice_from (skipn i a2) (skipn i' a2).
  Proof. intros H. rewrite !slice_at by lia. apply ahead_near. lia. Qed.

  (** the character class as a literal of one character *)
  Lemma class_run f c d : dexpr rules (S f) (EClass c) d =
    if class_at c (d_rest d) then dret (PMatch (VBytes (match d_rest d with ch :: _ => gc_raw ch | [] => EmptyString end))) (fail_at (d_read d) true (d_pt d) (WClass c)) 1
    else dret PFail (fail_at d false (d_pt d) (WClass c)) 1.
  Proof. cbn [dexpr]. unfold class_at. destruct (d_rest d) as [|ch l]; [reflexivity|]. destruct (class_match c (gc_rune ch)); reflexivity. Qed.

  Lemma dexpr2 f : good2 (dexpr rules f).
  Proof.
    induction f as [|f IH]; intros e i j d1 d2 He L; [intros W; destruct W|].
    pose proof (dexpr_good a1 V1 R1 false f) as G1. pose proof (dexpr_good a2 V2 R2 false f) as G2. pose proof L as (A & B & C & Q). destruct (core2_parts _ _ C) as (Cst & Cenv & Crs & Cex & Cer).
    pose proof (dexpr_good a1 V1 R1 false (S f) e i j d1 He A) as OK1. 
    destruct e as [act e|l e|alts|es|lt ic|c| |r|e|e|e|e|g]; cbn [dexpr] in *; cbn [plain_e] in He.
    - pose proof (IH e i j d1 d2 He L) as Hr. pose proof (G1 e i j d1 He A) as O1. pose proof (G2 e i j d2 He B) as O2. intros W.
      assert (within (dexpr rules f e d1)) as W1.
      { destruct (dexpr rules f e d1) as [[[[v| |m] d1'] n]|]; [|exact W|exact W|exact W]. destruct (act _ _ _); [exact W|exact W|destruct W]. }
      specialize (Hr W1). destruct Hr as [Hr|[Hr|Hr]]; [rewrite Hr; left; reflexivity| |].
      + destruct (dexpr rules f e d1) as [[[r1 d1'] n1]|]; [|destruct Hr]. destruct (dexpr rules f e d2) as [[[r2 d2'] n2]|]; [|destruct Hr]. destruct Hr as (<- & i' & j' & L'). pose proof L' as (A' & B' & C' & Q').
        destruct r1 as [v| |m]; [|right; left; split; [reflexivity|exists i', j'; exact L']|destruct W].
        destruct (core2_parts _ _ C') as (Cst' & Cenv' & Crs' & _ & _). apply (near1 _ _ _ A') in W1. destruct W1 as (W1 & _). cbn [run_ok] in O1. destruct O1 as (i2 & j2 & A2 & I2 & _).
        assert (i2 = i') as ->. { pose proof (at_rest _ _ _ _ A2) as Y. rewrite (at_rest _ _ _ _ A') in Y. apply (f_equal (@length _)) in Y. rewrite !skipn_length in Y. pose proof (at_i _ _ _ _ A'). pose proof (at_i _ _ _ _ A2). lia. }
        rewrite (at_rest _ _ _ _ A), (at_rest _ _ _ _ B), (at_rest _ _ _ _ A'), (at_rest _ _ _ _ B'), <- Cenv', <- Cst', <- (slice2 i i' ltac:(lia)).
        destruct (act (d_env d1') (slice_from (skipn i a1) (skipn i' a1)) (d_st d1')).
        * right. left. split; [reflexivity|]. exists i', j'. exact L'.
        * right. left. split; [reflexivity|]. exists i', j'. apply linked_err. exact L'.
        * right. left. split; [reflexivity|]. exists i', j'. exact L'.
      + destruct Hr as (Hs & Hr). right. right. split; [exact Hs|]. destruct (dexpr rules f e d2) as [[[[v| |m] d2'] n]|]; [|exact Hr|exact I|exact I]. destruct (act _ _ _); [exact Hr|exact Hr|exact I].
    - pose proof (IH e i j _ _ He (linked_env _ _ _ _ [] L)) as Hr. rewrite <- Cenv. intros W.
      assert (within (dexpr rules f e (d_set_env d1 []))) as W1 by (destruct (dexpr rules f e (d_set_env d1 [])) as [[[[v| |m] d1'] n]|]; exact W).
      specialize (Hr W1). destruct Hr as [Hr|[Hr|Hr]]; [rewrite Hr; left; reflexivity| |].
      + destruct (dexpr rules f e (d_set_env d1 [])) as [[[r1 d1'] n1]|]; [|destruct Hr]. destruct (dexpr rules f e (d_set_env d2 [])) as [[[r2 d2'] n2]|]; [|destruct Hr]. destruct Hr as (<- & i' & j' & L').
        right. left. destruct r1; (split; [reflexivity|]); exists i', j'; apply linked_env; exact L'.
      + destruct Hr as (Hs & Hr). right. right. split; [exact Hs|]. destruct (dexpr rules f e (d_set_env d2 [])) as [[[[v| |m] d2'] n]|]; exact Hr.
    - destruct He as (Hne & He). apply (choice2 _ (dexpr_fart f) G1 G2 IH alts i j); [apply plain_all, He|exact L|left; exact Hne].
    - apply (seq2 _ (dexpr_fart f) G1 G2 IH es i j d1 d2 i j); [apply plain_all, He|exact L|exact L|lia].
    - destruct He as (Hk & Hlen). intros W. pose proof (within_start _ _ _ _ _ A OK1 (dexpr_fart (S f) (ELit lt ic) d1) W) as (Hi & Hj & _).
      destruct (lit_at a1 V1 lt ic i j d1 A) as (i1 & d1' & E1 & A' & C1 & X1 & Hl1). destruct (lit_at a2 V2 lt ic i j d2 B) as (i2 & d2' & E2 & B' & C2 & X2 & Hl2).
      rewrite E1 in W |- *. rewrite E2. rewrite (at_pt _ _ _ _ A), (at_rest _ _ _ _ A) in *. rewrite (at_pt _ _ _ _ B), (at_rest _ _ _ _ B).
      destruct (starts lt ic (skipn i a1)) eqn:S1.
      + rewrite (at_keep a1 i1 i j d1' _ A') in W |- *. pose proof (Hl1 eq_refl) as ->. cbn [dret within] in W. apply (near1 _ _ _ A') in W. destruct W as (W & _). rewrite (starts_near lt ic i ltac:(lia)) in S1. rewrite S1 in *. pose proof (Hl2 eq_refl) as ->. rewrite (at_keep a2 _ i j d2' _ B').
        right. left. split; [|exists (i + length lt)%nat, j; eapply keep2; eassumption]. rewrite (at_rest _ _ _ _ A'), (at_rest _ _ _ _ B'), (slice2 i (i + length lt) ltac:(lia)). reflexivity.
      + destruct (starts lt ic (skipn i a2)) eqn:S2.
        * assert (strict = false) as Hs. { apply Bool.not_true_is_false. intros Es.
            destruct (at_note a1 R1 i1 i j d1' (WLit lt ic) A' (at_i _ _ _ _ A) Hk) as (A2 & _ & X2' & _). cbn [dret within] in W.
            assert (at_ a1 i (Nat.max i j) (d_set_point (fail_at d1' false (spot a1 i) (WLit lt ic)) (spot a1 i) (skipn i a1))) as A3 by (eapply at_set_point; [exact A2|apply A]).
            apply (near1 _ _ _ A3) in W as (_ & _ & W). assert (hits (false, WLit lt ic) (skipn i a1)) as Hh; [|cbn [hits] in Hh; congruence].
            apply (Hstrict Es); [exact Hk|exact Hi|exact S2|]. intros ->. eexists. split; [apply W; lia|]. cbn [d_expected d_set_point]. rewrite X2'. apply ex_note_in. exact Hj. }
          right. right. split; [exact Hs|]. pose proof (Hl2 eq_refl) as ->. rewrite (at_keep a2 _ i j d2' _ B'). cbn [dret]. intros N. apply (near2 _ _ _ B') in N. destruct N as (N & _). rewrite (starts_near lt ic i ltac:(lia)) in S1. congruence.
        * right. left. split; [reflexivity|]. exists i, (Nat.max i j). eapply (note2 i j d1 d2); try eassumption. intros ->. cbn [hits]. congruence.
    - intros W. pose proof (within_start _ _ _ _ _ A OK1 (dexpr_fart (S f) (EClass c) d1) W) as (Hi & Hj & _). fold (dexpr rules (S f) (EClass c) d1) in *. fold (dexpr rules (S f) (EClass c) d2).
      change (within (dexpr rules (S f) (EClass c) d1)) in W. change (dexpr rules (S f) (EClass c) d2 = None \/ same (dexpr rules (S f) (EClass c) d1) (dexpr rules (S f) (EClass c) d2) \/ past (dexpr rules (S f) (EClass c) d2)).
      rewrite class_run in W. rewrite !class_run. rewrite (at_pt _ _ _ _ A), (at_rest _ _ _ _ A) in *. rewrite (at_pt _ _ _ _ B), (at_rest _ _ _ _ B).
      destruct (class_at c (skipn i a1)) eqn:S1.
      + destruct (skipn i a1) as [|ch l] eqn:E1; [discriminate S1|]. destruct (at_read a1 V1 _ _ _ _ _ A E1) as (A' & C1 & X1). rewrite (at_keep a1 _ _ _ _ _ A') in W |- *. cbn [dret within] in W. apply (near1 _ _ _ A') in W. destruct W as (W & _).
        rewrite <- E1, (class_near c i ltac:(lia)) in S1. rewrite S1. destruct (skipn i a2) as [|ch2 l2] eqn:E2; [discriminate S1|]. destruct (at_read a2 V2 _ _ _ _ _ B E2) as (B' & C2 & X2). rewrite (at_keep a2 _ _ _ _ _ B').
        right. left. split; [|exists (S i), j; eapply keep2; eassumption]. pose proof (ahead_near i 1 ltac:(lia)) as Y. rewrite E1, E2 in Y. injection Y as ->. reflexivity.
      + destruct (class_at c (skipn i a2)) eqn:S2.
        * assert (strict = false) as Hs. { apply Bool.not_true_is_false. intros Es.
            destruct (at_note a1 R1 i i j d1 (WClass c) A (at_i _ _ _ _ A) He) as (A2 & _ & X2' & _). cbn [dret within] in W.
            apply (near1 _ _ _ A2) in W as (_ & _ & W). assert (hits (false, WClass c) (skipn i a1)) as Hh; [|cbn [hits] in Hh; congruence].
            apply (Hstrict Es); [exact He|exact Hi|exact S2|]. intros ->. eexists. split; [apply W; lia|]. rewrite X2'. apply ex_note_in. exact Hj. }
          right. right. split; [exact Hs|]. destruct (skipn i a2) as [|ch2 l2] eqn:E2; [discriminate S2|]. destruct (at_read a2 V2 _ _ _ _ _ B E2) as (B' & C2 & X2). rewrite (at_keep a2 _ _ _ _ _ B'). cbn [dret]. intros N. apply (near2 _ _ _ B') in N. destruct N as (N & _).
          rewrite (class_near c i ltac:(lia)), E2 in S1. congruence.
        * right. left. split; [reflexivity|]. exists i, (Nat.max i j).
          rewrite <- (self_point a1 i (Nat.max i j) (fail_at d1 false (spot a1 i) (WClass c))) by (apply (at_note a1 R1); [exact A|apply A|exact He]).
          rewrite <- (self_point a2 i (Nat.max i j) (fail_at d2 false (spot a2 i) (WClass c))) by (apply (at_note a2 R2); [exact B|apply B|exact He]).
          eapply (note2 i j d1 d2); try eassumption; try reflexivity. intros ->. cbn [hits]. congruence.
    - destruct He.
    - pose proof (IH (rules r) i j _ _ (rules_plain false r He) (linked_rstack _ _ _ _ (r :: d_rstack d1) (linked_env _ _ _ _ [] L))) as Hr. rewrite <- Cenv, <- Crs. intros W.
      assert (within (dexpr rules f (rules r) (d_set_rstack (d_set_env d1 []) (r :: d_rstack d1)))) as W1 by (destruct (dexpr rules f (rules r) (d_set_rstack (d_set_env d1 []) (r :: d_rstack d1))) as [[[[v| |m] d1'] n]|]; exact W).
      specialize (Hr W1). destruct Hr as [Hr|[Hr|Hr]]; [rewrite Hr; left; reflexivity| |].
      + destruct (dexpr rules f (rules r) (d_set_rstack (d_set_env d1 []) (r :: d_rstack d1))) as [[[r1 d1'] n1]|]; [|destruct Hr]. destruct (dexpr rules f (rules r) (d_set_rstack (d_set_env d2 []) (r :: d_rstack d1))) as [[[r2 d2'] n2]|]; [|destruct Hr]. destruct Hr as (<- & i' & j' & L').
        right. left. destruct r1; [| |destruct W]; (split; [reflexivity|]); exists i', j'; apply linked_rstack, linked_env; exact L'.
      + destruct Hr as (Hs & Hr). right. right. split; [exact Hs|]. destruct (dexpr rules f (rules r) (d_set_rstack (d_set_env d2 []) (r :: d_rstack d1))) as [[[[v| |m] d2'] n]|]; exact Hr.
    - apply (star2 (dexpr rules f e) false) with (i0 := i) (i := i) (j := j); [intros; apply dexpr_fart|intros; apply G1; assumption|intros; apply G2; assumption|intros i1 j1 x y; apply IH; exact He|exact L|reflexivity].
    - apply (star2 (dexpr rules f e) true) with (i0 := i) (i := i) (j := j); [intros; apply dexpr_fart|intros; apply G1; assumption|intros; apply G2; assumption|intros i1 j1 x y; apply IH; exact He|exact L|reflexivity].
    - pose proof (IH e i j _ _ He (linked_env _ _ _ _ [] L)) as Hr. rewrite <- Cenv. intros W.
      assert (within (dexpr rules f e (d_set_env d1 []))) as W1 by (destruct (dexpr rules f e (d_set_env d1 [])) as [[[[v| |m] d1'] n]|]; exact W).
      specialize (Hr W1). destruct Hr as [Hr|[Hr|Hr]]; [rewrite Hr; left; reflexivity| |].
      + destruct (dexpr rules f e (d_set_env d1 [])) as [[[r1 d1'] n1]|]; [|destruct Hr]. destruct (dexpr rules f e (d_set_env d2 [])) as [[[r2 d2'] n2]|]; [|destruct Hr]. destruct Hr as (<- & i' & j' & L').
        right. left. destruct r1; [| |destruct W]; (split; [reflexivity|]); exists i', j'; apply linked_env; exact L'.
      + destruct Hr as (Hs & Hr). right. right. split; [exact Hs|]. destruct (dexpr rules f e (d_set_env d2 [])) as [[[[v| |m] d2'] n]|]; exact Hr.
    - destruct He as (He & _). discriminate.
    - rewrite <- Cst. intros W. right. left. destruct (g (d_st d1)) as ([v|m|m], st'); [| |destruct W]; (split; [reflexivity|]); exists i, j; [apply linked_st; exact L|].
      unfold d_add_err. apply linked_err, linked_st. exact L.
  Qed.

  (** ** The whole grammar, when the first run fails *)
  Definition pastF (o : @dout rule) : Prop := strict = false /\ match o with Some (PFail, d, _) => ~ near d | _ => True end.
  Lemma past_pastF o : past o -> pastF o.
  Proof. intros (Hs & H). split; [exact Hs|]. destruct o as [[[[v| |m] d] n]|]; auto. Qed.
  Definition relF (o1 o2 : @dout rule) : Prop := (exists d n, o1 = Some (PFail, d, n)) -> within o1 -> o2 = None \/ same o1 o2 \/ pastF o2.
  Fixpoint tail_e (e : expr rule) : Prop :=
    plain_e false e \/
    match e with
    | EAction _ e | ELabel _ e => tail_e e
    | EChoice alts => alts <> [] /\ (fix go l := match l with [] => True | e :: l' => tail_e e /\ go l' end) alts
    | ESeq [a; b] => plain_e false a /\ tail_e b
    | ERef r => True
    | ENot e => e = EAny
    | _ => False
    end.
  Lemma rules_tail r : tail_e (rules r).
  Proof.
    destruct (ok_ref false r) eqn:E.
    - pose proof (rules_plain false r E) as H. destruct (rules r); left; exact H.
    - destruct r; try discriminate E; cbn [rules tail_e]; right.
      + right. split; [reflexivity|]. right. right. split; [discriminate|]. repeat split; right; exact I.
      + right. split; [|right; exact I]. cbn. repeat split; discriminate.
      + reflexivity.
  Qed.
  Lemma tail_plain e : tail_e e -> plain_e true e.
  Proof.
    revert e. fix IH 1. intros e H. destruct e as [act e|l e|alts|es|lt ic|c| |r|e|e|e|e|g]; (destruct H as [H|H]; [apply (good_any true), H|]); cbn [plain_e]; try destruct H; try (apply IH, H); try reflexivity.
    - split; [assumption|]. clear H. revert alts H0. fix go 1. intros [|e alts] H0; [exact I|]. split; [apply IH, H0|apply go, H0].
    - destruct es as [|x [|y [|z es]]]; try destruct H. split; [apply good_any; assumption|]. split; [apply IH; assumption|exact I].
    - split; reflexivity.
  Qed.
  Lemma dexprF f : forall e i j d1 d2, tail_e e -> linked i j d1 d2 -> relF (dexpr rules f e d1) (dexpr rules f e d2).
  Proof.
    induction f as [|f IH]; intros e i j d1 d2 He L (d0 & n0 & HF); [discriminate HF|].
    pose proof (dexpr_good a1 V1 R1 false f) as G1. pose proof (dexpr_good a2 V2 R2 false f) as G2. pose proof L as (A & B & C & Q). destruct (core2_parts _ _ C) as (Cst & Cenv & Crs & Cex & Cer).
    pose proof (dexpr_good a1 V1 R1 true f) as T1. pose proof (dexpr_good a2 V2 R2 true f) as T2.
    assert (plain_e false e -> within (dexpr rules (S f) e d1) -> dexpr rules (S f) e d2 = None \/ same (dexpr rules (S f) e d1) (dexpr rules (S f) e d2) \/ pastF (dexpr rules (S f) e d2)) as Hplain.
    { intros Hp W. destruct (dexpr2 (S f) e i j d1 d2 Hp L W) as [H|[H|H]]; auto. right. right. apply past_pastF, H. }
    destruct e as [act e|l e|alts|es|lt ic|c| |r|e|e|e|e|g]; cbn [tail_e] in He; (destruct He as [He|He]; [exact (Hplain He)|]); clear Hplain; cbn [dexpr] in *; try (destruct He; fail).
    - pose proof (IH e i j d1 d2 He L) as Hr. intros W. rewrite HF in W |- *. destruct (dexpr rules f e d1) as [[[[v| |m] d1'] n]|] eqn:E1; [destruct (act _ _ _); discriminate HF| |discriminate HF|discriminate HF]. injection HF as <- <-.
      specialize (Hr (ex_intro _ _ (ex_intro _ _ eq_refl)) W). destruct Hr as [Hr|[Hr|Hr]]; [rewrite Hr; left; reflexivity| |].
      + destruct (dexpr rules f e d2) as [[[r2 d2'] n2]|]; [|destruct Hr]. destruct Hr as (<- & Hr). right. left. split; [reflexivity|exact Hr].
      + destruct Hr as (Hs & Hr). right. right. split; [exact Hs|]. destruct (dexpr rules f e d2) as [[[[v| |m] d2'] n2]|]; [|exact Hr|exact I|exact I]. destruct (act _ _ _); exact I.
    - pose proof (IH e i j _ _ He (linked_env _ _ _ _ [] L)) as Hr. intros W. rewrite HF in W |- *. rewrite <- Cenv. destruct (dexpr rules f e (d_set_env d1 [])) as [[[[v| |m] d1'] n]|] eqn:E1; [discriminate HF| |discriminate HF|discriminate HF]. injection HF as <- <-.
      specialize (Hr (ex_intro _ _ (ex_intro _ _ eq_refl)) W). destruct Hr as [Hr|[Hr|Hr]]; [rewrite Hr; left; reflexivity| |].
      + destruct (dexpr rules f e (d_set_env d2 [])) as [[[r2 d2'] n2]|]; [|destruct Hr]. destruct Hr as (<- & i' & j' & L'). right. left. split; [reflexivity|]. exists i', j'. apply linked_env. exact L'.
      + destruct Hr as (Hs & Hr). right. right. split; [exact Hs|]. destruct (dexpr rules f e (d_set_env d2 [])) as [[[[v| |m] d2'] n2]|]; exact Hr.
    - destruct He as (Hne & He). assert (forall es i j x y n1 n2, (fix go l := match l with [] => True | e :: l' => tail_e e /\ go l' end) es -> linked i j x y -> (es <> [] \/ (i <= j)%nat /\ d_expected x <> []) -> relF (d_choice_loop (dexpr rules f) es x n1) (d_choice_loop (dexpr rules f) es y n2)) as Hc.
      { clear - IH T1 T2 V1 V2 R1 R2 K1 K2 Hshare lim_sub. intros es. induction es as [|e es IHe]; intros i j x y n1 n2 Hes L Hne (d0 & n0 & HF) W.
        - right. left. split; [reflexivity|]. exists i, j. exact L.
        - destruct Hes as (He & Hes). pose proof (linked_env _ _ _ _ [] L) as L1. pose proof L1 as (A & B & C & _). destruct (core2_parts _ _ (proj1 (proj2 (proj2 L)))) as (Cst & Cenv & _ & Cex & _).
          assert (Forall (plain_e true) es) as Hes'. { clear - Hes. induction es as [|e es IHe]; constructor; [apply tail_plain, Hes|apply IHe, Hes]. }
          pose proof (IH e i j _ _ He L1) as Hr. pose proof (T1 e i j _ (tail_plain _ He) A) as O1. pose proof (T2 e i j _ (tail_plain _ He) B) as O2. cbn [d_choice_loop] in *. rewrite <- Cst, <- Cenv.
          destruct (dexpr rules f e (d_set_env x [])) as [[[[v| |m] x'] n1']|]; [discriminate HF| |discriminate HF|discriminate HF].
          cbn [run_ok] in O1. destruct O1 as (j' & A' & I1 & J1 & _ & X1). assert (at_ a1 i j' (d_set_env (d_set_st x' (d_st x)) (d_env x))) as A3 by (apply -> at_set_env; apply -> at_set_st; exact A').
          pose proof (choice_good a1 true _ T1 es i j' _ (n1 + n1')%N Hes' A3 (or_intror (conj I1 X1))) as O1'. pose proof (within_start _ _ _ _ _ A3 O1' (choice_fart _ (dexpr_fart f) _ _ _) W) as N.
          specialize (Hr (ex_intro _ _ (ex_intro _ _ eq_refl)) (proj2 (near1 _ _ _ A') N)). destruct Hr as [Hr|[Hr|Hr]]; [rewrite Hr; left; reflexivity| |].
          + destruct (dexpr rules f e (d_set_env y [])) as [[[r2 y'] n2']|]; [|destruct Hr]. destruct Hr as (<- & i2 & j2 & L').
            assert (i2 = i) as ->. { destruct L' as (A2 & _). pose proof (at_rest _ _ _ _ A') as Y. rewrite (at_rest _ _ _ _ A2) in Y. apply (f_equal (@length _)) in Y. rewrite !skipn_length in Y. pose proof (at_i _ _ _ _ A'). pose proof (at_i _ _ _ _ A2). lia. }
            assert (j2 = j') as ->. { destruct L' as (A2 & _). pose proof (at_fail _ _ _ _ A') as Y. rewrite (at_fail _ _ _ _ A2) in Y. apply (f_equal p_offset) in Y. rewrite !fspot_off in Y. pose proof (off_le a1 R1 j2 j' (at_j _ _ _ _ A2) (at_j _ _ _ _ A')). pose proof (off_le a1 R1 j' j2 (at_j _ _ _ _ A') (at_j _ _ _ _ A2)). lia. }
            apply (IHe i j'); [exact Hes|apply linked_env, linked_st; exact L'|right; split; [exact I1|exact X1]|exists d0, n0; exact HF|exact W].
          + destruct Hr as (Hs & Hr). destruct (dexpr rules f e (d_set_env y [])) as [[[[v2| |m2] y'] n2']|]; [right; right; split; [exact Hs|exact I]| |right; right; split; [exact Hs|exact I]|left; reflexivity].
            right. right. apply past_pastF. cbn [run_ok] in O2. destruct O2 as (j2 & B2 & I2 & J2 & _ & X2). assert (at_ a2 i j2 (d_set_env (d_set_st y' (d_st x)) (d_env x))) as B3 by (apply -> at_set_env; apply -> at_set_st; exact B2).
            eapply past_on; [exact Hs|exact B3|exact Hr| |apply (choice_fart _ (dexpr_fart f))]. apply (choice_good a2 true _ T2); [exact Hes'|exact B3|right; split; [exact I2|exact X2]]. }
      apply (Hc alts i j); [exact He|exact L|left; exact Hne|exists d0, n0; exact HF].
    - destruct es as [|x [|y [|z es]]]; try (destruct He; fail). destruct He as (Hx & Hy). pose proof (dexpr2 f x i j d1 d2 Hx L) as Hr. pose proof (G1 x i j d1 Hx A) as O1. pose proof (G2 x i j d2 Hx B) as O2. intros W. cbn [d_seq_loop] in *.
      assert (forall d2' i2 j2 v n, at_ a2 i2 j2 d2' -> ~ near d2' -> strict = false -> (i <= i2)%nat -> pastF (d_seq_loop (dexpr rules f) [y] d2 d2' ([] ++ [v]) n)) as Hpast.
      { intros d2' i2 j2 v n B2 N Hs Hi. apply past_pastF. eapply past_on; [exact Hs|exact B2|exact N| |apply (seq_fart _ (dexpr_fart f))]. eapply (seq_good a2 true _ T2 [y] i); [apply Forall_cons; [apply tail_plain, Hy|apply Forall_nil]|right; exists j; exact B|exact B2|exact Hi]. }
      cbn [d_seq_loop] in Hpast.
      destruct (dexpr rules f x d1) as [[[[v| |m] d1'] n1]|]; [| |discriminate HF|discriminate HF].
      + cbn [run_ok] in O1. destruct O1 as (i' & j' & A' & I1 & J1 & _). pose proof (T1 y i' j' d1' (tail_plain _ Hy) A') as O1'.
        destruct (dexpr rules f y d1') as [[[[w| |m] d1''] n1']|] eqn:Ey; [discriminate HF| |discriminate HF|discriminate HF]. cbn [run_ok] in O1'. destruct O1' as (j'' & A'' & I1' & J1' & _).
        cbn [dret within] in W. rewrite (at_pt _ _ _ _ A), (at_rest _ _ _ _ A) in W. assert (at_ a1 i j'' (d_set_point (d_set_st d1'' (d_st d1)) (spot a1 i) (skipn i a1))) as A3 by (eapply at_set_point; [apply -> at_set_st; exact A''|apply A]).
        apply (near1 _ _ _ A3) in W. assert (near d1') as N.
        { apply (near1 _ _ _ A'). pose proof (dexpr_fart f y d1') as Fy. rewrite Ey in Fy. cbn [fart] in Fy. apply (ok3_back a1 _ _ _ _ _ _ A' A3); [exact Fy|right; exact I1'|exact J1'|exact W]. } specialize (Hr N). destruct Hr as [Hr|[Hr|Hr]]; [rewrite Hr; left; reflexivity| |].
        * destruct (dexpr rules f x d2) as [[[r2 d2'] n2]|]; [|destruct Hr]. destruct Hr as (<- & i2 & j2 & L'). pose proof L' as (_ & B2 & _). pose proof (T2 y i2 j2 d2' (tail_plain _ Hy) B2) as O2'.
          pose proof (IH y i2 j2 d1' d2' Hy L') as Hr2. rewrite Ey in Hr2. specialize (Hr2 (ex_intro _ _ (ex_intro _ _ eq_refl))). assert (near d1'') as N2 by (apply (near1 _ _ _ A''); ok3t W). specialize (Hr2 N2). destruct Hr2 as [Hr2|[Hr2|Hr2]]; [rewrite Hr2; left; reflexivity| |].
          -- destruct (dexpr rules f y d2') as [[[r2 d2''] n2']|]; [|destruct Hr2]. destruct Hr2 as (<- & i3 & j3 & L3). right. left. split; [reflexivity|]. exists i, j3.
             rewrite (at_pt _ _ _ _ A), (at_rest _ _ _ _ A), (at_pt _ _ _ _ B), (at_rest _ _ _ _ B), Cst. eapply linked_point; [apply linked_st; exact L3|apply A|apply B].
          -- destruct Hr2 as (Hs & Hr2). right. right. split; [exact Hs|]. destruct (dexpr rules f y d2') as [[[[w2| |m2] d2''] n2']|]; [exact I| |exact I|exact I].
             cbn [run_ok] in O2'. destruct O2' as (j3 & B3 & I3 & J3 & _). cbn [dret]. intros X. rewrite (at_pt _ _ _ _ B), (at_rest _ _ _ _ B) in X. apply (near2 i j3) in X; [|eapply at_set_point; [apply -> at_set_st; exact B3|apply B]].
             apply Hr2. apply (near2 _ _ _ B3). ok3t X.
        * destruct Hr as (Hs & Hr). destruct (dexpr rules f x d2) as [[[[v2| |m2] d2'] n2]|]; [| |right; right; split; [exact Hs|exact I]|left; reflexivity]; right; right.
          -- cbn [run_ok] in O2. destruct O2 as (i2 & j2 & B2 & I2 & J2 & _). eapply Hpast; [exact B2|exact Hr|exact Hs|exact I2].
          -- cbn [run_ok] in O2. destruct O2 as (j2 & B2 & I2 & J2 & _). split; [exact Hs|]. cbn [dret]. intros X. apply Hr. apply (near2 _ _ _ B2).
             rewrite (at_pt _ _ _ _ B), (at_rest _ _ _ _ B) in X. apply (near2 i j2) in X; [ok3t X|]. eapply at_set_point; [apply -> at_set_st; exact B2|apply B].
      + cbn [run_ok] in O1. destruct O1 as (j' & A' & I1 & J1 & _). cbn [dret within] in W. rewrite (at_pt _ _ _ _ A), (at_rest _ _ _ _ A) in W.
        assert (at_ a1 i j' (d_set_point (d_set_st d1' (d_st d1)) (spot a1 i) (skipn i a1))) as A'' by (eapply at_set_point; [apply -> at_set_st; exact A'|apply A]).
        apply (near1 _ _ _ A'') in W. assert (near d1') as N by (apply (near1 _ _ _ A'); ok3t W). specialize (Hr N). destruct Hr as [Hr|[Hr|Hr]]; [rewrite Hr; left; reflexivity| |].
        * destruct (dexpr rules f x d2) as [[[r2 d2'] n2]|]; [|destruct Hr]. destruct Hr as (<- & i2 & j2 & L'). right. left. split; [reflexivity|]. exists i, j2.
          rewrite (at_pt _ _ _ _ A), (at_rest _ _ _ _ A), (at_pt _ _ _ _ B), (at_rest _ _ _ _ B), Cst. eapply linked_point; [apply linked_st; exact L'|apply A|apply B].
        * destruct Hr as (Hs & Hr). destruct (dexpr rules f x d2) as [[[[v2| |m2] d2'] n2]|]; [| |right; right; split; [exact Hs|exact I]|left; reflexivity]; right; right.
          -- cbn [run_ok] in O2. destruct O2 as (i2 & j2 & B2 & I2 & J2 & _). eapply Hpast; [exact B2|exact Hr|exact Hs|exact I2].
          -- cbn [run_ok] in O2. destruct O2 as (j2 & B2 & I2 & J2 & _). split; [exact Hs|]. cbn [dret]. intros X. apply Hr. apply (near2 _ _ _ B2).
             rewrite (at_pt _ _ _ _ B), (at_rest _ _ _ _ B) in X. apply (near2 i j2) in X; [ok3t X|]. eapply at_set_point; [apply -> at_set_st; exact B2|apply B].
    - pose proof (IH (rules r) i j _ _ (rules_tail r) (linked_rstack _ _ _ _ (r :: d_rstack d1) (linked_env _ _ _ _ [] L))) as Hr. intros W. rewrite HF in W |- *. rewrite <- Cenv, <- Crs.
      destruct (dexpr rules f (rules r) (d_set_rstack (d_set_env d1 []) (r :: d_rstack d1))) as [[[[v| |m] d1'] n]|] eqn:E1; [discriminate HF| |discriminate HF|discriminate HF]. injection HF as <- <-.
      specialize (Hr (ex_intro _ _ (ex_intro _ _ eq_refl)) W). destruct Hr as [Hr|[Hr|Hr]]; [rewrite Hr; left; reflexivity| |].
      + destruct (dexpr rules f (rules r) (d_set_rstack (d_set_env d2 []) (r :: d_rstack d1))) as [[[r2 d2'] n2]|]; [|destruct Hr]. destruct Hr as (<- & i' & j' & L'). right. left. split; [reflexivity|]. exists i', j'. apply linked_rstack, linked_env. exact L'.
      + destruct Hr as (Hs & Hr). right. right. split; [exact Hs|]. destruct (dexpr rules f (rules r) (d_set_rstack (d_set_env d2 []) (r :: d_rstack d1))) as [[[[v| |m] d2'] n2]|]; exact Hr.
    - subst e. destruct f as [|f]; [discriminate HF|]. cbn [dexpr d_rest d_set_invert d_set_env] in *. intros W. revert HF W. change (d_pt (d_set_invert (d_set_env d1 []) (negb (d_invert d1)))) with (d_pt d1). change (d_pt (d_set_invert (d_set_env d2 []) (negb (d_invert d2)))) with (d_pt d2). rewrite (at_rest _ _ _ _ A), (at_rest _ _ _ _ B), (at_inv _ _ _ _ A), (at_inv _ _ _ _ B), (at_pt _ _ _ _ A), (at_pt _ _ _ _ B). cbn [negb].
      destruct (skipn i a1) as [|c1 l1] eqn:E1; [intros HF; discriminate HF|]. intros _. cbn [dret].
      assert (forall a, valid a -> Forall (fun c => gc_raw c <> EmptyString) a -> forall d c l, at_ a i j d -> skipn i a = c :: l ->
        let d' := d_set_point (d_set_st (d_set_env (d_set_invert (fail_at (d_read (d_set_invert (d_set_env d []) true)) true (spot a i) WAny) false) (d_env d)) (d_st d)) (spot a i) (c :: l) in
        at_ a i (Nat.max i j) d' /\ core d' = core d /\ d_expected d' = ex_note i j (true, WAny) (d_expected d)) as Hnot.
      { clear. intros a V R d c l A E. cbv zeta. set (d1 := d_set_invert (d_set_env d []) true). assert (at_ a i j (d_set_env d [])) as A1 by (apply -> at_set_env; exact A).
        assert (d_read d1 = d_set_invert (d_read (d_set_env d [])) true) as Hr.
        { unfold d_read, d1, d_arrive. cbn [d_rest d_set_invert d_set_env d_pt d_set_point]. rewrite (at_rest _ _ _ _ A), E. cbn [tl]. destruct l as [|x l]; [reflexivity|]. destruct (gc_bad x); reflexivity. }
        rewrite Hr. destruct (at_read a V _ _ _ _ _ A1 E) as (A2 & C2 & X2). set (d2 := d_read (d_set_env d [])) in *.
        assert (known (true, WAny)) as Hk by (left; reflexivity).
        unfold fail_at. cbn [d_invert d_set_invert Bool.eqb d_fail d_expected d_pt d_rest d_st d_errs d_env d_rstack]. rewrite (at_fail _ _ _ _ A2), spot_off, fspot_off, (off_lt a R _ _ (at_i _ _ _ _ A) (at_j _ _ _ _ A2)), (off_lt a R _ _ (at_j _ _ _ _ A2) (at_i _ _ _ _ A)).
        unfold core in C2. injection C2 as E1 E2 E3 E4. cbn in E1, E2, E3, E4, X2. unfold ex_note.
        destruct (Nat.ltb_spec i j) as [Hij|Hij]; [rewrite Nat.max_r by lia|destruct (Nat.ltb_spec j i) as [Hji|Hji]; [rewrite Nat.max_l by lia|]].
        - destruct A, A2. split; [constructor; cbn; try assumption; try reflexivity; symmetry; exact E|]. unfold core. cbn. rewrite E2, E4, X2. split; reflexivity.
        - destruct A, A2. split; [constructor; cbn; try assumption; try reflexivity; [symmetry; exact E|destruct i; [lia|reflexivity]|intros _; discriminate|apply Forall_cons; [exact Hk|apply Forall_nil]]|]. unfold core. cbn. rewrite E2, E4. split; reflexivity.
        - replace j with i in * by lia. rewrite Nat.max_id. assert (forall x : list (bool * want), x ++ [(true, WAny)] <> []) as Hx by (intros x Hx; apply app_eq_nil in Hx as (_ & Hx); discriminate).
          destruct A, A2. split; [constructor; cbn; try assumption; try reflexivity; [symmetry; exact E|intros _; apply Hx|apply Forall_app; split; [assumption|apply Forall_cons; [exact Hk|apply Forall_nil]]]|]. unfold core. cbn. rewrite E2, E4, X2. split; reflexivity. }
      destruct (Hnot a1 V1 R1 d1 c1 l1 A E1) as (A' & CA & XA). cbn [within]. intros W. apply (near1 _ _ _ A') in W.
      destruct (skipn i a2) as [|c2 l2] eqn:E2.
      + right. right. cbn [dret].
        assert (strict = false) as Hs. { apply Bool.not_true_is_false. intros Es. destruct W as (_ & W2 & W3). destruct (Nat.eq_dec i k) as [->|Hik].
          - assert (hits (true, WAny) (skipn k a1)) as Hh; [|cbn [hits] in Hh; congruence]. apply (Hstrict Es); [left; reflexivity|lia|exact E2|]. intros _. eexists. split; [apply W3; lia|]. rewrite XA. apply ex_note_in. lia.
          - apply (f_equal (@length _)) in E2. rewrite skipn_length in E2. cbn in E2. lia. }
        split; [exact Hs|exact I].
      + destruct (Hnot a2 V2 R2 d2 c2 l2 B E2) as (B' & CB & XB). right. left. split; [reflexivity|]. exists i, (Nat.max i j). split; [exact A'|]. split; [exact B'|]. split.
        * assert (forall x y, core x = core y -> d_st x = d_st y /\ d_errs x = d_errs y /\ d_env x = d_env y /\ d_rstack x = d_rstack y) as Hcore by (unfold core; intros x y Hxy; injection Hxy; auto).
          destruct (Hcore _ _ CA) as (F1 & F2 & F3 & F4). destruct (Hcore _ _ CB) as (H1 & H2 & H3 & H4). unfold core2. rewrite F1, F2, F3, F4, H1, H2, H3, H4, XA, XB, Cst, Cenv, Crs, Cex, Cer. reflexivity.
        * rewrite XB. unfold ex_note. intros Hm x Hx. assert (i = k -> ~ hits (true, WAny) (skipn k a2)) as Hh by (intros <-; cbn [hits]; rewrite E2; discriminate).
          destruct (Nat.ltb_spec i j); [apply Q; [lia|exact Hx]|]. destruct (Nat.ltb_spec j i).
          -- destruct Hx as [<-|[]]. apply Hh. lia.
          -- apply in_app_or in Hx as [Hx|[<-|[]]]; [apply Q; [lia|exact Hx]|apply Hh; lia].
  Qed.
End Two.
