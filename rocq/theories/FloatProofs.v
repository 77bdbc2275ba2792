(** The rounding divisions computed through float64. *)
From Coq Require Import Reals Lra Psatz.
From Flocq Require Import Core BinarySingleNaN Relative.
From Verif Require Import ProofBase Float Ast SpecArith.
Open Scope R_scope.

Notation rnd64 := (round radix2 (SpecFloat.fexp prec64 emax64) (round_mode mode_NE)).
Notation fmt64 := (generic_format radix2 (SpecFloat.fexp prec64 emax64)).

Lemma fmt_FLT x : FLT_format radix2 (-1074) 53 x -> fmt64 x.
Proof. intros H. apply generic_format_FLT in H. exact H. Qed.

Lemma fmt_F2R m e : (Z.abs m <= 2^53)%Z -> (-1074 <= e)%Z -> fmt64 (F2R (Float radix2 m e)).
Proof.
  intros Hm He. destruct (Z.eq_dec (Z.abs m) (2^53)) as [E|E].
  - replace (F2R {| Fnum := m; Fexp := e |}) with (F2R (Float radix2 (m / 2^53) (e + 53))).
    + apply fmt_FLT. exists (Float radix2 (m/2^53) (e+53)); cbn [Fnum Fexp]; [reflexivity| |lia].
      change (radix_val radix2 ^ 53)%Z with (2^53)%Z. change (2^53)%Z with 9007199254740992%Z in *. lia.
    + unfold F2R. cbn [Fnum Fexp]. rewrite bpow_plus.
      assert (m = (m/2^53) * 2^53)%Z as Hq by (change (2^53)%Z with 9007199254740992%Z in *; lia).
      rewrite Hq at 2. rewrite mult_IZR. change (bpow radix2 53) with (IZR (2^53)). ring.
  - apply fmt_FLT. exists (Float radix2 m e); cbn [Fnum Fexp]; [reflexivity| |exact He].
    change (radix_val radix2 ^ 53)%Z with (2^53)%Z. lia.
Qed.
Lemma fmt_int z : (Z.abs z <= 2^53)%Z -> fmt64 (IZR z).
Proof.
  intros H. replace (IZR z) with (F2R (Float radix2 z 0)) by (unfold F2R; cbn [Fnum Fexp bpow]; ring).
  apply fmt_F2R; [exact H|lia].
Qed.
Lemma fmt_half z : (Z.abs z <= 2^53)%Z -> fmt64 (IZR z / 2).
Proof.
  intros H. replace (IZR z / 2) with (F2R (Float radix2 z (-1))).
  - apply fmt_F2R; [exact H|lia].
  - unfold F2R; cbn [Fnum Fexp bpow]. change (Z.pow_pos radix2 1) with 2%Z. lra.
Qed.
Lemma fmt_pow53 z : (Z.abs z <= 2^53)%Z -> fmt64 (IZR z / IZR (2^53)).
Proof.
  intros H. replace (IZR z / IZR (2^53)) with (F2R (Float radix2 z (-53))).
  - apply fmt_F2R; [exact H|lia].
  - unfold F2R; cbn [Fnum Fexp]. change (-53)%Z with (-(53))%Z. rewrite (bpow_opp radix2 53). reflexivity.
Qed.

#[export] Instance valid_fexp : Valid_exp (SpecFloat.fexp prec64 emax64).
Proof. apply (FLT_exp_valid (-1074) 53). Qed.
#[export] Instance valid_NE : Valid_rnd (round_mode mode_NE).
Proof. apply valid_rnd_round_mode. Qed.

Lemma rnd_le_fmt x y : fmt64 y -> x <= y -> rnd64 x <= y.
Proof. intros. apply round_le_generic; auto with typeclass_instances. Qed.
Lemma rnd_ge_fmt x y : fmt64 x -> x <= y -> x <= rnd64 y.
Proof. intros. apply round_ge_generic; auto with typeclass_instances. Qed.
Lemma rnd_fmt x : fmt64 x -> rnd64 x = x.
Proof. intros. apply round_generic; auto with typeclass_instances. Qed.
Lemma rnd_abs_le x y : fmt64 y -> Rabs x <= y -> Rabs (rnd64 x) <= y.
Proof. intros. apply abs_round_le_generic; auto with typeclass_instances. Qed.
Lemma rnd_error x : bpow radix2 (-1022) <= Rabs x -> Rabs (rnd64 x - x) <= Rabs x / IZR (2^53).
Proof.
  intros H. pose proof (relative_error_N_FLT radix2 (-1074)%Z 53%Z eq_refl (fun x => negb (Z.even x)) x H) as E.
  eapply Rle_trans; [exact E|]. change (bpow radix2 (- (53) + 1)) with (/ IZR (2^52)).
  right. change (IZR (2^53)) with (IZR 9007199254740992). change (IZR (2^52)) with (IZR 4503599627370496). field.
Qed.


Lemma float64_of_int_spec z : in_int64 z ->
  B2R (float64_of_int z) = rnd64 (IZR z) /\ is_finite (float64_of_int z) = true.
Proof.
  intros Hz. unfold float64_of_int.
  pose proof (binary_normalize_correct prec64 emax64 prec64_gt_0 prec64_lt_emax mode_NE z 0 false) as H.
  cbv zeta in H.
  replace (F2R {| Fnum := z; Fexp := 0 |}) with (IZR z) in H by (unfold F2R; cbn [Fnum Fexp bpow]; ring).
  rewrite Rlt_bool_true in H.
  - tauto.
  - apply Rle_lt_trans with (bpow radix2 64); [|apply bpow_lt; reflexivity].
    apply rnd_abs_le.
    + apply generic_format_bpow. unfold SpecFloat.fexp, SpecFloat.emin, prec64, emax64. lia.
    + rewrite <- abs_IZR. change (bpow radix2 64) with (IZR two64). apply IZR_le.
      unfold in_int64, min_int, max_int, two63, two64 in *. lia.
Qed.

Lemma int_of_nearby md f : is_finite f = true -> in_int64 (round_mode md (B2R f)) ->
  int_of_float64 (Bnearbyint md f) = round_mode md (B2R f).
Proof.
  intros Hf Hr. destruct (Bnearbyint_correct prec64 emax64 prec64_lt_emax md f) as (H1 & H2 & _).
  rewrite round_FIX_IZR in H1.
  set (v := round_mode md (B2R f)) in *. rewrite Hf in H2.
  pose proof (Btrunc_correct prec64 emax64 prec64_lt_emax (Bnearbyint md f)) as H3.
  rewrite H1, round_FIX_IZR, Ztrunc_IZR in H3. apply eq_IZR in H3.
  destruct (Bnearbyint md f) as [s|s| |s m e b]; try discriminate; cbn [int_of_float64].
  - cbn [B2R] in H1. apply (eq_IZR 0) in H1. exact H1.
  - cbv zeta. rewrite H3. unfold in_int64b. unfold in_int64 in Hr.
    destruct (min_int <=? v)%Z eqn:E1, (v <=? max_int)%Z eqn:E2; try reflexivity; lia.
Qed.

Lemma rnd_sign_pos x : 1 <= x -> 1 <= rnd64 x.
Proof. intros. apply rnd_ge_fmt; [apply (fmt_int 1); lia|assumption]. Qed.
Lemma rnd_sign_neg x : x <= -1 -> rnd64 x <= -1.
Proof. intros. apply rnd_le_fmt; [apply (fmt_int (-1)); lia|assumption]. Qed.

(** The float quotient *)
Lemma float_quotient l r : (Z.abs l <= 2^53)%Z -> in_int64 r -> r <> 0%Z ->
  let q := float64_div (float64_of_int l) (float64_of_int r) in
  is_finite q = true /\ B2R q = rnd64 (IZR l / rnd64 (IZR r)).
Proof.
  intros Hl Hr Hr0 q.
  destruct (float64_of_int_spec l) as (Hl1 & Hl2).
  { unfold in_int64, min_int, max_int, two63. change (2^53)%Z with 9007199254740992%Z in Hl. lia. }
  destruct (float64_of_int_spec r Hr) as (Hr1 & Hr2).
  rewrite (rnd_fmt _ (fmt_int l Hl)) in Hl1.
  assert (1 <= Rabs (rnd64 (IZR r))) as Hy.
  { destruct (Z_lt_le_dec r 0).
    - assert (rnd64 (IZR r) <= -1) by (apply rnd_sign_neg, (IZR_le r (-1)); lia). rewrite Rabs_left1; lra.
    - assert (1 <= rnd64 (IZR r)) by (apply rnd_sign_pos, (IZR_le 1 r); lia). rewrite Rabs_pos_eq; lra. }
  assert (rnd64 (IZR r) <> 0) as Hy0 by (intros E; rewrite E, Rabs_R0 in Hy; lra).
  pose proof (Bdiv_correct prec64 emax64 prec64_gt_0 prec64_lt_emax mode_NE (float64_of_int l) (float64_of_int r)) as H.
  rewrite Hl1, Hr1 in H. specialize (H Hy0). rewrite Rlt_bool_true in H.
  - destruct H as (H1 & H2 & _). split; [unfold q, float64_div; rewrite H2; exact Hl2|exact H1].
  - apply Rle_lt_trans with (IZR (2^53)); [|change (IZR (2^53)) with (bpow radix2 53); apply bpow_lt; reflexivity].
    apply rnd_abs_le; [apply fmt_int; lia|].
    unfold Rdiv. rewrite Rabs_mult, Rabs_inv. apply (IZR_le _ _) in Hl. rewrite abs_IZR in Hl.
    rewrite <- (Rmult_1_r (IZR (2^53))). apply Rmult_le_compat; try apply Rabs_pos; try assumption.
    + left. apply Rinv_0_lt_compat. lra.
    + rewrite <- Rinv_1. apply Rinv_le; lra.
Qed.

Lemma IZR_abs_ge1 z : z <> 0%Z -> 1 <= Rabs (IZR z).
Proof. intros. rewrite <- abs_IZR. apply (IZR_le 1). lia. Qed.

(** Rounding the quotient never hits a "round" number it was not. *)
Lemma rnd_not_hit l r d k :
  (0 < d)%Z -> (d * Z.abs l < 2^53)%Z -> l <> 0%Z -> r <> 0%Z -> (Z.abs r <= 2^64)%Z ->
  IZR l / IZR r <> IZR k / IZR d -> rnd64 (IZR l / IZR r) <> IZR k / IZR d.
Proof.
  intros Hd Hl Hl0 Hr0 Hr Hne E.
  pose proof (IZR_abs_ge1 _ Hl0) as L1. pose proof (IZR_abs_ge1 _ Hr0) as R1.
  assert (IZR r <> 0) as Hr0' by (intros C; apply (eq_IZR _ 0) in C; contradiction).
  assert (0 < IZR d) as Hd' by (apply (IZR_lt 0); assumption).
  assert (Rabs (IZR l / IZR r) * Rabs (IZR r) = Rabs (IZR l)) as Hq.
  { rewrite <- Rabs_mult. f_equal. field. assumption. }
  assert (Rabs (IZR r) <= IZR (2^64)) as R2 by (rewrite <- abs_IZR; apply IZR_le; assumption).
  assert (bpow radix2 (-1022) <= Rabs (IZR l / IZR r)) as Hn.
  { apply Rle_trans with (bpow radix2 (-64)); [apply bpow_le; discriminate|].
    change (bpow radix2 (-64)) with (/ IZR (2^64)).
    unfold Rdiv. rewrite Rabs_mult, Rabs_inv. rewrite <- (Rmult_1_l (/ IZR (2^64))).
    apply Rmult_le_compat; [lra| |assumption|].
    - left. apply Rinv_0_lt_compat. apply (IZR_lt 0). reflexivity.
    - apply Rinv_le; lra. }
  pose proof (rnd_error _ Hn) as Er. rewrite E in Er.
  assert (d * l - k * r <> 0)%Z as Hz.
  { intros C. apply Hne. apply (Rmult_eq_reg_r (IZR r * IZR d)).
    - replace (IZR l / IZR r * (IZR r * IZR d)) with (IZR d * IZR l) by (field; assumption).
      replace (IZR k / IZR d * (IZR r * IZR d)) with (IZR k * IZR r) by (field; lra).
      rewrite <- !mult_IZR. f_equal. lia.
    - apply Rmult_integral_contrapositive_currified; [assumption|lra]. }
  apply IZR_abs_ge1 in Hz. rewrite minus_IZR, !mult_IZR in Hz.
  assert (Rabs (IZR k / IZR d - IZR l / IZR r) * (Rabs (IZR r) * IZR d) = Rabs (IZR d * IZR l - IZR k * IZR r)) as H1.
  { rewrite <- (Rabs_pos_eq (IZR d)) at 2 by lra. rewrite <- !Rabs_mult. rewrite <- Rabs_Ropp. f_equal. field. split; [assumption|lra]. }
  assert (Rabs (IZR l) * IZR d < IZR (2^53)) as H2.
  { rewrite <- abs_IZR, <- mult_IZR. apply IZR_lt. lia. }
  assert (0 < Rabs (IZR r) * IZR d) as H3 by (apply Rmult_lt_0_compat; lra).
  apply (Rmult_le_compat_r _ _ _ (Rlt_le _ _ H3)) in Er. rewrite H1 in Er.
  replace (Rabs (IZR l / IZR r) / IZR (2 ^ 53) * (Rabs (IZR r) * IZR d))
    with ((Rabs (IZR l / IZR r) * Rabs (IZR r)) * IZR d / IZR (2^53)) in Er
    by (field; apply Rgt_not_eq; apply (IZR_lt 0); reflexivity).
  rewrite Hq in Er.
  assert (Rabs (IZR l) * IZR d / IZR (2 ^ 53) < 1) as H4.
  { apply (Rmult_lt_reg_r (IZR (2^53))); [apply (IZR_lt 0); reflexivity|].
    unfold Rdiv. rewrite Rmult_assoc, Rinv_l by (apply Rgt_not_eq; apply (IZR_lt 0); reflexivity). lra. }
  lra.
Qed.

(** A divisor too large to be converted exactly is at least 2^53 in magnitude, and stays so. *)
Lemma big_divisor r : (2^53 < Z.abs r)%Z -> in_int64 r ->
  ((0 < r)%Z -> IZR (2^53) <= rnd64 (IZR r) <= IZR (2^64)) /\
  ((r < 0)%Z -> - IZR (2^64) <= rnd64 (IZR r) <= - IZR (2^53)).
Proof.
  intros H1 H2. unfold in_int64, min_int, max_int, two63 in H2.
  assert (forall z, z = (2^64)%Z \/ z = (2^53)%Z \/ z = (-2^64)%Z \/ z = (-2^53)%Z -> fmt64 (IZR z)) as F.
  { intros z [-> | [-> | [-> | ->]]].
    - change (IZR (2^64)) with (bpow radix2 64). apply generic_format_bpow. discriminate.
    - apply fmt_int. lia.
    - rewrite opp_IZR. apply generic_format_opp. change (IZR (2^64)) with (bpow radix2 64). apply generic_format_bpow. discriminate.
    - apply fmt_int. lia. }
  rewrite <- !opp_IZR.
  change (2^53)%Z with 9007199254740992%Z in *. change (2^64)%Z with 18446744073709551616%Z in *.
  split; intros H; split.
  - apply rnd_ge_fmt; [apply F; tauto|apply IZR_le; lia].
  - apply rnd_le_fmt; [apply F; tauto|apply IZR_le; lia].
  - apply rnd_ge_fmt; [apply F; tauto|apply IZR_le; lia].
  - apply rnd_le_fmt; [apply F; tauto|apply IZR_le; lia].
Qed.

Lemma fmt_small : fmt64 (/ IZR (2^64)).
Proof. change (/ IZR (2^64)) with (bpow radix2 (-64)). apply generic_format_bpow. discriminate. Qed.

Lemma rnd_opp x : rnd64 (- x) = - rnd64 x.
Proof. cbn [round_mode]. apply round_NE_opp. Qed.

Lemma Rdiv_opp_both a b : b <> 0 -> - a / - b = a / b.
Proof. intros. field. assumption. Qed.
Lemma Rdiv_opp_r a b : b <> 0 -> a / - b = - (a / b).
Proof. intros. field. assumption. Qed.

Lemma big_quot_pos l r B :
  (2^53 < r)%Z -> in_int64 r -> (0 < l <= B)%Z -> (B <= 2^53)%Z ->
  0 < rnd64 (IZR l / rnd64 (IZR r)) <= IZR B / IZR (2^53) /\ 0 < IZR l / IZR r <= IZR B / IZR (2^53).
Proof.
  intros Hr Hi Hl HB. destruct (big_divisor r) as (H1 & _); [lia|assumption|]. specialize (H1 ltac:(lia)).
  set (y := rnd64 (IZR r)) in *.
  assert (0 < IZR (2^53)) as P53 by (apply (IZR_lt 0); reflexivity).
  assert (0 < IZR (2^64)) as P64 by (apply (IZR_lt 0); reflexivity).
  assert (1 <= IZR l) as L1 by (apply (IZR_le 1); lia).
  assert (IZR l <= IZR B) as L2 by (apply IZR_le; lia).
  assert (IZR (2^53) <= IZR r) as R1 by (apply IZR_le; lia).
  assert (forall z, IZR (2^53) <= z -> 0 < IZR l / z <= IZR B / IZR (2 ^ 53)) as Q.
  { intros z Hz. split; [apply Rdiv_lt_0_compat; lra|].
    apply Rmult_le_compat; [lra| |assumption|apply Rinv_le; lra].
    left. apply Rinv_0_lt_compat. lra. }
  split; [|apply Q; assumption]. split.
  - apply Rlt_le_trans with (/ IZR (2^64)); [apply Rinv_0_lt_compat; assumption|].
    apply rnd_ge_fmt; [apply fmt_small|]. rewrite <- (Rmult_1_l (/ IZR (2^64))).
    apply Rmult_le_compat; [lra| |assumption|apply Rinv_le; lra].
    left. apply Rinv_0_lt_compat. assumption.
  - apply rnd_le_fmt; [apply fmt_pow53; lia|]. apply Q. lra.
Qed.

Lemma big_quot l r B :
  (2^53 < Z.abs r)%Z -> in_int64 r -> l <> 0%Z -> (Z.abs l <= B)%Z -> (B <= 2^53)%Z ->
  let x := rnd64 (IZR l / rnd64 (IZR r)) in
  (0 < x <= IZR B / IZR (2^53) /\ 0 < IZR l / IZR r <= IZR B / IZR (2^53)) \/
  (- (IZR B / IZR (2^53)) <= x < 0 /\ - (IZR B / IZR (2^53)) <= IZR l / IZR r < 0).
Proof.
  intros Hr Hi Hl0 Hl HB x. subst x.
  assert (IZR r <> 0) as Hr0 by (intros C; apply (eq_IZR _ 0) in C; lia).
  destruct (Z.eq_dec r min_int) as [->|Hm].
  - (* the only divisor whose opposite is not an int64 *)
    assert (rnd64 (IZR min_int) = IZR min_int) as E.
    { apply rnd_fmt. change min_int with (- 2^63)%Z. rewrite opp_IZR. apply generic_format_opp.
      change (IZR (2^63)) with (bpow radix2 63). apply generic_format_bpow. discriminate. }
    rewrite E.
    assert (forall k, (0 < k <= B)%Z -> 0 < rnd64 (IZR k / IZR two63) <= IZR B / IZR (2 ^ 53) /\ 0 < IZR k / IZR two63 <= IZR B / IZR (2 ^ 53)) as Q.
    { intros k Hk.
      assert (0 < IZR k / IZR two63 <= IZR B / IZR (2 ^ 53)) as Q1.
      { assert (0 < IZR k) by (apply (IZR_lt 0); lia). assert (IZR k <= IZR B) by (apply IZR_le; lia).
        split; [apply Rdiv_lt_0_compat; [assumption|apply (IZR_lt 0); reflexivity]|].
        apply Rmult_le_compat; [lra| |assumption|].
        - left. apply Rinv_0_lt_compat. apply (IZR_lt 0). reflexivity.
        - apply Rinv_le; [apply (IZR_lt 0); reflexivity|apply IZR_le; discriminate]. }
      split; [|exact Q1]. split.
      - apply Rlt_le_trans with (/ IZR (2^64)); [apply Rinv_0_lt_compat; apply (IZR_lt 0); reflexivity|].
        apply rnd_ge_fmt; [apply fmt_small|]. rewrite <- (Rmult_1_l (/ IZR (2^64))).
        apply Rmult_le_compat; [lra| |apply (IZR_le 1); lia|].
        + left. apply Rinv_0_lt_compat. apply (IZR_lt 0). reflexivity.
        + apply Rinv_le; [apply (IZR_lt 0); reflexivity|apply IZR_le; discriminate].
      - apply rnd_le_fmt; [apply fmt_pow53; lia|]. apply Q1. }
    change min_int with (- two63)%Z. rewrite opp_IZR.
    assert (IZR two63 <> 0) as N63 by (apply Rgt_not_eq; apply (IZR_lt 0); reflexivity).
    destruct (Z_lt_le_dec l 0).
    + left. specialize (Q (-l)%Z ltac:(lia)). rewrite opp_IZR in Q.
      rewrite <- (Rdiv_opp_both (- IZR l) (IZR two63)) in Q by assumption. rewrite Ropp_involutive in Q. exact Q.
    + right. specialize (Q l ltac:(lia)). rewrite Rdiv_opp_r by assumption. rewrite rnd_opp. lra.
  - assert (forall s t, (0 < t)%Z -> (2^53 < t)%Z -> in_int64 t -> (0 < s <= B)%Z ->
       0 < rnd64 (IZR s / rnd64 (IZR t)) <= IZR B / IZR (2^53) /\ 0 < IZR s / IZR t <= IZR B / IZR (2^53)) as Q.
    { intros. apply big_quot_pos; assumption. }
    assert (rnd64 (IZR r) <> 0) as Hy0.
    { destruct (big_divisor r Hr Hi) as (P1 & P2).
      assert (0 < IZR (2^53)) as P53 by (apply (IZR_lt 0); reflexivity).
      destruct (Z_lt_le_dec r 0); [specialize (P2 ltac:(lia)); lra|specialize (P1 ltac:(lia)); lra]. }
    assert (in_int64 (- r)) as Hi' by (unfold in_int64, min_int, max_int in *; lia).
    destruct (Z_lt_le_dec r 0); destruct (Z_lt_le_dec l 0).
    + left. specialize (Q (-l)%Z (-r)%Z ltac:(lia) ltac:(lia) Hi' ltac:(lia)).
      rewrite !opp_IZR, rnd_opp, !Rdiv_opp_both in Q by assumption. exact Q.
    + right. specialize (Q l (-r)%Z ltac:(lia) ltac:(lia) Hi' ltac:(lia)).
      rewrite !opp_IZR, rnd_opp, !Rdiv_opp_r, rnd_opp in Q by assumption. lra.
    + right. specialize (Q (-l)%Z r ltac:(lia) ltac:(lia) Hi ltac:(lia)).
      rewrite !opp_IZR in Q. unfold Rdiv in *. rewrite <- !Ropp_mult_distr_l, rnd_opp in Q. lra.
    + left. apply Q; lia || assumption.
Qed.

Lemma quot_abs_le l r : r <> 0%Z -> Rabs (IZR l / IZR r) <= Rabs (IZR l).
Proof.
  intros H. apply IZR_abs_ge1 in H. unfold Rdiv. rewrite Rabs_mult, Rabs_inv. rewrite <- (Rmult_1_r (Rabs (IZR l))) at 2.
  apply Rmult_le_compat_l; [apply Rabs_pos|]. rewrite <- Rinv_1. apply Rinv_le; lra.
Qed.

Lemma ceil_through_float l r : (Z.abs l < 2^53)%Z -> in_int64 r -> r <> 0%Z ->
  Zceil (rnd64 (IZR l / rnd64 (IZR r))) = Zceil (IZR l / IZR r).
Proof.
  intros Hl Hi Hr0. destruct (Z.eq_dec l 0) as [->|Hl0].
  { unfold Rdiv. rewrite !Rmult_0_l. rewrite (rnd_fmt 0); [reflexivity|]. apply (fmt_int 0). lia. }
  destruct (Z_le_gt_dec (Z.abs r) (2^53)) as [Hr|Hr].
  - rewrite (rnd_fmt (IZR r)) by (apply fmt_int; assumption).
    pose proof (quot_abs_le l r Hr0) as Hq. rewrite <- abs_IZR in Hq.
    assert (Rabs (IZR l / IZR r) <= IZR (2^53 - 1)) as Hq2 by (eapply Rle_trans; [exact Hq|apply IZR_le; lia]).
    apply Rabs_le_inv in Hq2. rewrite <- opp_IZR in Hq2.
    set (q := IZR l / IZR r) in *. set (c := Zceil q).
    assert (q <= IZR c) as C1 by apply Zceil_ub.
    assert (IZR c < q + 1) as C2 by (unfold c; apply Zceil_lb).
    assert (- (2^53) < c < 2^53)%Z as C3.
    { split.
      - apply lt_IZR. apply Rlt_le_trans with q; [|exact C1]. eapply Rlt_le_trans; [|apply Hq2]. apply IZR_lt. reflexivity.
      - assert (c <= 2^53 - 1)%Z by (unfold c; apply Zceil_glb; apply Hq2). lia. }
    apply Zceil_imp. split.
    + assert (IZR (c - 1) < q) as C4 by (rewrite minus_IZR; lra).
      destruct (rnd_ge_fmt (IZR (c-1)) q (fmt_int (c-1) ltac:(lia)) (Rlt_le _ _ C4)) as [H|H]; [exact H|].
      exfalso. apply (rnd_not_hit l r 1 (c - 1)); try lia; try assumption; fold q; replace (IZR (c-1) / 1) with (IZR (c-1)) by field; lra.
    + apply rnd_le_fmt; [apply fmt_int; lia|exact C1].
  - pose proof (big_quot l r (2^53 - 1) ltac:(lia) Hi Hl0 ltac:(lia) ltac:(lia)) as H. cbv zeta in H.
    assert (IZR (2^53 - 1) / IZR (2^53) < 1) as H1.
    { apply (Rmult_lt_reg_r (IZR (2^53))); [apply (IZR_lt 0); reflexivity|].
      unfold Rdiv. rewrite Rmult_assoc, Rinv_l by (apply Rgt_not_eq; apply (IZR_lt 0); reflexivity).
      rewrite Rmult_1_r, Rmult_1_l. apply IZR_lt. reflexivity. }
    destruct H as [[A1 A2]|[A1 A2]].
    + rewrite (Zceil_imp 1) by (cbn [Z.sub Z.add Z.opp Z.pos_sub]; change (IZR (1-1)) with 0; lra).
      symmetry. apply Zceil_imp. change (IZR (1-1)) with 0. lra.
    + rewrite (Zceil_imp 0) by (change (IZR (0-1)) with (-1); lra).
      symmetry. apply Zceil_imp. change (IZR (0-1)) with (-1). lra.
Qed.

(** Rounding half away from zero *)
Lemma half_away_imp x n :
  (0 <= x -> IZR n - /2 <= x < IZR n + /2) -> (x < 0 -> IZR n - /2 < x <= IZR n + /2) -> half_away x = n.
Proof.
  intros H1 H2. unfold half_away. destruct (Rlt_dec x 0) as [H|H].
  - specialize (H2 H). enough (Zfloor (- x + / 2) = (- n)%Z) by lia.
    apply Zfloor_imp. rewrite plus_IZR, opp_IZR. lra.
  - specialize (H1 ltac:(lra)). apply Zfloor_imp. rewrite plus_IZR. lra.
Qed.
Lemma half_away_spec x :
  (0 <= x -> IZR (half_away x) - /2 <= x < IZR (half_away x) + /2) /\
  (x < 0 -> IZR (half_away x) - /2 < x <= IZR (half_away x) + /2).
Proof.
  unfold half_away. split; intros H; destruct (Rlt_dec x 0); try lra.
  - pose proof (Zfloor_lb (x + /2)). pose proof (Zfloor_ub (x + /2)). lra.
  - rewrite opp_IZR. pose proof (Zfloor_lb (- x + /2)). pose proof (Zfloor_ub (- x + /2)). lra.
Qed.
Lemma nearest_away x : ZnearestA x = half_away x.
Proof.
  symmetry. unfold Znearest. set (n := Zfloor x).
  pose proof (Zfloor_lb x) as F1. pose proof (Zfloor_ub x) as F2. fold n in F1, F2.
  assert (x - IZR n <> 0 -> Zceil x = (n + 1)%Z) as Hc by (intros; apply Zceil_floor_neq; fold n; lra).
  destruct (Rcompare_spec (x - IZR n) (/2)) as [H|H|H].
  - apply half_away_imp; intros; split; try lra.
  - rewrite Hc by lra. destruct (Z.leb_spec 0 n) as [E|E].
    + apply (IZR_le 0) in E. apply half_away_imp; intros; rewrite ?plus_IZR; lra.
    + assert (IZR n <= -1) by (apply (IZR_le n (-1)); lia). apply half_away_imp; intros; lra.
  - rewrite Hc by lra. apply half_away_imp; intros; rewrite plus_IZR; split; try lra.
Qed.

Lemma half_through_float l r : (Z.abs l < 2^52)%Z -> in_int64 r -> r <> 0%Z ->
  half_away (rnd64 (IZR l / rnd64 (IZR r))) = half_away (IZR l / IZR r).
Proof.
  intros Hl Hi Hr0. destruct (Z.eq_dec l 0) as [->|Hl0].
  { unfold Rdiv. rewrite !Rmult_0_l. rewrite (rnd_fmt 0); [reflexivity|]. apply (fmt_int 0). lia. }
  destruct (Z_le_gt_dec (Z.abs r) (2^53)) as [Hr|Hr].
  - rewrite (rnd_fmt (IZR r)) by (apply fmt_int; assumption).
    pose proof (quot_abs_le l r Hr0) as Hq. rewrite <- abs_IZR in Hq.
    assert (Rabs (IZR l / IZR r) <= IZR (2^52 - 1)) as Hq2 by (eapply Rle_trans; [exact Hq|apply IZR_le; lia]).
    apply Rabs_le_inv in Hq2. rewrite <- opp_IZR in Hq2.
    set (q := IZR l / IZR r) in *. set (n := half_away q).
    destruct (half_away_spec q) as (S1 & S2). fold n in S1, S2.
    assert (- (2^52) < n < 2^52)%Z as Hn.
    { change (IZR (- (2^52 - 1))) with (IZR (-4503599627370495)) in Hq2.
      change (IZR (2^52 - 1)) with (IZR 4503599627370495) in Hq2.
      change (- 2^52)%Z with (-4503599627370496)%Z. change (2^52)%Z with 4503599627370496%Z.
      split; apply lt_IZR; destruct (Rlt_le_dec q 0) as [H|H]; [specialize (S2 H)|specialize (S1 H)|specialize (S2 H)|specialize (S1 H)]; lra. }
    assert (fmt64 (IZR (2 * n - 1) / 2)) as F1 by (apply fmt_half; change (2^52)%Z with 4503599627370496%Z in Hn; lia).
    assert (fmt64 (IZR (2 * n + 1) / 2)) as F2 by (apply fmt_half; change (2^52)%Z with 4503599627370496%Z in Hn; lia).
    assert (forall k, q <> IZR k / 2 -> rnd64 q <> IZR k / 2) as NH.
    { intros k Hk. apply (rnd_not_hit l r 2 k); try assumption.
      - lia.
      - change (2^53)%Z with (2 * 2^52)%Z. lia.
      - change (2^64)%Z with (2^11 * 2^53)%Z. lia. }
    pose proof (NH (2*n-1)%Z) as NH1. pose proof (NH (2*n+1)%Z) as NH2.
    rewrite plus_IZR, mult_IZR in F2, NH2. rewrite minus_IZR, mult_IZR in F1, NH1.
    assert (fmt64 0) as F0 by (apply (fmt_int 0); lia).
    apply half_away_imp; intros Hx.
    + destruct (Rlt_le_dec q 0) as [H|H].
      * pose proof (rnd_le_fmt q 0 F0 ltac:(lra)). specialize (S2 H).
        pose proof (rnd_ge_fmt _ q F1 ltac:(lra)). pose proof (rnd_le_fmt q _ F2 ltac:(lra)).
        specialize (NH1 ltac:(lra)).
        assert (0 <= n)%Z as N0. { enough (-1 < n)%Z by lia. apply lt_IZR. lra. }
        apply (IZR_le 0) in N0. lra.
      * specialize (S1 H). pose proof (rnd_ge_fmt _ q F1 ltac:(lra)). pose proof (rnd_le_fmt q _ F2 ltac:(lra)).
        specialize (NH2 ltac:(lra)). lra.
    + destruct (Rlt_le_dec q 0) as [H|H].
      * specialize (S2 H). pose proof (rnd_ge_fmt _ q F1 ltac:(lra)). pose proof (rnd_le_fmt q _ F2 ltac:(lra)).
        specialize (NH1 ltac:(lra)). lra.
      * pose proof (rnd_ge_fmt 0 q F0 H). lra.
  - pose proof (big_quot l r (2^52 - 1) ltac:(lia) Hi Hl0 ltac:(lia) ltac:(lia)) as H. cbv zeta in H.
    assert (IZR (2^52 - 1) / IZR (2^53) < /2) as H1.
    { apply (Rmult_lt_reg_r (IZR (2^53))); [apply (IZR_lt 0); reflexivity|].
      unfold Rdiv. rewrite Rmult_assoc, Rinv_l by (apply Rgt_not_eq; apply (IZR_lt 0); reflexivity).
      change (IZR (2^53)) with (IZR 9007199254740992). change (IZR (2^52-1)) with (IZR 4503599627370495). lra. }
    rewrite (half_away_imp _ 0) by lra. symmetry. apply half_away_imp; lra.
Qed.

Lemma in_int64_small z : (Z.abs z <= 2^53)%Z -> in_int64 z.
Proof. unfold in_int64, min_int, max_int, two63. change (2^53)%Z with 9007199254740992%Z. lia. Qed.

Lemma div_ceil_exact l r : (Z.abs l < 2^53)%Z -> in_int64 r -> r <> 0%Z -> div_ceil l r = Zceil (quotient l r).
Proof.
  intros Hl Hi Hr. destruct (float_quotient l r ltac:(lia) Hi Hr) as (H1 & H2).
  unfold div_ceil, math_ceil. rewrite int_of_nearby; [|exact H1|]; rewrite H2; change (round_mode mode_UP) with Zceil; rewrite (ceil_through_float l r Hl Hi Hr).
  - reflexivity.
  - apply in_int64_small. pose proof (quot_abs_le l r Hr) as Hq. rewrite <- abs_IZR in Hq.
    apply Rabs_le_inv in Hq. rewrite <- opp_IZR in Hq.
    pose proof (Zceil_glb _ _ (proj2 Hq)). 
    assert (- Z.abs l <= Zceil (IZR l / IZR r))%Z by (apply le_IZR; eapply Rle_trans; [apply Hq|apply Zceil_ub]). lia.
Qed.

Lemma div_round_exact l r : (Z.abs l < 2^52)%Z -> in_int64 r -> r <> 0%Z -> div_round l r = half_away (quotient l r).
Proof.
  intros Hl Hi Hr. destruct (float_quotient l r ltac:(lia) Hi Hr) as (H1 & H2).
  unfold div_round, math_round. rewrite int_of_nearby; [|exact H1|]; rewrite H2; change (round_mode mode_NA) with ZnearestA; rewrite nearest_away, (half_through_float l r Hl Hi Hr).
  - reflexivity.
  - apply in_int64_small. pose proof (quot_abs_le l r Hr) as Hq. rewrite <- abs_IZR in Hq.
    assert (Rabs (IZR l / IZR r) <= IZR (2^52 - 1)) as Hq2 by (eapply Rle_trans; [exact Hq|apply IZR_le; lia]).
    apply Rabs_le_inv in Hq2.
    destruct (half_away_spec (IZR l / IZR r)) as (S1 & S2). set (n := half_away (IZR l / IZR r)) in *.
    change (IZR (2^52-1)) with (IZR 4503599627370495) in Hq2. change (2^53)%Z with 9007199254740992%Z.
    enough (-9007199254740992 < n < 9007199254740992)%Z by lia.
    split; apply lt_IZR; destruct (Rlt_le_dec (IZR l / IZR r) 0) as [H|H]; [specialize (S2 H)|specialize (S1 H)|specialize (S2 H)|specialize (S1 H)]; lra.
Qed.

Lemma quot_exact l r : r <> 0%Z -> Z.quot l r = Ztrunc (quotient l r).
Proof.
  intros Hr. unfold quotient. symmetry.
  assert (forall a b, (0 <= a)%Z -> (0 < b)%Z -> Zfloor (IZR a / IZR b) = (a / b)%Z) as F by (intros; apply Zfloor_div; lia).
  assert (forall a b, (0 < b)%Z -> IZR a / IZR (-b) = IZR (-a) / IZR b) as Hneg.
  { intros a b Hb. rewrite !opp_IZR. field. apply Rgt_not_eq. apply (IZR_lt 0). assumption. }
  assert (forall a b, (0 < b)%Z -> Ztrunc (IZR a / IZR b) = Z.quot a b) as P.
  { intros a b Hb. assert (0 < IZR b) by (apply (IZR_lt 0); assumption).
    destruct (Z_lt_le_dec a 0).
    - rewrite Ztrunc_ceil.
      + unfold Zceil. replace (- (IZR a / IZR b)) with (IZR (-a) / IZR b) by (rewrite opp_IZR; field; lra).
        rewrite F by lia. rewrite <- (Z.opp_involutive a) at 2. rewrite Z.quot_opp_l by lia. f_equal. symmetry. apply Z.quot_div_nonneg; lia.
      + apply Rmult_le_reg_r with (IZR b); [assumption|]. unfold Rdiv. rewrite Rmult_assoc, Rinv_l, Rmult_0_l, Rmult_1_r by lra. apply (IZR_le a 0). lia.
    - rewrite Ztrunc_floor.
      + rewrite F by lia. symmetry. apply Z.quot_div_nonneg; lia.
      + apply Rmult_le_reg_r with (IZR b); [assumption|]. unfold Rdiv. rewrite Rmult_assoc, Rinv_l, Rmult_0_l, Rmult_1_r by lra. apply (IZR_le 0 a). lia. }
  destruct (Z_lt_le_dec r 0).
  - assert (exists b, r = (- b)%Z /\ (0 < b)%Z) as (b & -> & Hb) by (exists (-r)%Z; lia).
    rewrite Hneg by lia. rewrite P by lia. rewrite Z.quot_opp_r, Z.quot_opp_l by lia. reflexivity.
  - apply P. lia.
Qed.
