(** float64 arithmetic used by pkg/core/evaluator/eval_infix_expression.go:128-139,
    on top of Flocq's formalisation of IEEE-754 binary64. *)
From Flocq Require Import Core BinarySingleNaN.
From Verif Require Import GoBase.

Definition prec64 : Z := 53.
Definition emax64 : Z := 1024.
Lemma prec64_gt_0 : FLX.Prec_gt_0 prec64.
Proof. reflexivity. Qed.
Lemma prec64_lt_emax : Prec_lt_emax prec64 emax64.
Proof. reflexivity. Qed.
#[global] Existing Instance prec64_gt_0.
#[global] Existing Instance prec64_lt_emax.

Definition float64 := binary_float prec64 emax64.

(** Conversion [float64(i)] of an int: rounding to nearest even. *)
Definition float64_of_int (z : Z) : float64 :=
  binary_normalize prec64 emax64 prec64_gt_0 prec64_lt_emax mode_NE z 0 false.

(** Go [x / y] on float64. *)
Definition float64_div (x y : float64) : float64 := Bdiv mode_NE x y.

(** [math.Ceil], [math.Round] (round half away from zero). *)
Definition math_ceil (x : float64) : float64 := Bnearbyint mode_UP x.
Definition math_round (x : float64) : float64 := Bnearbyint mode_NA x.

(** Conversion [int(f)]: truncation; out of range or NaN is implementation-defined in Go; the
    amd64 instruction CVTTSD2SQ yields the minimum integer, which is what is modelled. *)
Definition int_of_float64 (f : float64) : Z :=
  match f with
  | B754_zero _ => 0
  | B754_finite _ _ _ _ =>
      let t := Btrunc f in if in_int64b t then t else min_int
  | _ => min_int
  end.

(** eval_infix_expression.go:131-132: [int(math.Round(float64(l) / float64(r)))] *)
Definition div_round (l r : Z) : Z :=
  int_of_float64 (math_round (float64_div (float64_of_int l) (float64_of_int r))).
(** eval_infix_expression.go:137-138: [int(math.Ceil(float64(l) / float64(r)))] *)
Definition div_ceil (l r : Z) : Z :=
  int_of_float64 (math_ceil (float64_div (float64_of_int l) (float64_of_int r))).
