(** Evaluation of integer expressions. *)
From Coq Require Import Reals.
From Flocq Require Import Core.
From Verif Require Import ProofBase Float FloatProofs Ast Eval SpecSyntax SpecArith Comp CompProofs Command.
Open Scope list_scope.
Open Scope Z_scope.

(** What the evaluator computes for one operator *)
Definition mach_op (op : arith) (x y : Z) : outcome Z :=
  match op with
  | Plus => Ok (wrap64 (x + y))
  | Minus => Ok (wrap64 (x - y))
  | Times => Ok (wrap64 (x * y))
  | Over m =>
      if y =? 0 then Err (itoa x ++ " divided by zero")%string
      else Ok (match m with RoundDown => wrap64 (Z.quot x y) | RoundHalf => div_round x y | RoundUp => div_ceil x y end)
  end.
Fixpoint mach (e : iexpr) : outcome Z :=
  match e with
  | Leaf v => Ok v
  | Neg e => x <~ mach e ;; Ok (wrap64 (- x))
  | Bin op a b => x <~ mach a ;; y <~ mach b ;; mach_op op x y
  end.
Definition oint (o : outcome Z) : comp obj := clift (v <~ o ;; Ok (OInt v)).

Lemma itree_not_null e : is_null (itree e) = false.
Proof. destruct e; reflexivity. Qed.
Lemma itree_not_nil e : is_nil (itree e) = false.
Proof. destruct e; reflexivity. Qed.

Lemma eval_arith_op op a b x y :
  a = CRet (OInt x) -> b = CRet (OInt y) -> eval_infix (arith_op op) (Some a) (Some b) = oint (mach_op op x y).
Proof.
  intros -> ->. unfold eval_infix. cbn [eval_operands cbind]. destruct op as [| | |m]; try reflexivity.
  cbn [arith_op mach_op]. unfold eval_int_divide. destruct (y =? 0); [reflexivity|]. destruct m; reflexivity.
Qed.

Lemma eval_itree mr e : eval mr (itree e) = oint (mach e).
Proof.
  induction e as [v|e IH|op a IHa b IHb]; [reflexivity| |].
  - cbn [itree tree mach]. change (tree NInt e) with (itree e).
    cbn [eval]. rewrite (itree_not_null e), IH. destruct (mach e); reflexivity.
  - cbn [itree tree mach]. change (tree NInt a) with (itree a). change (tree NInt b) with (itree b).
    cbn [eval]. rewrite (itree_not_null a), (itree_not_null b), IHa, IHb.
    destruct (mach a) as [x|?|?]; [|reflexivity|reflexivity].
    destruct (mach b) as [y|?|?]; [|reflexivity|reflexivity].
    apply eval_arith_op; reflexivity.
Qed.

Lemma int_of_float64_range f : in_int64 (int_of_float64 f).
Proof.
  unfold in_int64, int_of_float64, in_int64b.
  destruct f; cbv zeta; try (unfold min_int, max_int, two63; lia).
  match goal with |- context [(min_int <=? ?t) && _] => destruct ((min_int <=? t) && (t <=? max_int)) eqn:E end;
    [lia|unfold min_int, max_int, two63; lia].
Qed.

Lemma mach_op_range op x y v : mach_op op x y = Ok v -> in_int64 v.
Proof.
  destruct op as [| | |m]; cbn [mach_op]; try (intros [= <-]; apply wrap64_range).
  destruct (y =? 0); [discriminate|]. intros [= <-].
  destruct m; [apply wrap64_range|apply int_of_float64_range|apply int_of_float64_range].
Qed.
Lemma mach_range e v : iok e -> mach e = Ok v -> in_int64 v.
Proof.
  revert v. induction e as [w|e IH|op a IHa b IHb]; intros v Hok H; cbn [mach] in H.
  - injection H as <-. exact Hok.
  - destruct (mach e) as [x|?|?]; try discriminate. injection H as <-. apply wrap64_range.
  - destruct (mach a) as [x|?|?]; try discriminate. destruct (mach b) as [y|?|?]; try discriminate.
    exact (mach_op_range _ _ _ _ H).
Qed.
Lemma mach_total e : (exists v, mach e = Ok v) \/ (exists l, mach e = Err (itoa l ++ " divided by zero")%string).
Proof.
  induction e as [w|e IH|op a IHa b IHb]; cbn [mach].
  - left. eexists. reflexivity.
  - destruct IH as [(v & ->)|(l & ->)]; [left|right]; eexists; reflexivity.
  - destruct IHa as [(x & ->)|(l & ->)]; [|right; eexists; reflexivity].
    destruct IHb as [(y & ->)|(l & ->)]; [|right; eexists; reflexivity].
    cbn [obind]. destruct op as [| | |m]; cbn [mach_op]; try (left; eexists; reflexivity).
    destruct (y =? 0); [right|left]; eexists; reflexivity.
Qed.

(** ** agreement with mathematics *)
Lemma mach_op_math op x y :
  in_int64 x -> in_int64 y -> dividend_ok op x ->
  match math_op op x y with
  | Some v => in_int64 v -> mach_op op x y = Ok v
  | None => mach_op op x y = Err (itoa x ++ " divided by zero")%string
  end.
Proof.
  intros Hx Hy Hd. destruct op as [| | |m]; cbn [math_op mach_op]; try (intros Hv; rewrite wrap64_id by assumption; reflexivity).
  destruct (y =? 0) eqn:E; [reflexivity|]. assert (y <> 0) as Hy0 by lia. intros Hv. f_equal.
  destruct m; cbn [divided dividend_ok] in *.
  - rewrite <- quot_exact by assumption. rewrite <- quot_exact in Hv by assumption. apply wrap64_id. assumption.
  - apply div_round_exact; assumption.
  - apply div_ceil_exact; assumption.
Qed.

Lemma mach_math e : ordinary e ->
  match math_value e with
  | Some v => mach e = Ok v /\ in_int64 v
  | None => exists l, mach e = Err (itoa l ++ " divided by zero")%string
  end.
Proof.
  induction e as [w|e IH|op a IHa b IHb]; intros (Hv & Hsub); unfold value_in in Hv.
  - cbn in *. split; [reflexivity|assumption].
  - specialize (IH Hsub). cbn [math_value mach] in *. destruct (math_value e) as [x|].
    + destruct IH as (-> & _). cbn [obind]. rewrite wrap64_id by assumption. split; [reflexivity|assumption].
    + destruct IH as (l & ->). exists l. reflexivity.
  - destruct Hsub as (Ha & Hb & Hd). specialize (IHa Ha). specialize (IHb Hb). unfold value_in in Hd.
    cbn [math_value mach] in *. destruct (math_value a) as [x|].
    + destruct IHa as (-> & Hx). cbn [obind]. destruct (math_value b) as [y|].
      * destruct IHb as (-> & Hy). cbn [obind]. pose proof (mach_op_math op x y Hx Hy Hd) as H.
        destruct (math_op op x y) as [v|]; [split; [apply H; assumption|assumption]|]. exists x. exact H.
      * destruct IHb as (l & ->). exists l. reflexivity.
    + destruct IHa as (l & ->). exists l. reflexivity.
Qed.

Lemma mach_ring e : iok e -> no_division e ->
  exists v z, mach e = Ok v /\ math_value e = Some z /\ in_int64 v /\ v mod two64 = z mod two64.
Proof.
  induction e as [w|e IH|op a IHa b IHb]; intros Hok Hn.
  - exists w, w. repeat split; try reflexivity; apply Hok.
  - destruct (IH Hok Hn) as (v & z & H1 & H2 & H3 & H4). exists (wrap64 (- v)), (- z).
    cbn [mach math_value]. rewrite H1, H2. split; [reflexivity|]. split; [reflexivity|].
    split; [apply wrap64_range|]. rewrite wrap64_mod. rewrite <- (Z.sub_0_l v), <- (Z.sub_0_l z), Zminus_mod, H4, <- Zminus_mod. reflexivity.
  - destruct Hok as (Ha & Hb).
    assert (no_division a /\ no_division b) as (Na & Nb) by (destruct op; [exact Hn|exact Hn|exact Hn|destruct Hn]).
    destruct (IHa Ha Na) as (x & zx & H1 & H2 & H3 & H4). destruct (IHb Hb Nb) as (y & zy & K1 & K2 & K3 & K4).
    cbn [mach math_value]. rewrite H1, H2, K1, K2. cbn [obind].
    destruct op as [| | |m]; cbn [mach_op math_op]; [..|destruct Hn].
    all: eexists; eexists; split; [reflexivity|]; split; [reflexivity|]; split; [apply wrap64_range|]; rewrite wrap64_mod.
    + rewrite Zplus_mod, H4, K4, <- Zplus_mod. reflexivity.
    + rewrite Zminus_mod, H4, K4, <- Zminus_mod. reflexivity.
    + rewrite Zmult_mod, H4, K4, <- Zmult_mod. reflexivity.
Qed.

(** ** division by zero *)
Lemma mach_part_err p e m : part p e -> mach p = Err m -> exists m', mach e = Err m'.
Proof.
  intros Hp Hm. induction Hp as [|e Hp IH|op a b Hp IH|op a b Hp IH]; cbn [mach].
  - exists m. exact Hm.
  - destruct IH as (m' & ->). eexists. reflexivity.
  - destruct IH as (m' & ->). eexists. reflexivity.
  - destruct IH as (m' & ->). destruct (mach_total a) as [(x & ->)|(l & ->)]; cbn [obind]; eexists; reflexivity.
Qed.
Lemma mach_div_zero m a b e : part (Bin (Over m) a b) e -> mach b = Ok 0 -> exists l, mach e = Err (itoa l ++ " divided by zero")%string.
Proof.
  intros Hp Hb. destruct (mach_total e) as [(v & E)|E]; [exfalso|assumption].
  destruct (mach_total a) as [(x & Ea)|(l & Ea)].
  - destruct (mach_part_err _ _ (itoa x ++ " divided by zero")%string Hp) as (m' & Hm).
    + cbn [mach]. rewrite Ea, Hb. reflexivity.
    + rewrite Hm in E. discriminate.
  - destruct (mach_part_err _ _ (itoa l ++ " divided by zero")%string Hp) as (m' & Hm).
    + cbn [mach]. rewrite Ea. reflexivity.
    + rewrite Hm in E. discriminate.
Qed.
Lemma mach_err_div_zero e msg : mach e = Err msg -> exists m a b, part (Bin (Over m) a b) e /\ mach b = Ok 0.
Proof.
  revert msg. induction e as [w|e IH|op a IHa b IHb]; intros msg H; cbn [mach] in H; [discriminate| |].
  - destruct (mach e) as [x|m'|p] eqn:E; try discriminate. destruct (IH _ eq_refl) as (m & a & b & Hp & Hz).
    exists m, a, b. split; [constructor; assumption|assumption].
  - destruct (mach a) as [x|m'|p] eqn:Ea; try discriminate.
    + destruct (mach b) as [y|m'|p] eqn:Eb; try discriminate.
      * cbn [obind] in H. destruct op as [| | |m]; try discriminate. cbn [mach_op] in H.
        destruct (y =? 0) eqn:E; [|discriminate]. exists m, a, b. split; [constructor|]. rewrite Eb. f_equal. lia.
      * destruct (IHb _ eq_refl) as (m & c & d & Hp & Hz). exists m, c, d. split; [constructor 4; assumption|assumption].
    + destruct (IHa _ eq_refl) as (m & c & d & Hp & Hz). exists m, c, d. split; [constructor 3; assumption|assumption].
Qed.
