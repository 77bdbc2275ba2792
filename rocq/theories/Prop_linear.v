(** Property C81: an upper bound of the cost of parsing, the counterpart of the lower bound of C45. *)
From Coq Require Import NArith Nnat PeanoNat.
From Verif Require Import Grammar ProofBase SpecText SpecSyntax SpecNesting DecodeProofs PegProofs PegTotal ParseSound CostUpper CostLevel CostRules NumberText CostProofs Prop_parse Prop_cost.
Open Scope list_scope.
Open Scope Z_scope.

Lemma nesting_ge s : forall d, (d <= nesting_from d s)%nat.
Proof.
  induction s as [|a s IH]; intros d; [cbn; lia|]. pose proof (IH d). pose proof (IH (S d)).
  destruct a as [[] [] [] [] [] [] [] []]; cbn [nesting_from]; lia.
Qed.
Lemma nesting_step a s d : nesting_from d (String a s) =
  Nat.max d (nesting_from (if opener (byte_val a) then S d else if closer (byte_val a) then pred d else d) s).
Proof.
  pose proof (nesting_ge s d). pose proof (nesting_ge s (S d)).
  destruct a as [[] [] [] [] [] [] [] []]; cbn [nesting_from];
    match goal with |- context [opener ?b] => let x := eval vm_compute in (opener b) in change (opener b) with x; let y := eval vm_compute in (closer b) in change (closer b) with y end; cbn iota; lia.
Qed.
Lemma high_flat b : 128 <= b -> opener b = false /\ closer b = false.
Proof. intros H. unfold opener, closer. split; repeat match goal with |- context [?x =? ?y] => destruct (Z.eqb_spec x y); [lia|] end; reflexivity. Qed.
Lemma nesting_high r s d : Forall (fun b => 128 <= b) (bytes r) -> nesting_from d (r ++ s) = nesting_from d s.
Proof.
  induction r as [|a r IH]; intros H; [reflexivity|]. inversion H as [|b t H1 H2]. subst. cbn [append]. rewrite nesting_step.
  destruct (high_flat _ H1) as [-> ->]. rewrite IH by exact H2. pose proof (nesting_ge s d). lia.
Qed.
Lemma deepest_nesting s : forall d, deepest d (decode s) = nesting_from d s.
Proof.
  induction s as [|s c s' E IH] using decode_ind; intros d; [reflexivity|].
  rewrite decode_first, E. cbn [deepest]. rewrite IH. pose proof (first_raw _ _ _ E) as ->.
  assert (decoded c) as Hc by (exists (gc_raw c ++ s')%string, s'; exact E). destruct (decoded_bytes c Hc) as [[Hb _]|[Hr Hb]].
  - destruct (gc_raw c) as [|a [|a' r]]; [discriminate Hb| |discriminate Hb]. unfold bytes in Hb. cbn [list_ascii_of_string map] in Hb. injection Hb as <-.
    cbn [append]. rewrite nesting_step. reflexivity.
  - rewrite (nesting_high _ _ _ Hb). destruct (high_flat _ Hr) as [-> ->]. pose proof (nesting_ge s' d). lia.
Qed.
Lemma p3_pow d : p3 d = (3 ^ N.of_nat d)%N.
Proof. induction d as [|d IH]; [reflexivity|]. rewrite p3_S, IH, Nnat.Nat2N.inj_succ, N.pow_succ_r'. reflexivity. Qed.

(** C81: on every input the parser finishes, having tried at most 3311 · (length + 1) · 3^depth expressions, where depth
    is the depth of nesting of the brackets of the input. *)
Theorem C81_work input :
  exists k, expr_cnt rules (parse_fuel input) Command input = Some k /\
    (k <= 3311 * N.of_nat (String.length input + 1) * 3 ^ N.of_nat (nesting input))%N.
Proof.
  pose proof (parse_enough input) as Hf. unfold expr_cnt, parse_val, parse in *. set (s0 := arrive _) in *.
  assert (ps_rest s0 = decode input) as Hr by apply arrive_rest.
  pose proof (command_top (parse_fuel input) s0) as Ht. rewrite Hr in Ht. specialize (Ht (decode_plain input)). unfold wq in Ht.
  destruct (pexpr rules (parse_fuel input) (rules Command) s0) as [[[r s'] k]|] eqn:E; [|exfalso; apply Hf; reflexivity]. exists k. split; [reflexivity|].
  assert (calm r) as Hc by (intros m ->; exact Ht).
  pose proof (command_cost _ _ _ _ (refine _ _ _ _ _ _ E Hc)) as H. rewrite Hr in H.
  pose proof (w_deepest (decode input) 0) as Hw. rewrite deepest_nesting in Hw. fold (nesting input) in Hw. rewrite p3_pow in Hw. fold (V (decode input)) in Hw.
  pose proof (decode_length input) as Hl. unfold len in H.
  set (P := (3 ^ N.of_nat (nesting input))%N) in *. assert (1 <= P)%N as HP by (unfold P; pose proof (N.pow_nonzero 3 (N.of_nat (nesting input))); lia).
  set (n := N.of_nat (String.length input + 1)). assert (N.of_nat (length (decode input)) + 1 <= n)%N as Hn by (unfold n; lia).
  assert (V (decode input) <= n * P)%N as HV by (etransitivity; [exact Hw|]; apply N.mul_le_mono_r; lia). nia.
Qed.
Print Assumptions C81_work.
(** C81: hence, for inputs whose brackets are nested at most d deep, the work is linear in the length. *)
Theorem C81_linear d : exists c, forall input, (nesting input <= d)%nat ->
  exists k, expr_cnt rules (parse_fuel input) Command input = Some k /\ (k <= c * N.of_nat (String.length input + 1))%N.
Proof.
  exists (3311 * 3 ^ N.of_nat d)%N. intros input H. destruct (C81_work input) as (k & Hk & Hb). exists k. split; [exact Hk|].
  assert (3 ^ N.of_nat (nesting input) <= 3 ^ N.of_nat d)%N by (apply N.pow_le_mono_r; lia). nia.
Qed.
Print Assumptions C81_linear.
Lemma nested_nesting n : forall d t, nesting_from d (nested n ++ t) = Nat.max (d + n) (nesting_from d t).
Proof.
  induction n as [|n IH]; intros d t; [cbn [nested append nesting_from]; pose proof (nesting_ge t d); lia|].
  cbn [nested]. rewrite !ParseText.append_assoc. cbn [append]. cbn [nesting_from]. rewrite IH. cbn [append nesting_from pred].
  pose proof (nesting_ge t d). lia.
Qed.
Lemma nested_depth n : nesting (nested_input n) = S n.
Proof. unfold nesting, nested_input. cbn [append nesting_from]. rewrite nested_nesting. cbn [append nesting_from pred]. lia. Qed.
(** C81: together with C45, the growth with the depth is exponential, with a base between 2 and 3: n nested divisions
    have depth n + 1, and the number of expressions tried on them is between 2^n and 3311 · (4n+5) · 3^(n+1). *)
Theorem C81_exponential_in_depth n :
  nesting (nested_input n) = S n /\
  exists k, expr_cnt rules (parse_fuel (nested_input n)) Command (nested_input n) = Some k /\
    (2 ^ N.of_nat n <= k <= 3311 * N.of_nat (4 * n + 5) * 3 ^ N.of_nat (S n))%N.
Proof.
  split; [apply nested_depth|]. destruct (C45_exponential n) as (Hl & k & Hk & Hb). exists k. split; [exact Hk|]. split; [exact Hb|].
  destruct (C81_work (nested_input n)) as (k' & Hk' & Hb'). rewrite Hk in Hk'. injection Hk' as <-. rewrite nested_depth, Hl in Hb'.
  replace (4 * n + 5)%nat with (4 * n + 4 + 1)%nat by lia. exact Hb'.
Qed.
Print Assumptions C81_exponential_in_depth.
(** For instance, sums of n rolls "2D6+2D6+...", which have no brackets: 80 more expressions for each summand. *)
Definition long_sum (n : nat) : string := String.concat "+" (repeat "2D6"%string n).
Example C81_example : nesting (long_sum 10) = 0%nat /\ String.length (long_sum 10) = 39%nat /\
  expr_cnt rules (parse_fuel (long_sum 10)) Command (long_sum 10) = Some 972%N /\
  expr_cnt rules (parse_fuel (long_sum 20)) Command (long_sum 20) = Some 1772%N /\
  expr_cnt rules (parse_fuel (long_sum 40)) Command (long_sum 40) = Some 3372%N /\
  nesting "S(2+1)D6+[1...(3)]D10>=7#x" = 2%nat /\
  nesting "((((1))))D6" = 4%nat /\ expr_cnt rules (parse_fuel "((((1))))D6") Command "((((1))))D6" = Some 1724%N.
Proof. vconj. Qed.
