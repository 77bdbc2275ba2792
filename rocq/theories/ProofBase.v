(** Tactics and general lemmas. *)
From Coq Require Export Lia ZifyBool ZifyNat ZifyN.
From Verif Require Import GoBase.
Open Scope list_scope.
Open Scope Z_scope.
Ltac Zify.zify_post_hook ::= Z.div_mod_to_equations.

Lemma wrap64_range z : in_int64 (wrap64 z).
Proof. unfold in_int64, wrap64, min_int, max_int, two63, two64. lia. Qed.
Lemma wrap64_id z : in_int64 z -> wrap64 z = z.
Proof. unfold in_int64, wrap64, min_int, max_int, two63, two64. lia. Qed.
Lemma wrap64_mod z : wrap64 z mod two64 = z mod two64.
Proof. unfold wrap64. rewrite Zminus_mod, Zmod_mod, <- Zminus_mod. f_equal. lia. Qed.
Lemma wrap64_ext a b : a mod two64 = b mod two64 -> wrap64 a = wrap64 b.
Proof.
  intros H. unfold wrap64. f_equal.
  rewrite (Zplus_mod a), (Zplus_mod b), H. reflexivity.
Qed.
Lemma wrap64_add_l a b : wrap64 (wrap64 a + b) = wrap64 (a + b).
Proof. apply wrap64_ext. rewrite Zplus_mod, wrap64_mod, <- Zplus_mod. reflexivity. Qed.
Lemma wrap64_add_r a b : wrap64 (a + wrap64 b) = wrap64 (a + b).
Proof. apply wrap64_ext. rewrite Zplus_mod, wrap64_mod, <- Zplus_mod. reflexivity. Qed.
Lemma wrap64_sub_l a b : wrap64 (wrap64 a - b) = wrap64 (a - b).
Proof. apply wrap64_ext. rewrite Zminus_mod, wrap64_mod, <- Zminus_mod. reflexivity. Qed.
Lemma wrap64_sub_r a b : wrap64 (a - wrap64 b) = wrap64 (a - b).
Proof. apply wrap64_ext. rewrite Zminus_mod, wrap64_mod, <- Zminus_mod. reflexivity. Qed.
Lemma wrap64_mul_l a b : wrap64 (wrap64 a * b) = wrap64 (a * b).
Proof. apply wrap64_ext. rewrite Zmult_mod, wrap64_mod, <- Zmult_mod. reflexivity. Qed.
Lemma wrap64_mul_r a b : wrap64 (a * wrap64 b) = wrap64 (a * b).
Proof. apply wrap64_ext. rewrite Zmult_mod, wrap64_mod, <- Zmult_mod. reflexivity. Qed.
Lemma wrap64_opp a : wrap64 (- wrap64 a) = wrap64 (- a).
Proof. rewrite <- (Z.sub_0_l (wrap64 a)), wrap64_sub_r. reflexivity. Qed.
Lemma wrap64_wrap64 a : wrap64 (wrap64 a) = wrap64 a.
Proof. apply wrap64_id, wrap64_range. Qed.

(** wrap64 z is the only int64 congruent to z *)
Lemma wrap64_unique z v : in_int64 v -> v mod two64 = z mod two64 -> v = wrap64 z.
Proof. intros Hv H. rewrite <- (wrap64_id v Hv). apply wrap64_ext, H. Qed.

Lemma sum64_acc l : forall a, fold_left (fun acc v => wrap64 (acc + v)) l (wrap64 a) = wrap64 (a + fold_right Z.add 0 l).
Proof.
  induction l as [|x l IH]; intros a; cbn [fold_left fold_right].
  - rewrite Z.add_0_r. reflexivity.
  - rewrite wrap64_add_l, IH. f_equal. lia.
Qed.
Lemma sum64_spec l : sum64 l = wrap64 (fold_right Z.add 0 l).
Proof. unfold sum64. change 0 with (wrap64 0) at 1. rewrite sum64_acc. f_equal. Qed.

#[global] Arguments Z.add : simpl never.
#[global] Arguments Z.sub : simpl never.
#[global] Arguments Z.mul : simpl never.
#[global] Arguments Z.opp : simpl never.
#[global] Arguments Z.modulo : simpl never.
#[global] Arguments Z.div : simpl never.
#[global] Arguments wrap64 : simpl never.
#[global] Arguments Z.leb : simpl never.
#[global] Arguments Z.ltb : simpl never.
#[global] Arguments Z.eqb : simpl never.
#[global] Arguments Z.of_nat : simpl never.
#[global] Arguments Z.to_nat : simpl never.
#[global] Arguments Z.min : simpl never.
#[global] Arguments itoa : simpl never.
#[global] Arguments N.add : simpl never.

(** Prove a conjunction of closed computations, left to right (earlier conjuncts may instantiate evars of later ones). *)
Ltac vmc := vm_compute; reflexivity.
Ltac vconj := lazymatch goal with |- let _ := _ in _ => cbv zeta; vconj | |- _ /\ _ => split; [vmc | vconj] | _ => vmc end.
