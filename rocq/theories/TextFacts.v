(** The character classes and the trimming of Utf8.v, in the terms of SpecGrammar.v. *)
From Verif Require Import GoBase Utf8 ProofBase SpecSyntax SpecGrammar.
Open Scope list_scope.
Open Scope Z_scope.

Lemma small_lower r : small_letter r = to_lower r.
Proof. reflexivity. Qed.
Lemma in_list_iff r l : In r l <-> existsb (Z.eqb r) l = true.
Proof. rewrite existsb_exists. split; [intros H; exists r; split; [exact H|apply Z.eqb_refl]|intros (x & H1 & H2); apply Z.eqb_eq in H2 as ->; exact H1]. Qed.
Lemma is_Z_iff c : is_Z (gc_rune c) = true <-> separator_char c.
Proof. unfold separator_char. rewrite in_list_iff. unfold is_Z, in_range, separators. cbn [existsb]. lia. Qed.
Lemma is_Z_not c : is_Z (gc_rune c) = false <-> ~ separator_char c.
Proof. rewrite <- is_Z_iff. destruct (is_Z (gc_rune c)); split; congruence. Qed.
Lemma is_space_iff c : is_space (gc_rune c) = true <-> white_char c.
Proof. unfold white_char. rewrite in_list_iff. unfold is_space, in_range, white_spaces, separators. cbn [existsb app]. lia. Qed.
Lemma is_space_not c : is_space (gc_rune c) = false <-> ~ white_char c.
Proof. rewrite <- is_space_iff. destruct (is_space (gc_rune c)); split; congruence. Qed.

(** ** Trimming *)
Lemma trim_left_split l : exists z, l = z ++ trim_left l /\ Forall (fun c => is_space (gc_rune c) = true) z.
Proof.
  induction l as [|c l (z & E & Hz)]; [exists []; split; [reflexivity|constructor]|]. cbn [trim_left]. destruct (is_space (gc_rune c)) eqn:Ec.
  - exists (c :: z). split; [cbn [app]; f_equal; exact E|constructor; assumption].
  - exists []. split; [reflexivity|constructor].
Qed.
Lemma trim_left_head l c l' : trim_left l = c :: l' -> is_space (gc_rune c) = false.
Proof. induction l as [|d l IH]; [discriminate|]. cbn [trim_left]. destruct (is_space (gc_rune d)) eqn:E; [exact IH|]. intros [= <- <-]. exact E. Qed.
Lemma trim_split l : exists z1 z2, l = z1 ++ trim_space l ++ z2 /\ Forall (fun c => is_space (gc_rune c) = true) z1 /\ Forall (fun c => is_space (gc_rune c) = true) z2.
Proof.
  destruct (trim_left_split l) as (z1 & E1 & H1). destruct (trim_left_split (rev (trim_left l))) as (z2 & E2 & H2).
  exists z1, (rev z2). split; [|split; [exact H1|apply Forall_rev, H2]]. rewrite E1 at 1. f_equal. unfold trim_space.
  rewrite <- (rev_involutive (trim_left l)), E2 at 1. rewrite rev_app_distr. reflexivity.
Qed.
Lemma trim_last l l' c : trim_space l = l' ++ [c] -> is_space (gc_rune c) = false.
Proof. unfold trim_space. intros H. apply (f_equal (@rev _)) in H. rewrite rev_involutive, rev_app_distr in H. cbn in H. eapply trim_left_head; exact H. Qed.
Lemma trim_head l c l' : trim_space l = c :: l' -> is_space (gc_rune c) = false.
Proof.
  intros H. destruct (trim_left_split (rev (trim_left l))) as (z2 & E2 & H2). unfold trim_space in H.
  apply (trim_left_head l c (l' ++ rev z2)). rewrite <- (rev_involutive (trim_left l)), E2, rev_app_distr, H. reflexivity.
Qed.

Lemma trim_left_fix l : (forall c l', l = c :: l' -> is_space (gc_rune c) = false) -> trim_left l = l.
Proof. destruct l as [|c l]; [reflexivity|]. intros H. cbn [trim_left]. rewrite (H c l eq_refl). reflexivity. Qed.
Lemma trim_left_app w l : Forall (fun c => is_space (gc_rune c) = true) w -> trim_left (w ++ l) = trim_left l.
Proof. induction 1 as [|c w Hc _ IH]; [reflexivity|]. cbn [app trim_left]. rewrite Hc. exact IH. Qed.
Lemma trim_left_all w : Forall (fun c => is_space (gc_rune c) = true) w -> trim_left w = [].
Proof. intros H. rewrite <- (app_nil_r w), (trim_left_app _ _ H). reflexivity. Qed.
Lemma white_forall w : Forall white_char w <-> Forall (fun c => is_space (gc_rune c) = true) w.
Proof. split; apply Forall_impl; intros c; apply is_space_iff. Qed.
Lemma sep_forall w : Forall separator_char w <-> Forall (fun c => is_Z (gc_rune c) = true) w.
Proof. split; apply Forall_impl; intros c; apply is_Z_iff. Qed.
Lemma trimmed_iff t m : trimmed t m <-> m = trim_space t.
Proof.
  split.
  - intros (w1 & w2 & -> & H1 & H2 & H3 & H4). apply white_forall in H1, H2. unfold trim_space. rewrite (trim_left_app _ _ H1).
    destruct m as [|c m].
    + cbn [app]. rewrite (trim_left_all _ H2). reflexivity.
    + cbn [app]. rewrite (trim_left_fix (c :: m ++ w2)) by (intros d l [= <- <-]; apply is_space_not, (H3 c m eq_refl)).
      change (c :: m ++ w2) with ((c :: m) ++ w2). rewrite rev_app_distr, trim_left_app by (apply Forall_rev, H2).
      rewrite trim_left_fix; [symmetry; apply rev_involutive|]. intros d l E. apply is_space_not, (H4 (rev l) d).
      rewrite <- (rev_involutive (c :: m)), E. reflexivity.
  - intros ->. destruct (trim_split t) as (w1 & w2 & E & H1 & H2). exists w1, w2. split; [exact E|]. split; [apply white_forall, H1|]. split; [apply white_forall, H2|].
    split; [intros c l Hc; apply is_space_not; eapply trim_head; exact Hc|intros l c Hc; apply is_space_not; eapply trim_last; exact Hc].
Qed.
(** CHOICE items in the terms of the program *)
Lemma item_intro z t : Forall (fun c => is_Z (gc_rune c) = true) z -> t <> [] -> Forall item_char t ->
  match t with c :: _ => is_Z (gc_rune c) = false | [] => True end -> sp_item (raw_text (trim_space t)) (z ++ t).
Proof.
  intros H1 H2 H3 H4. apply item_; [apply sep_forall, H1|exact H2|exact H3| |apply trimmed_iff; reflexivity]. intros c l ->. apply is_Z_not, H4.
Qed.
Lemma item_inv s u : sp_item s u -> exists z t, u = z ++ t /\ s = raw_text (trim_space t) /\ Forall (fun c => is_Z (gc_rune c) = true) z /\ t <> [] /\
  Forall item_char t /\ match t with c :: _ => is_Z (gc_rune c) = false | [] => True end.
Proof.
  intros H. destruct H as [z t m H1 H2 H3 H4 H5]. apply trimmed_iff in H5 as ->. exists z, t. split; [reflexivity|]. split; [reflexivity|].
  split; [apply sep_forall, H1|]. split; [exact H2|]. split; [exact H3|]. destruct t as [|c t]; [exact I|]. apply is_Z_not, (H4 c t eq_refl).
Qed.
