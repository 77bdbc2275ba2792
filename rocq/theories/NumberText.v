(** Decimal representation of integers (fmt's %d) as text. *)
From Coq Require Import DecimalPos DecimalZ DecimalFacts DecimalString.
From Verif Require Import ProofBase Utf8 SpecText.
Open Scope list_scope.
Open Scope Z_scope.

Lemma las_app a b : list_ascii_of_string (a ++ b) = list_ascii_of_string a ++ list_ascii_of_string b.
Proof. induction a as [|c a IH]; [reflexivity|]. cbn. f_equal. exact IH. Qed.
Lemma length_append a b : String.length (a ++ b) = (String.length a + String.length b)%nat.
Proof. induction a as [|c a IH]; [reflexivity|]. cbn. f_equal. exact IH. Qed.

Notation uint_string := NilEmpty.string_of_uint.
Lemma uint_digits d : Forall digit (list_ascii_of_string (uint_string d)).
Proof. induction d; cbn [uint_string list_ascii_of_string]; constructor; try assumption; unfold digit; vm_compute; split; discriminate. Qed.
Definition horner (z : Z) (l : list ascii) : Z := fold_left (fun n a => 10 * n + (byte_val a - 48)) l z.
Lemma horner_acc d : forall p, horner (Zpos p) (list_ascii_of_string (uint_string d)) = Zpos (Pos.of_uint_acc d p).
Proof.
  induction d; intros p; cbn [uint_string list_ascii_of_string Pos.of_uint_acc]; unfold horner in *; cbn [fold_left]; try reflexivity.
  all: match goal with |- fold_left _ _ ?x = Zpos (Pos.of_uint_acc _ ?q) => replace x with (Zpos q); [apply IHd|] end; cbn [byte_val N_of_ascii]; vm_compute (byte_val _); lia.
Qed.
Lemma horner_uint d : horner 0 (list_ascii_of_string (uint_string d)) = Z.of_N (Pos.of_uint d).
Proof.
  induction d; cbn [uint_string list_ascii_of_string Pos.of_uint]; unfold horner in *; cbn [fold_left]; [reflexivity|exact IHd|..].
  all: match goal with |- fold_left _ _ ?x = Z.of_N (Npos (Pos.of_uint_acc _ ?q)) => replace x with (Zpos q) by (vm_compute; reflexivity); apply horner_acc end.
Qed.
Lemma itoa_pos p : itoa (Zpos p) = uint_string (Pos.to_uint p).
Proof. reflexivity. Qed.
Lemma itoa_neg p : itoa (Zneg p) = String "-" (itoa (Zpos p)).
Proof. reflexivity. Qed.
Lemma number_value_pos p : number_value (itoa (Zpos p)) = Zpos p.
Proof. unfold number_value. rewrite itoa_pos. fold (horner 0 (list_ascii_of_string (uint_string (Pos.to_uint p)))). rewrite horner_uint, Unsigned.of_to. reflexivity. Qed.
(** The text of a non-negative integer is a decimal number denoting it. *)
Lemma itoa_digits v : 0 <= v -> digits (itoa v).
Proof.
  intros H. split.
  - destruct v as [|p|p]; [discriminate| |lia]. intros E. pose proof (number_value_pos p) as K. rewrite E in K. discriminate K.
  - destruct v as [|p|p]; [|apply uint_digits|lia]. vm_compute. repeat constructor; discriminate.
Qed.
Lemma itoa_value v : 0 <= v -> number_value (itoa v) = v.
Proof. intros H. destruct v as [|p|p]; [reflexivity|apply number_value_pos|lia]. Qed.
Lemma itoa_minus v : v < 0 -> itoa v = String "-" (itoa (- v)).
Proof. intros H. destruct v; try lia. apply itoa_neg. Qed.
Lemma digits_not_minus s x : digits s -> s <> String "-" x.
Proof. intros (_ & H) ->. inversion H as [|? ? K _]. unfold digit in K. vm_compute in K. destruct K as (K & _). congruence. Qed.
Lemma itoa_inj a b : itoa a = itoa b -> a = b.
Proof.
  intros H. destruct (Z_lt_le_dec a 0) as [Ha|Ha], (Z_lt_le_dec b 0) as [Hb|Hb].
  - rewrite (itoa_minus a), (itoa_minus b) in H by assumption. injection H as H. assert (- a = - b); [|lia]. rewrite <- (itoa_value (- a)), <- (itoa_value (- b)) by lia. rewrite H. reflexivity.
  - rewrite (itoa_minus a) in H by assumption. exfalso. eapply digits_not_minus; [apply (itoa_digits b Hb)|symmetry; exact H].
  - rewrite (itoa_minus b) in H by assumption. exfalso. eapply digits_not_minus; [apply (itoa_digits a Ha)|exact H].
  - rewrite <- (itoa_value a), <- (itoa_value b) by assumption. rewrite H. reflexivity.
Qed.
Lemma digits_ascii s : Forall digit (list_ascii_of_string s) -> ascii_text s.
Proof. unfold ascii_text, digit. apply Forall_impl. intros; lia. Qed.
Lemma ascii_app a b : ascii_text a -> ascii_text b -> ascii_text (a ++ b).
Proof. unfold ascii_text. rewrite las_app. intros. apply Forall_app. split; assumption. Qed.

(** A Go int has at most 64 digits in decimal (in fact 19). *)
Lemma double_digits d : (Decimal.nb_digits (Decimal.Little.double d) <= S (Decimal.nb_digits d))%nat /\ (Decimal.nb_digits (Decimal.Little.succ_double d) <= S (Decimal.nb_digits d))%nat.
Proof. induction d; cbn [Decimal.Little.double Decimal.Little.succ_double Decimal.nb_digits]; try lia; split; destruct IHd; lia. Qed.
Lemma pos_digits p : (Decimal.nb_digits (Pos.to_little_uint p) <= Pos.size_nat p)%nat.
Proof.
  induction p as [p IH|p IH|]; cbn [Pos.to_little_uint Pos.size_nat]; [| |reflexivity].
  - destruct (double_digits (Pos.to_little_uint p)). lia.
  - destruct (double_digits (Pos.to_little_uint p)). lia.
Qed.
Lemma uint_length d : String.length (uint_string d) = Decimal.nb_digits d.
Proof. induction d; cbn; congruence. Qed.
Lemma size_bound p n : Zpos p < 2 ^ Z.of_nat n -> (Pos.size_nat p <= n)%nat.
Proof.
  revert p. induction n as [|n IH]; intros p H.
  - change (2 ^ Z.of_nat 0) with 1 in H. lia.
  - rewrite Nat2Z.inj_succ, Z.pow_succ_r in H by lia. destruct p as [p|p|]; cbn [Pos.size_nat]; [| |lia].
    + assert (Pos.size_nat p <= n)%nat by (apply IH; lia). lia.
    + assert (Pos.size_nat p <= n)%nat by (apply IH; lia). lia.
Qed.
Lemma itoa_length v : in_int64 v -> (String.length (itoa v) <= 65)%nat.
Proof.
  unfold in_int64, min_int, max_int, two63. intros H.
  assert (forall p, Zpos p < 2 ^ Z.of_nat 64 -> (String.length (itoa (Zpos p)) <= 64)%nat) as K.
  { intros p Hp. rewrite itoa_pos, uint_length. unfold Pos.to_uint. rewrite nb_digits_rev. apply size_bound in Hp. pose proof (pos_digits p). lia. }
  destruct v as [|p|p].
  - vm_compute. lia.
  - assert (Zpos p < 2 ^ Z.of_nat 64) as Hp by (change (2 ^ Z.of_nat 64) with 18446744073709551616; lia). specialize (K p Hp). lia.
  - assert (Zpos p < 2 ^ Z.of_nat 64) as Hp by (change (2 ^ Z.of_nat 64) with 18446744073709551616; lia). rewrite itoa_neg. cbn [String.length]. specialize (K p Hp). lia.
Qed.
