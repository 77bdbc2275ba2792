(** "random element not found" (C70). *)
From Verif Require Import Grammar PegText ProofBase SpecText SpecGrammar SpecErrors ErrTop ErrDice SpecFiles NumberText FileProofs BCDice Prop_parse Prop_errors.
Open Scope list_scope.
Open Scope Z_scope.

Lemma append_cancel (p a b : string) : (p ++ a = p ++ b)%string -> a = b.
Proof. induction p; cbn; [trivial|]. intros H. injection H as H. auto. Qed.
Lemma cut_first c a b a' b' : lacks c a -> lacks c a' -> (a ++ String c b = a' ++ String c b')%string -> b = b'.
Proof.
  revert a'. induction a as [|x a IH]; intros [|y a'] Ha Ha' E; cbn in E; injection E.
  - trivial.
  - intros _ <-. exfalso. apply Ha'. left. reflexivity.
  - intros _ ->. exfalso. apply Ha. left. reflexivity.
  - intros E' _. apply (IH a'); [|intros H; apply Ha'; right; exact H|exact E']. intros H. apply Ha. right. exact H.
Qed.
Lemma place_nonneg t k : let '(l, c, o) := place t k in 0 <= l /\ 0 <= c /\ 0 <= o.
Proof. unfold place. destruct k as [|k]; [lia|]. destruct (skipn (S k) t) as [|x l]; [lia|]. destruct (SpecErrors.newline x); lia. Qed.
Lemma place_text_lacks t k : exists x, place_text (place t k) = (x ++ ")")%string /\ lacks ")" x.
Proof.
  pose proof (place_nonneg t k) as H. destruct (place t k) as ((l, c), o). destruct H as (H1 & H2 & H3). exists (itoa l ++ ":" ++ itoa c ++ " (" ++ itoa o)%string. split.
  - unfold place_text. rewrite !app_assoc_str. reflexivity.
  - assert (forall v, 0 <= v -> lacks ")" (itoa v)) as Hd. { intros v Hv. apply digits_lacks; [unfold digit; vm_compute; intuition congruence|apply itoa_digits, Hv]. }
    rewrite !lacks_app. repeat split; try (apply Hd; assumption); intros K; cbn in K; repeat destruct K as [K|K]; try discriminate K; destruct K.
Qed.
Lemma cut_offset t t' k k' x x' : (place_text (place t k) ++ x = place_text (place t' k') ++ x')%string -> snd (place t k) = snd (place t' k').
Proof.
  pose proof (place_nonneg t k) as H. pose proof (place_nonneg t' k') as H'. destruct (place t k) as ((l, c), o), (place t' k') as ((l', c'), o'). destruct H as (H1 & H2 & H3), H' as (H1' & H2' & H3').
  cbn [snd place_text]. rewrite !app_assoc_str. intros E.
  assert (forall a v, ~ digit a -> 0 <= v -> lacks a (itoa v)) as Hd by (intros a v Ha Hv; apply digits_lacks; [exact Ha|apply itoa_digits, Hv]).
  assert (forall a b z, (itoa a ++ ":" ++ itoa b ++ " (" ++ z = (itoa a ++ ":" ++ itoa b ++ " ") ++ String "(" z)%string) as R by (intros a b z; rewrite !app_assoc_str; reflexivity).
  rewrite !R in E. assert (forall a b, 0 <= a -> 0 <= b -> lacks "(" (itoa a ++ ":" ++ itoa b ++ " ")%string) as L.
  { intros a b Ha Hb. rewrite !lacks_app. repeat split; try (apply Hd; [unfold digit; vm_compute; intuition congruence|assumption]); intros K; cbn in K; repeat destruct K as [K|K]; try discriminate K; destruct K. }
  apply cut_first in E; [|apply L; assumption|apply L; assumption].
  assert (forall a b x y, lacks ")" a -> lacks ")" b -> (a ++ String ")" x = b ++ String ")" y)%string -> a = b) as C.
  { clear. induction a as [|u a IH]; intros [|v b] x y Ha Hb E; cbn in E; injection E; [reflexivity| | |].
    - intros _ <-. exfalso. apply Hb. left. reflexivity.
    - intros _ ->. exfalso. apply Ha. left. reflexivity.
    - intros E' ->. f_equal. apply (IH b x y); [|intros K; apply Hb; right; exact K|exact E']. intros K. apply Ha. right. exact K. }
  apply C in E; [|apply Hd; [unfold digit; vm_compute; intuition congruence|assumption]..]. apply itoa_inj in E. exact E.
Qed.
(** C68: the message names the character: of all the places of the text only one can be meant. *)
Theorem C68_places F s k k' items items' : (k <= length (decode s))%nat -> (k' <= length (decode s))%nat ->
  parse_text F s = Err (no_match_error F (place (decode s) k) items) -> parse_text F s = Err (no_match_error F (place (decode s) k') items') -> k = k'.
Proof.
  intros H H' E E'. rewrite E in E'. injection E' as E'. unfold no_match_error in E'. apply append_cancel, cut_offset in E'. exact (places_distinct s k k' H H' E').
Qed.
Print Assumptions C68_places.
Example C68_places_example :
  parse_text "" "2B6x" = Err (no_match_error "" (place (decode "2B6x") 3) ["""+"""; """<"""; """<="""; """<>"""; """="""; """>"""; """>="""; "[0-9]"; "EOF"]%string).
Proof. vm_compute. reflexivity. Qed.
Lemma messages_differ F c t k items : no_dice_error F c <> no_match_error F (place t k) items.
Proof.
  unfold no_dice_error, no_match_error. intros E. apply append_cancel in E. destruct (place_text_lacks t k) as (x & Ex & Hx). rewrite Ex, app_assoc_str in E.
  change ("1:1 (0): rule " ++ ?z)%string with ("1:1 (0" ++ String ")" (": rule " ++ z))%string in E. change (")" ++ ?z)%string with (String ")" z) in E.
  apply cut_first in E; [clear - E; discriminate E| |exact Hx]. intros K. cbn in K. repeat destruct K as [K|K]; try discriminate K; destruct K.
Qed.
Lemma rule_named F c c' : no_dice_error F c = no_dice_error F c' -> c = c'.
Proof. unfold no_dice_error. intros E. apply append_cancel in E. destruct c, c'; [reflexivity|clear - E; discriminate E|clear - E; discriminate E|reflexivity]. Qed.

(** C70. If Parse says that a random element is missing, the text does begin with arithmetic without dice, followed by a
    comparison if the message names the rule of comparisons ... *)
Theorem C70_reason F s comparison : valid_utf8 s -> fits s -> parse_text F s = Err (no_dice_error F comparison) ->
  exists e t rest, sp_int e t /\ if comparison then exists op g u, sp_target op g u /\ decode s = t ++ u ++ rest else decode s = t ++ rest.
Proof.
  intros Hv Hf E. destruct (verdict_of F s Hv) as [v d n c Er E'|c E' _ Hu|d n j Er A X Ee E']; rewrite E in E'; [discriminate E'| |]; injection E' as E'.
  - apply rule_named in E' as <-. apply undiced_reason; assumption.
  - exfalso. exact (messages_differ _ _ _ _ _ E').
Qed.
Print Assumptions C70_reason.
(** ... and arithmetic (a comparison) without dice gets exactly that message, whether the text ends there or goes on with a
    character that can be no part of a roll. *)
Theorem C70_arithmetic F s e t rest : valid_utf8 s -> sp_int e t -> decode s = t ++ rest -> ends_here rest -> parse_text F s = Err (no_dice_error F false).
Proof. intros Hv. apply arithmetic_error, Hv. Qed.
Print Assumptions C70_arithmetic.
Theorem C70_comparison F s e op g t u rest : valid_utf8 s -> sp_int e t -> sp_target op g u -> decode s = t ++ u ++ rest -> ends_here rest -> parse_text F s = Err (no_dice_error F true).
Proof. intros Hv. apply comparison_error, Hv. Qed.
Print Assumptions C70_comparison.

(** "1+2" *)
Definition one_plus_two : SpecSyntax.iexpr := SpecSyntax.Bin SpecSyntax.Plus (SpecSyntax.Leaf 1) (SpecSyntax.Leaf 2).
Lemma spelled_one_plus_two : sp_int one_plus_two (decode "1+2").
Proof.
  assert (forall x, sp_prim sp_number (SpecSyntax.Leaf (gc_rune x - 48)) [x] \/ ~ is_digit x) as Hn.
  { intros x. destruct (Z_le_dec 48 (gc_rune x)) as [H|H]; [destruct (Z_le_dec (gc_rune x) 57) as [H'|H']|]; [left|right; unfold is_digit; lia..].
    apply sp_leaf. split; [discriminate|]. split; [repeat constructor; assumption|]. unfold decimal. cbn [fold_left]. unfold max_int, two63. lia. }
  replace (decode "1+2") with (decode "1" ++ decode "+" ++ decode "2") by (vm_compute; reflexivity). apply (sp_sum sp_number).
  - apply sp_add_mul, sp_mul_prim. destruct (Hn (hd (GoChar 0 EmptyString) (decode "1"))) as [H|H]; [exact H|exfalso; apply H; vm_compute; split; discriminate].
  - vm_compute. reflexivity.
  - apply sp_mul_prim. destruct (Hn (hd (GoChar 0 EmptyString) (decode "2"))) as [H|H]; [exact H|exfalso; apply H; vm_compute; split; discriminate].
Qed.
Example C70_followed : parse_text "input" "1+2 dice" = Err (no_dice_error "input" false).
Proof.
  apply (C70_arithmetic "input" "1+2 dice" one_plus_two (decode "1+2") (decode " dice")); [vm_compute; repeat constructor|exact spelled_one_plus_two|vm_compute; reflexivity|].
  vm_compute. intuition congruence.
Qed.
Example C70_compared : parse_text "" "1+2>1+2" = Err "1:1 (0): rule DRollCompCommand: random element not found".
Proof.
  apply (C70_comparison "" "1+2>1+2" one_plus_two ">" one_plus_two (decode "1+2") (decode ">1+2") []); [vm_compute; repeat constructor|exact spelled_one_plus_two| |vm_compute; reflexivity|exact I].
  replace (decode ">1+2") with (decode ">" ++ decode "1+2") by (vm_compute; reflexivity). constructor; [cbn; tauto|vm_compute; reflexivity|exact spelled_one_plus_two].
Qed.
(** A roll that is not finished: what precedes it is arithmetic. *)
Example C70_unfinished : parse_text "" "1+2D" = Err (no_dice_error "" false) /\ parse_text "" "2B6+1" <> Err (no_dice_error "" false).
Proof. split; [vm_compute; reflexivity|vm_compute; discriminate]. Qed.
