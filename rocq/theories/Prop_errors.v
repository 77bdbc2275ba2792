(** The texts of parser.Parse's errors (C68, C69). *)
From Verif Require Import Grammar PegText ProofBase SpecText SpecGrammar SpecErrors ErrInv ErrTwo ErrErase ErrTop ParseSound BCDice BCDiceProofs.
Open Scope list_scope.
Open Scope Z_scope.

Lemma no_errs_map (l : list (perr rule)) : map e_text l = [] -> l = [].
Proof. destruct l; [reflexivity|discriminate]. Qed.
Lemma rstack_of s d n : valid (decode s) -> run_of (parse_fuel s) s = Some (PFail, d, n) -> d_rstack d = [Command].
Proof. intros Hv E. destruct (run_cases s Hv) as (r & d' & n' & Er & H). rewrite E in Er. injection Er as <- <- <-. apply H. Qed.
Lemma parse_ok_same F s n : parse_text F s = Ok n -> parse_command s = Ok n.
Proof. intros H. pose proof (parse_text_command F s) as P. rewrite H in P. destruct (parse_command s); [rewrite P; reflexivity|destruct P|destruct P]. Qed.

(** C68. Every error of Parse for a valid text is one of two: the text reads as arithmetic without dice; or it cannot be
    read at some character, the message names the place of that character and what could stand there (in the words of [vocabulary]), sorted and without
    repetitions. Nothing more than six characters after that character has any influence on the message. *)
Theorem C68_error_text F s : valid_utf8 s ->
  match parse_text F s with
  | Ok n => parse_command s = Ok n
  | Err m =>
      (exists e, parse_command s = Err e) /\
      ((exists comparison, m = no_dice_error F comparison) \/
       exists k items, m = no_match_error F (place (decode s) k) items /\ (k <= length (decode s))%nat /\ items <> [] /\ in_order items /\ Forall (fun i => In i vocabulary) items /\
         forall F' s', valid_utf8 s' -> firstn (k + 7) (decode s') = firstn (k + 7) (decode s) -> parse_text F' s' = Err (no_match_error F' (place (decode s) k) items))
  | Panic _ => False
  end.
Proof.
  intros Hv. pose proof (parse_text_command F s) as P. destruct (verdict_of F s Hv) as [v d n c Er E|c E _ _|d n j Er A X Ee E]; rewrite E in *.
  - destruct (parse_command s); [rewrite P; reflexivity|destruct P|destruct P].
  - split; [destruct (parse_command s); [destruct P|eauto|destruct P]|]. left. exists c. reflexivity.
  - split; [destruct (parse_command s); [destruct P|eauto|destruct P]|]. right. exists j, (expected_list (d_expected d)). split; [reflexivity|]. split; [apply A|]. split; [apply expected_nonempty, X|].
    split; [apply expected_order, A|]. split; [apply expected_vocabulary, A|]. intros F' s' Hv' Hk. rewrite (place_shared (decode s) (decode s') j (eq_sym Hk)).
    assert (firstn j (decode s) = firstn j (decode s')) as Hj. { apply (f_equal (firstn j)) in Hk. rewrite !firstn_firstn in Hk. replace (Nat.min j (j + 7)) with j in Hk by lia. symmetry. exact Hk. }
    destruct (two_runs true s s' d n j Hv Hv' Er A Hj (fun _ => eq_sym Hk)) as [(d' & n' & Er' & A' & X' & Ee' & _)|(H & _)]; [|discriminate H].
    rewrite Ee in Ee'. apply no_errs_map in Ee'. rewrite <- X'. apply (fail_text F' s' d' n' j Er' Ee' (rstack_of s' d' n' Hv' Er') A').
Qed.
Print Assumptions C68_error_text.

Lemma places_distinct s k k' : (k <= length (decode s))%nat -> (k' <= length (decode s))%nat -> snd (place (decode s) k) = snd (place (decode s) k') -> k = k'.
Proof.
  intros H H' E. assert (forall j, p_offset (fspot (decode s) j) = snd (place (decode s) j)) as P by (intros j; rewrite fspot_place; destruct (place (decode s) j) as ((?, ?), ?); reflexivity).
  rewrite <- !P, !fspot_off in E. pose proof (off_le _ (decode_raws s) k k' H H'). pose proof (off_le _ (decode_raws s) k' k H' H). lia.
Qed.

(** ExecuteCommand: if neither the command nor its part before the first white space can be read, the error is that of the
    latter, with "input" as the name of the file, and no die is taken. *)
Theorem C68_executed bot s f command secret e e' : check_secret s = (command, secret) -> parse_text "input" command = Err e' -> parse_text "input" (first_part command) = Err e ->
  execute_command_with bot s f = (Err e, f).
Proof. intros Hs H' H. rewrite execute_command_with_eq, Hs. unfold execute_basic_command. rewrite H', H. reflexivity. Qed.
Print Assumptions C68_executed.
Example C68_executed_text : fst (execute_command_with basic_bot "s2D6x oops" (FQueue [])) = Err "input:1:4 (3): no match found, expected: ""*"", ""+"", ""-"", ""/"", ""<"", ""<="", ""<>"", ""="", "">"", "">="", [0-9] or EOF".
Proof. vm_compute. reflexivity. Qed.

(** C69. Every suggestion helps: replace the rest of the text from the named character on by anything that begins as an
    item of the message says, and the new text is accepted, or lacks only dice, or is read further than before. *)
Theorem C69_suggestions_help F s m : valid_utf8 s -> parse_text F s = Err m ->
  (exists comparison, m = no_dice_error F comparison) \/
  exists k items, m = no_match_error F (place (decode s) k) items /\ (k <= length (decode s))%nat /\ items <> [] /\
    forall item s', In item items -> valid_utf8 s' -> firstn k (decode s') = firstn k (decode s) -> suggests item (skipn k (decode s')) ->
      (exists n, parse_text F s' = Ok n) \/
      (exists comparison, parse_text F s' = Err (no_dice_error F comparison)) \/
      exists k' items', (k < k' <= length (decode s'))%nat /\ parse_text F s' = Err (no_match_error F (place (decode s') k') items').
Proof.
  intros Hv Hm. destruct (verdict_of F s Hv) as [v d n c Er E|c E _ _|d n j Er A X Ee E]; rewrite E in Hm; [discriminate Hm| |]; injection Hm as <-; [left; exists c; reflexivity|right].
  exists j, (expected_list (d_expected d)). split; [reflexivity|]. split; [apply A|]. split; [apply expected_nonempty, X|]. intros item s' Hi Hv' Hk Hs.
  destruct (expected_in _ _ Hi) as (x & Hx & Ex). assert (hits x (skipn j (decode s'))) as Hh.
  { apply suggests_hits; [exact (proj1 (Forall_forall _ _) (at_known _ _ _ _ A) x Hx)|]. unfold item_of. destruct Ex as [(-> & ->)|(Ne & ->)]; [exact Hs|]. destruct (string_dec (expected_text x) "!."); [congruence|exact Hs]. }
  destruct (two_runs false s s' d n j Hv Hv' Er A (eq_sym Hk) ltac:(discriminate)) as [(d' & n' & Er' & A' & X' & _ & _ & Hn)|(_ & H)].
  - exfalso. rewrite X' in Hn. exact (Hn x Hx Hh).
  - destruct (verdict_of F s' Hv') as [v' d' n' c Er' E'|c E' _ _|d' n' j' Er' A' X' Ee' E']; [left; exists c; exact E'|right; left; exists c; exact E'|right; right].
    exists j', (expected_list (d_expected d')). split; [|exact E']. split; [exact (H d' n' j' Er' A')|apply A'].
Qed.
Print Assumptions C69_suggestions_help.

(** Nothing else helps: replace the rest of the text from the named character on by anything that begins as no item of the message says (and completes
    no word begun before that character), and the error is the same, at the same character, with the same suggestions. *)
Theorem C69_nothing_else F s m : valid_utf8 s -> parse_text F s = Err m ->
  (exists comparison, m = no_dice_error F comparison) \/
  exists k items, m = no_match_error F (place (decode s) k) items /\ (k <= length (decode s))%nat /\
    forall F' s', valid_utf8 s' -> firstn k (decode s') = firstn k (decode s) -> (forall item, In item items -> ~ suggests item (skipn k (decode s'))) -> ~ straddles (decode s') k ->
      parse_text F' s' = Err (no_match_error F' (place (decode s') k) items).
Proof.
  intros Hv Hm. destruct (verdict_of F s Hv) as [v d n c Er E|c E _ _|d n j Er A X Ee E]; rewrite E in Hm; [discriminate Hm| |]; injection Hm as <-; [left; exists c; reflexivity|right].
  exists j, (expected_list (d_expected d)). split; [reflexivity|]. split; [apply A|]. intros F' s' Hv' Hk Hno Hst.
  destruct (two_runs_none s s' d n j Hv Hv' Er A (eq_sym Hk)) as (d' & n' & Er' & A' & X' & Ee' & _).
  - intros x Hx Hh. apply (Hno (item_of x) (expected_all _ _ Hx)). apply suggests_hits; [exact (proj1 (Forall_forall _ _) (at_known _ _ _ _ A) x Hx)|exact Hh].
  - intros l ic i Kl Hi. destruct (starts l ic (skipn i (decode s'))) eqn:Es; [|reflexivity]. destruct (Hst (crossing _ _ l ic i Kl Hi Es)).
  - rewrite Ee in Ee'. apply no_errs_map in Ee'. rewrite <- X'. apply (fail_text F' s' d' n' j Er' Ee' (rstack_of s' d' n' Hv' Er') A').
Qed.
Print Assumptions C69_nothing_else.

Definition text_of (o : outcome node) : string := match o with Err m => m | _ => EmptyString end.
Example C68_after_a_roll : parse_text "input" "2D6x" = Err "input:1:4 (3): no match found, expected: ""*"", ""+"", ""-"", ""/"", ""<"", ""<="", ""<>"", ""="", "">"", "">="", [0-9] or EOF".
Proof. vm_compute. reflexivity. Qed.
Example C68_no_dice : parse_text "input" "1+2" = Err "input:1:1 (0): rule DRollExprCommand: random element not found" /\
  parse_text "input" "1+2)" = Err (no_dice_error "input" false) /\ parse_text "" "1+2>=3" = Err "1:1 (0): rule DRollCompCommand: random element not found".
Proof. vm_compute. repeat split; reflexivity. Qed.
Example C68_calculation : parse_text "REPL" "c(1" = Err "REPL:1:4 (3): no match found, expected: "")"", ""*"", ""+"", ""-"", ""/"" or [0-9]".
Proof. vm_compute. reflexivity. Qed.
(** on another line: the line feed itself, a character after it; offsets count bytes *)
Example C68_lines : parse_text "" (String "010" "x") = Err (no_match_error "" (1, 1, 0) ["""("""; """+"""; """-"""; """["""; """c""i"; """choice[""i"; "[0-9]"])%string /\
  text_of (parse_text "" (String "c" (String "(" (String "010" "1)")))) = no_match_error "" (2, 0, 2) ["""("""; """+"""; """-"""; "[0-9]"]%string /\
  text_of (parse_text "" ("choice[あ" ++ String "010" "b")) = no_match_error "" (2, 2, 12) [""","""; """]"""; "[^\],]"]%string.
Proof. vm_compute. repeat split; reflexivity. Qed.
(** the suggestions after "2D6": a further digit is accepted, "+" is read further *)
Example C69_digit : suggests "[0-9]" (skipn 3 (decode "2D60")) /\ (exists n, parse_text "" "2D60" = Ok n).
Proof. split; [apply sug_digit; vm_compute; split; discriminate|]. eexists. vm_compute. reflexivity. Qed.
Example C69_plus : suggests """+""" (skipn 3 (decode "2D6+")) /\ parse_text "" "2D6+" = Err "1:5 (4): no match found, expected: ""("", ""+"", ""-"", ""["" or [0-9]".
Proof. split; [apply (sug_word "+"); vm_compute; repeat split|vm_compute; reflexivity]. Qed.
(** and only dice are lacking *)
Example C69_lacks_dice : parse_text "" "(1+" = Err "1:4 (3): no match found, expected: ""("", ""+"", ""-"", ""["" or [0-9]" /\ suggests "[0-9]" (skipn 3 (decode "(1+2)")) /\ parse_text "" "(1+2)" = Err (no_dice_error "" false).
Proof. split; [vm_compute; reflexivity|]. split; [apply sug_digit; vm_compute; split; discriminate|vm_compute; reflexivity]. Qed.
(** what is not suggested after "2D6": any of these leaves the error as it is; "2D6<" with "=" next completes a word *)
Example C69_same_error : forall rest, In rest ["x"; "D6"; "(1)"; " +1"; "]"; ","]%string -> text_of (parse_text "" ("2D6" ++ rest)) = text_of (parse_text "" "2D6x").
Proof. intros rest H. cbn [In] in H. repeat (destruct H as [<-|H]; [vm_compute; reflexivity|]). destruct H. Qed.
Example C69_not_suggested : (forall item, In item ["""*"""; """+"""; """-"""; """/"""; """<"""; """<="""; """<>"""; """="""; """>"""; """>="""; "[0-9]"; "EOF"]%string -> ~ suggests item (skipn 3 (decode "2D6D6"))) /\ ~ straddles (decode "2D6D6") 3.
Proof.
  split.
  - intros item H Hs. cbn [In] in H. repeat (destruct H as [<-|H]; [revert Hs; match goal with |- suggests ?q _ -> _ => first
      [ change q with (item_of (true, WAny)) | change q with (item_of (false, WClass (CharClass [] [(48, 57)] false false false)))
      | match q with String _ (String ?a (String "034" EmptyString)) => change q with (quoted (String a EmptyString)) | String _ (String ?a (String ?b (String "034" EmptyString))) => change q with (quoted (String a (String b EmptyString))) end ] end;
      first [intros Hs; apply word_item in Hs; vm_compute in Hs; destruct Hs as (Hs & _); discriminate Hs | intros Hs; apply suggests_hits in Hs; [vm_compute in Hs; discriminate Hs|find_in]]|]). destruct H.
  - intros (fold & w & i & Hw & Hi & Hb). cbn [In] in Hw. repeat (destruct Hw as [Hw|Hw]; [injection Hw as <- <-; cbn [String.length] in Hi; destruct i as [|[|[|i]]]; try lia; vm_compute in Hb; destruct Hb as (Hb & _); discriminate Hb|]). destruct Hw.
Qed.
Example C69_straddled : straddles (decode "2D6<=3") 4 /\ text_of (parse_text "" "2D6<x") <> EmptyString /\ (exists n, parse_text "" "2D6<=3" = Ok n).
Proof. split; [exists false, "<="%string, 3%nat; split; [cbn; tauto|]; split; [cbn; lia|vm_compute; auto]|]. split; [vm_compute; discriminate|]. eexists. vm_compute. reflexivity. Qed.
