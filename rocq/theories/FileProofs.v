(** Proofs about the dice notation and test-case files. *)
From Verif Require Import ProofBase SpecText NumberText Dice TestCase SpecFiles.
From Verif Require Import RegexUses.
Open Scope list_scope.
Open Scope Z_scope.

(** ** Strings *)
Lemma app_assoc_s (a b c : string) : (a ++ (b ++ c) = (a ++ b) ++ c)%string.
Proof. induction a as [|x a IH]; [reflexivity|]. cbn. f_equal. exact IH. Qed.
Lemma app_nil_s (a : string) : (a ++ "" = a)%string.
Proof. induction a as [|x a IH]; [reflexivity|]. cbn. f_equal. exact IH. Qed.
Lemma app_inv_s (a b c : string) : (a ++ b = a ++ c)%string -> b = c.
Proof. induction a as [|x a IH]; intros H; [exact H|]. cbn in H. injection H as H. exact (IH H). Qed.
Lemma app_inv_r_s (a b c : string) : (a ++ c = b ++ c)%string -> a = b.
Proof.
  revert b. induction a as [|x a IH]; intros [|y b] H; [reflexivity| | |].
  - exfalso. apply (f_equal String.length) in H. cbn in H. rewrite length_append in H. lia.
  - exfalso. apply (f_equal String.length) in H. cbn in H. rewrite length_append in H. lia.
  - cbn in H. injection H as -> H. f_equal. exact (IH _ H).
Qed.
Lemma empty_false s : is_empty s = false <-> s <> EmptyString.
Proof. destruct s; cbn; split; congruence. Qed.
Lemma lacks_app a s t : lacks a (s ++ t) <-> lacks a s /\ lacks a t.
Proof. unfold lacks. rewrite las_app, in_app_iff. tauto. Qed.
Lemma lacks_cons a c s : lacks a (String c s) <-> c <> a /\ lacks a s.
Proof. unfold lacks. cbn. tauto. Qed.
Lemma join_cons sep a l : l <> [] -> join sep (a :: l) = (a ++ sep ++ join sep l)%string.
Proof. destruct l; [congruence|reflexivity]. Qed.
Lemma byte_val_inj a b : byte_val a = byte_val b -> a = b.
Proof.
  unfold byte_val. intros H. apply N2Z.inj in H. rewrite <- (ascii_N_embedding a), <- (ascii_N_embedding b), H. reflexivity.
Qed.

(** ** strings.Split at one byte *)
Lemma split_nonempty sep s : split_byte sep s <> [].
Proof. destruct s as [|a s]; cbn [split_byte]; [discriminate|]. destruct (Ascii.eqb a sep); [discriminate|]. destruct (split_byte sep s); discriminate. Qed.
Lemma split_here sep s t : lacks sep s -> split_byte sep (s ++ String sep t) = s :: split_byte sep t.
Proof.
  induction s as [|a s IH]; intros H; cbn [append split_byte].
  - rewrite Ascii.eqb_refl. reflexivity.
  - apply lacks_cons in H as (H1 & H2). apply Ascii.eqb_neq in H1. rewrite H1, (IH H2). reflexivity.
Qed.
Lemma split_one sep s : lacks sep s -> split_byte sep s = [s].
Proof.
  induction s as [|a s IH]; intros H; cbn [split_byte]; [reflexivity|].
  apply lacks_cons in H as (H1 & H2). apply Ascii.eqb_neq in H1. rewrite H1, (IH H2). reflexivity.
Qed.
Lemma split_join sep l : l <> [] -> Forall (lacks sep) l -> split_byte sep (join (String sep EmptyString) l) = l.
Proof.
  intros Hl H. induction H as [|a l Ha H IH]; [congruence|]. destruct l as [|b l]; [apply split_one, Ha|].
  rewrite join_cons by discriminate. cbn [append]. rewrite split_here by exact Ha. f_equal. apply IH. discriminate.
Qed.
Lemma join_split sep s : join (String sep EmptyString) (split_byte sep s) = s.
Proof.
  induction s as [|a s IH]; [reflexivity|]. cbn [split_byte]. pose proof (split_nonempty sep s) as Hn. destruct (Ascii.eqb a sep) eqn:E.
  - apply Ascii.eqb_eq in E as ->. rewrite join_cons by exact Hn. cbn [append]. rewrite IH. reflexivity.
  - destruct (split_byte sep s) as [|w ws]; [congruence|]. destruct ws as [|w' ws].
    + cbn in IH |- *. rewrite IH. reflexivity.
    + rewrite join_cons in IH by discriminate. rewrite (join_cons _ (String a w)) by discriminate. cbn [append] in IH |- *. rewrite IH. reflexivity.
Qed.
Lemma split_lacks sep s : Forall (lacks sep) (split_byte sep s).
Proof.
  induction s as [|a s IH]; cbn [split_byte]; [constructor; [intros []|constructor]|]. destruct (Ascii.eqb a sep) eqn:E.
  - constructor; [intros []|exact IH].
  - apply Ascii.eqb_neq in E. destruct (split_byte sep s) as [|w ws]; inversion IH; subst; constructor; try assumption; try constructor; apply lacks_cons; split; try assumption. intros [].
Qed.

(** ** One die *)
Lemma white_iff a : is_re_space a = true <-> white a.
Proof. unfold is_re_space, white. cbn [In]. rewrite !orb_true_iff, !Z.eqb_eq. intuition congruence. Qed.
Lemma digit_iff a : is_digit a = true <-> digit a.
Proof. unfold is_digit, digit. rewrite andb_true_iff, !Z.leb_le. tauto. Qed.
Lemma digit_not_white a : digit a -> ~ white a.
Proof. unfold digit, white. cbn [In]. intuition lia. Qed.
Lemma skip_blank b s : blank b -> skip_spaces (b ++ s) = skip_spaces s.
Proof.
  unfold blank. induction b as [|a b IH]; intros H; [reflexivity|]. inversion H; subst. cbn [append skip_spaces]. rewrite (proj2 (white_iff a)) by assumption. apply IH. assumption.
Qed.
Lemma skip_spaces_spec s : exists b, blank b /\ s = (b ++ skip_spaces s)%string.
Proof.
  induction s as [|a s (b & Hb & E)]; [exists EmptyString; split; [constructor|reflexivity]|]. cbn [skip_spaces]. destruct (is_re_space a) eqn:Ea.
  - exists (String a b). split; [constructor; [apply white_iff, Ea|exact Hb]|cbn; f_equal; exact E].
  - exists EmptyString. split; [constructor|reflexivity].
Qed.
Lemma skip_all s : skip_spaces s = EmptyString <-> blank s.
Proof.
  split.
  - intros H. destruct (skip_spaces_spec s) as (b & Hb & E). rewrite H, app_nil_s in E. subst. exact Hb.
  - intros H. rewrite <- (app_nil_s s), skip_blank by exact H. reflexivity.
Qed.
Definition no_digit (s : string) : Prop := match s with String a _ => ~ digit a | EmptyString => True end.
Lemma take_digits_spec s : exists d r, take_digits s = (d, r) /\ s = (d ++ r)%string /\ Forall digit (list_ascii_of_string d) /\ no_digit r.
Proof.
  induction s as [|a s (d & r & E1 & E2 & E3 & E4)]; cbn [take_digits].
  - exists EmptyString, EmptyString. repeat split. constructor.
  - destruct (is_digit a) eqn:Ea.
    + rewrite E1. exists (String a d), r. split; [reflexivity|]. split; [cbn; congruence|]. split; [constructor; [apply digit_iff, Ea|exact E3]|exact E4].
    + exists EmptyString, (String a s). repeat split; [constructor|]. cbn. intros H. apply digit_iff in H. congruence.
Qed.
Lemma take_digits_app d r : Forall digit (list_ascii_of_string d) -> no_digit r -> take_digits (d ++ r) = (d, r).
Proof.
  intros Hd Hr. induction d as [|a d IH]; cbn [append].
  - destruct r as [|a r]; [reflexivity|]. cbn [take_digits]. destruct (is_digit a) eqn:E; [apply digit_iff in E; contradiction|reflexivity].
  - inversion Hd; subst. cbn [take_digits]. rewrite (proj2 (digit_iff a)) by assumption. rewrite IH by assumption. reflexivity.
Qed.
Lemma blank_no_digit b : blank b -> no_digit b.
Proof. destruct b as [|a b]; intros H; [exact I|]. inversion H; subst. cbn. intros K. exact (digit_not_white _ K ltac:(assumption)). Qed.
Lemma digits_head s r : digits s -> exists a s', (s ++ r)%string = String a s' /\ digit a.
Proof. intros (H1 & H2). destruct s as [|a s]; [congruence|]. inversion H2; subst. exists a, (s ++ r)%string. split; [reflexivity|assumption]. Qed.
Lemma match_die_entry b1 v n b2 : blank b1 -> digits v -> digits n -> blank b2 -> match_die (b1 ++ v ++ "/" ++ n ++ b2) = Some (v, n).
Proof.
  intros H1 Hv Hn H2. rewrite match_die_eq. unfold hand_die. rewrite skip_blank by exact H1. destruct (digits_head v ("/" ++ n ++ b2) Hv) as (a & s' & E & Ha).
  replace (skip_spaces (v ++ "/" ++ n ++ b2)) with (v ++ "/" ++ n ++ b2)%string.
  2:{ rewrite E. cbn [skip_spaces]. destruct (is_re_space a) eqn:Es; [|reflexivity]. apply white_iff in Es. destruct (digit_not_white _ Ha Es). }
  rewrite take_digits_app; [|apply Hv|cbn; unfold digit; vm_compute; intros (K & _); congruence].
  rewrite (proj2 (empty_false v)) by apply Hv. cbn [append]. change (Ascii.eqb "/" "/") with true. cbv iota.
  rewrite take_digits_app; [|apply Hn|apply blank_no_digit, H2]. rewrite (proj2 (empty_false n)) by apply Hn. rewrite (proj2 (skip_all b2) H2). reflexivity.
Qed.
Lemma match_die_inv s v n : match_die s = Some (v, n) -> exists b1 b2, s = (b1 ++ v ++ "/" ++ n ++ b2)%string /\ blank b1 /\ digits v /\ digits n /\ blank b2.
Proof.
  rewrite match_die_eq. unfold hand_die. destruct (skip_spaces_spec s) as (b1 & Hb1 & E1). destruct (take_digits_spec (skip_spaces s)) as (d & r & T1 & T2 & T3 & _). rewrite T1.
  destruct (is_empty d) eqn:Ed; [discriminate|]. destruct r as [|c r2]; [discriminate|]. destruct (Ascii.eqb c "/") eqn:Ec; [|discriminate]. apply Ascii.eqb_eq in Ec as ->.
  destruct (take_digits_spec r2) as (d2 & r3 & U1 & U2 & U3 & _). rewrite U1. destruct (is_empty d2) eqn:Ed2; [discriminate|]. destruct (is_empty (skip_spaces r3)) eqn:Er; [|discriminate].
  intros [= <- <-]. exists b1, r3. rewrite T2, U2 in E1. split; [exact E1|]. split; [exact Hb1|]. split; [split; [apply empty_false, Ed|exact T3]|]. split; [split; [apply empty_false, Ed2|exact U3]|].
  apply skip_all. destruct (skip_spaces r3); [reflexivity|discriminate].
Qed.
Lemma atoi_saturated s : atoi_str s = saturated s.
Proof.
  unfold atoi_str, saturated, number_value. f_equal. generalize 0 at 1 2. induction s as [|a s IH]; intros z; [reflexivity|]. cbn [digits_value list_ascii_of_string fold_left]. rewrite IH. f_equal. lia.
Qed.
Lemma match_die_iff s : match match_die s with Some (v, n) => die_entry s (Die (atoi_str v) (atoi_str n)) | None => forall d, ~ die_entry s d end.
Proof.
  destruct (match_die s) as [(v, n)|] eqn:E.
  - apply match_die_inv in E as (b1 & b2 & -> & H1 & H2 & H3 & H4). rewrite !atoi_saturated. constructor; assumption.
  - intros d H. destruct H as [b1 v n b2 H1 H2 H3 H4]. rewrite match_die_entry in E by assumption. discriminate.
Qed.
Lemma die_entry_det s d d' : die_entry s d -> die_entry s d' -> d = d'.
Proof.
  intros H H'. destruct H as [b1 v n b2 H1 H2 H3 H4]. remember (b1 ++ v ++ "/" ++ n ++ b2)%string as s eqn:E. destruct H' as [c1 w m c2 K1 K2 K3 K4].
  pose proof (match_die_entry c1 w m c2 K1 K2 K3 K4) as X. rewrite E, match_die_entry in X by assumption. injection X as -> ->. reflexivity.
Qed.
Lemma comma_not_white : ~ white ",".
Proof. unfold white. cbn [In]. vm_compute. intuition congruence. Qed.
Lemma comma_not_digit : ~ digit ",".
Proof. unfold digit. vm_compute. intuition congruence. Qed.
Lemma die_entry_lacks s d : die_entry s d -> lacks ","%char s.
Proof.
  intros [b1 v n b2 H1 (_ & H2) (_ & H3) H4]. rewrite !lacks_app.
  assert (forall P t, Forall P (list_ascii_of_string t) -> ~ P ","%char -> lacks ","%char t) as K. { intros P t Ht Hn Hi. rewrite Forall_forall in Ht. exact (Hn (Ht _ Hi)). }
  repeat split; try (eapply K; [eassumption|]); try apply comma_not_white; try apply comma_not_digit. intros [H|[]]; discriminate H.
Qed.

(** ** ParseDice *)
Lemma parse_dice_loop_ok l : forall i acc ds, parse_dice_loop i l acc = Ok ds <-> exists ds', Forall2 die_entry l ds' /\ ds = acc ++ ds'.
Proof.
  induction l as [|s l IH]; intros i acc ds; cbn [parse_dice_loop].
  - split.
    + intros [= <-]. exists []. rewrite app_nil_r. split; constructor.
    + intros (ds' & H & ->). inversion H. rewrite app_nil_r. reflexivity.
  - pose proof (match_die_iff s) as K. destruct (match_die s) as [(v, n)|].
    + rewrite IH. split.
      * intros (ds' & H & ->). exists (Die (atoi_str v) (atoi_str n) :: ds'). rewrite <- app_assoc. split; [constructor; assumption|reflexivity].
      * intros (ds' & H & ->). inversion H; subst. rewrite (die_entry_det _ _ _ K ltac:(eassumption)). eexists. split; [eassumption|]. rewrite <- app_assoc. reflexivity.
    + split; [discriminate|]. intros (ds' & H & _). inversion H; subst. exfalso. eapply K. eassumption.
Qed.
Lemma parse_dice_loop_not_panic l : forall i acc p, parse_dice_loop i l acc <> Panic p.
Proof. induction l as [|s l IH]; intros i acc p; cbn [parse_dice_loop]; [discriminate|]. destruct (match_die s) as [(v, n)|]; [apply IH|discriminate]. Qed.
Lemma parse_dice_not_panic s p : parse_dice s <> Panic p.
Proof. unfold parse_dice. destruct (is_empty s); [discriminate|apply parse_dice_loop_not_panic]. Qed.
Lemma die_entry_nonempty s d : die_entry s d -> s <> EmptyString.
Proof. intros [b1 v n b2 _ (Hv & _) _ _]. destruct b1; [|discriminate]. destruct v; [congruence|discriminate]. Qed.
Lemma parse_dice_iff s ds : parse_dice s = Ok ds <-> dice_notation s ds.
Proof.
  unfold parse_dice, dice_notation. destruct (is_empty s) eqn:E.
  - destruct s; [|discriminate]. split.
    + intros [= <-]. left. split; reflexivity.
    + intros [(_ & ->)|(Hn & entries & E' & H)]; [reflexivity|]. destruct H as [|x d l ds' Hx H]; [congruence|]. exfalso. apply die_entry_nonempty in Hx. destruct l; [cbn in E'; congruence|]. rewrite join_cons in E' by discriminate. destruct x; [congruence|discriminate].
  - apply empty_false in E. rewrite parse_dice_loop_ok. split.
    + intros (ds' & H & ->). right. split.
      * pose proof (split_nonempty "," s) as Hn. destruct H; [congruence|discriminate].
      * exists (split_byte "," s). split; [symmetry; apply (join_split ",")|exact H].
    + intros [(H & _)|(Hn & entries & -> & H)]; [congruence|]. exists ds. split; [|reflexivity]. rewrite (split_join ","); [exact H| |].
      * destruct H; congruence.
      * clear - H. induction H; constructor; [eapply die_entry_lacks; eassumption|assumption].
Qed.
Lemma die_text_entry b d : blank b -> writable d -> die_entry (b ++ die_text d) d.
Proof.
  intros Hb (Hv & Hs). destruct d as [v s]. cbn [die_value die_sides] in *. unfold die_text. cbn [die_value die_sides].
  replace (Die v s) with (Die (saturated (itoa v)) (saturated (itoa s))) by (unfold saturated; rewrite !itoa_value by lia; f_equal; lia).
  replace (itoa v ++ "/" ++ itoa s)%string with (itoa v ++ "/" ++ itoa s ++ "")%string by (rewrite app_nil_s; reflexivity). constructor; [exact Hb|apply itoa_digits; lia|apply itoa_digits; lia|constructor].
Qed.
Lemma parse_format_without_spaces ds : Forall writable ds -> parse_dice (format_dice_without_spaces ds) = Ok ds.
Proof.
  intros H. apply parse_dice_iff. destruct ds as [|d ds]; [left; split; reflexivity|]. right. split; [discriminate|]. exists (map die_text (d :: ds)). split; [reflexivity|].
  induction H as [|x l Hx H IH]; constructor; [|exact IH]. apply (die_text_entry "" x); [constructor|exact Hx].
Qed.
Lemma parse_format ds : Forall writable ds -> parse_dice (format_dice ds) = Ok ds.
Proof.
  intros H. apply parse_dice_iff. destruct H as [|d ds Hd H]; [left; split; reflexivity|]. right. split; [discriminate|]. exists (die_text d :: map (fun d => " " ++ die_text d)%string ds). split.
  - unfold format_dice. clear Hd H. revert d. induction ds as [|d' ds IH]; intros d; [reflexivity|]. cbn [map]. rewrite !join_cons by discriminate. cbn [map] in IH. rewrite (IH d').
    destruct ds as [|d'' ds]; [reflexivity|]. cbn [map]. rewrite !join_cons by discriminate. reflexivity.
  - constructor; [apply (die_text_entry "" d); [constructor|exact Hd]|]. induction H as [|x l Hx H IH]; constructor; [|exact IH]. apply (die_text_entry " " x); [repeat constructor; vm_compute; tauto|exact Hx].
Qed.

(** ** Searching *)
Lemma strip_prefix_iff p s r : strip_prefix p s = Some r <-> s = (p ++ r)%string.
Proof.
  revert s. induction p as [|a p IH]; intros s; cbn [strip_prefix append]; [split; congruence|]. destruct s as [|b s]; [split; discriminate|].
  destruct (Ascii.eqb a b) eqn:E.
  - apply Ascii.eqb_eq in E as ->. rewrite IH. split; congruence.
  - apply Ascii.eqb_neq in E. split; congruence.
Qed.
Lemma last_such_spec {A} pat (ok : string -> option A) s :
  match last_such pat ok s with
  | Some (b, a) => exists r, s = (b ++ pat ++ r)%string /\ ok r = Some a /\ forall b' r', s = (b' ++ pat ++ r')%string -> ok r' <> None -> (String.length b' <= String.length b)%nat
  | None => forall b' r', s = (b' ++ pat ++ r')%string -> ok r' = None
  end.
Proof.
  induction s as [|c s IH].
  - cbn [last_such]. destruct (strip_prefix pat "") as [r|] eqn:E.
    + apply strip_prefix_iff in E. destruct (ok r) as [a|] eqn:Eo.
      * exists r. split; [exact E|]. split; [exact Eo|]. intros b' r' E' _. destruct b'; [cbn; lia|discriminate].
      * intros b' r' E'. destruct b'; [|discriminate]. cbn in E'. destruct pat, r, r'; try discriminate. exact Eo.
    + intros b' r' E'. destruct b'; [|discriminate]. cbn in E'. symmetry in E'. rewrite <- E' in E. rewrite (proj2 (strip_prefix_iff pat (pat ++ r')%string r') eq_refl) in E. discriminate.
  - cbn [last_such]. destruct (last_such pat ok s) as [(b, a)|].
    + destruct IH as (r & -> & H2 & H3). exists r. split; [reflexivity|]. split; [exact H2|]. intros b' r' E' Hr. destruct b' as [|c' b']; [cbn; lia|]. cbn in E'. injection E' as -> E'. specialize (H3 _ _ E' Hr). cbn. lia.
    + destruct (strip_prefix pat (String c s)) as [r|] eqn:E.
      * apply strip_prefix_iff in E. destruct (ok r) as [a|] eqn:Eo.
        -- exists r. split; [exact E|]. split; [exact Eo|]. intros b' r' E' Hr. destruct b' as [|c' b']; [cbn; lia|]. cbn in E'. injection E' as -> E'. specialize (IH _ _ E'). congruence.
        -- intros b' r' E'. destruct b' as [|c' b']; [|cbn in E'; injection E' as -> E'; eapply IH; exact E']. cbn [append] in E'. rewrite E in E'. apply app_inv_s in E'. congruence.
      * intros b' r' E'. destruct b' as [|c' b']; [|cbn in E'; injection E' as -> E'; eapply IH; exact E']. cbn [append] in E'. apply strip_prefix_iff in E'. congruence.
Qed.
Lemma app_same_length (a b c d : string) : (a ++ c = b ++ d)%string -> String.length a = String.length b -> a = b /\ c = d.
Proof.
  revert b. induction a as [|x a IH]; intros [|y b] H L; try discriminate L; [split; [reflexivity|exact H]|]. cbn in H. injection H as -> H. cbn in L. injection L as L. destruct (IH _ H L) as (-> & ->). split; reflexivity.
Qed.
Lemma last_such_unique {A} pat (ok : string -> option A) s b a r :
  s = (b ++ pat ++ r)%string -> ok r = Some a -> (forall b' r', s = (b' ++ pat ++ r')%string -> ok r' <> None -> (String.length b' <= String.length b)%nat) ->
  last_such pat ok s = Some (b, a).
Proof.
  intros E Ho Hm. pose proof (last_such_spec pat ok s) as K. destruct (last_such pat ok s) as [(b', a')|].
  - destruct K as (r' & E' & Ho' & Hm'). assert (String.length b = String.length b') as L.
    { apply Nat.le_antisymm; [eapply Hm'; [exact E|congruence]|eapply Hm; [exact E'|congruence]]. }
    rewrite E in E'. destruct (app_same_length _ _ _ _ E' L) as (-> & E2). apply app_inv_s in E2 as ->. congruence.
  - rewrite (K _ _ E) in Ho. discriminate.
Qed.
Definition later (i o i' o' : string) : Prop := (String.length i' < String.length i)%nat \/ (i' = i /\ (String.length o' <= String.length o)%nat).
Lemma tail_app s t : (0 < String.length s)%nat -> exists c s', s = String c s' /\ (s ++ t)%string = String c (s' ++ t).
Proof. destruct s; cbn; [lia|eauto]. Qed.
Lemma head_input t : ("input:" ++ newline ++ t)%string = (("input:" ++ nl) ++ t)%string.
Proof. reflexivity. Qed.
(** The greedy groups: among all ways to cut the source, the longest input part, then the longest output part *)
Lemma match_source_iff s i o r : match_source s = Some (i, (o, r)) <-> source_parts s i o r /\ forall i' o' r', source_parts s i' o' r' -> later i o i' o'.
Proof.
  rewrite match_source_eq. unfold hand_source, source_parts. split.
  - destruct (strip_prefix ("input:" ++ nl) s) as [[|c s']|] eqn:E; try discriminate. apply strip_prefix_iff in E.
    pose proof (last_such_spec (nl ++ "output:") (last_such (nl ++ "rand:") (fun r => Some r)) s') as K.
    destruct (last_such (nl ++ "output:") _ s') as [(i1, (o1, r1))|]; [|discriminate]. intros [= <- <- <-]. destruct K as (t & E1 & E2 & E3).
    pose proof (last_such_spec (nl ++ "rand:") (fun r => Some r) t) as K. rewrite E2 in K. destruct K as (r2 & F1 & F2 & F3). injection F2 as ->. split.
    + split; [|discriminate]. rewrite head_input, E, E1, F1. reflexivity.
    + intros i' o' r' (G1 & G2). rewrite E, head_input in G1. apply app_inv_s in G1. destruct i' as [|c' i']; [congruence|]. cbn [append] in G1. injection G1 as <- G1.
      assert (String.length i' <= String.length i1)%nat as Hle.
      { eapply E3; [exact G1|]. change (last_such (nl ++ "rand:") (fun r : string => Some r) (o' ++ (newline ++ "rand:") ++ r') <> None). pose proof (last_such_spec (nl ++ "rand:") (fun r => Some r) (o' ++ (newline ++ "rand:") ++ r')) as K.
        destruct (last_such (nl ++ "rand:") _ (o' ++ _)) as [(x, y)|]; [discriminate|]. specialize (K _ _ eq_refl). discriminate. }
      apply Nat.lt_eq_cases in Hle as [Hlt|Heq]; [left; cbn; lia|]. rewrite E1 in G1. destruct (app_same_length _ _ _ _ G1 (eq_sym Heq)) as (-> & G3). right. split; [reflexivity|].
      apply (app_inv_s (nl ++ "output:") t (o' ++ (newline ++ "rand:") ++ r')) in G3. eapply F3; [exact G3|discriminate].
  - intros ((E & Hi) & Hm). rewrite head_input in E. rewrite (proj2 (strip_prefix_iff _ _ _) E). destruct i as [|c i]; [congruence|]. cbn [append].
    rewrite (last_such_unique (nl ++ "output:") (last_such (nl ++ "rand:") (fun r => Some r)) (i ++ (newline ++ "output:") ++ o ++ (newline ++ "rand:") ++ r) i (o, r) (o ++ (newline ++ "rand:") ++ r)); [reflexivity|reflexivity| |].
    + apply (last_such_unique (nl ++ "rand:") (fun r => Some r) _ o r r); [reflexivity|reflexivity|]. intros o' r' E' _. destruct (Hm (String c i) o' r') as [H|(_ & H)]; [|lia|exact H].
      split; [|discriminate]. rewrite E, E'. reflexivity.
    + intros i' t E' Ht. pose proof (last_such_spec (nl ++ "rand:") (fun r => Some r) t) as K. destruct (last_such (nl ++ "rand:") _ t) as [(o', r')|]; [|congruence]. destruct K as (r'' & F1 & _ & _).
      destruct (Hm (String c i') o' r'') as [H|(H & _)]; [|cbn in H; lia|injection H as ->; lia]. split; [|discriminate]. rewrite E. cbn [append] in E' |- *. rewrite E'. subst t. reflexivity.
Qed.
Lemma match_source_none s : match_source s = None <-> forall i o r, ~ source_parts s i o r.
Proof.
  rewrite match_source_eq. unfold hand_source, source_parts. split.
  - intros H i o r (E & Hi). rewrite head_input in E. rewrite (proj2 (strip_prefix_iff _ _ _) E) in H. destruct i as [|c i]; [congruence|]. cbn [append] in H.
    pose proof (last_such_spec (nl ++ "output:") (last_such (nl ++ "rand:") (fun r => Some r)) (i ++ (newline ++ "output:") ++ o ++ (newline ++ "rand:") ++ r)) as K.
    destruct (last_such (nl ++ "output:") _ _) as [(i1, x)|]; [discriminate|]. specialize (K _ _ eq_refl).
    pose proof (last_such_spec (nl ++ "rand:") (fun r => Some r) (o ++ (newline ++ "rand:") ++ r)) as K'. rewrite K in K'. specialize (K' _ _ eq_refl). discriminate.
  - intros H. destruct (hand_source s) as [(i, (o, r))|] eqn:E; unfold hand_source in E; [|exact E]. exfalso. fold (hand_source s) in E. rewrite <- match_source_eq in E. eapply H. exact (proj1 (proj1 (match_source_iff s i o r) E)).
Qed.

(** ** A test case *)
Lemma app_split (a b c d : string) : (a ++ b = c ++ d)%string -> (exists q, a = (c ++ q)%string /\ (q ++ b)%string = d) \/ (exists q, c = (a ++ q)%string /\ b = (q ++ d)%string).
Proof.
  revert c. induction a as [|x a IH]; intros [|y c] H.
  - left. exists EmptyString. split; [reflexivity|exact H].
  - right. exists (String y c). split; [reflexivity|exact H].
  - left. exists (String x a). split; [reflexivity|exact H].
  - cbn in H. injection H as -> H. destruct (IH _ H) as [(q & -> & E)|(q & -> & E)]; [left|right]; exists q; split; auto.
Qed.
Lemma lacks_no c s t u : lacks c s -> s = (t ++ String c u)%string -> False.
Proof. intros H ->. apply H. rewrite las_app. apply in_or_app. right. left. reflexivity. Qed.
(** Where a pattern whose first character does not come again can occur around such a character *)
Lemma occ_split c p A B z t : lacks c p -> (A ++ String c B = z ++ String c p ++ t)%string ->
  (exists w, A = (z ++ String c p ++ w)%string) \/ (z = A /\ B = (p ++ t)%string) \/ (exists w, z = (A ++ String c w)%string /\ B = (w ++ String c p ++ t)%string).
Proof.
  intros Hp E. apply app_split in E as [(q & -> & E)|(q & -> & E)].
  - destruct q as [|x q].
    + right. left. rewrite app_nil_s. cbn in E. injection E as E. split; [reflexivity|exact E].
    + left. cbn in E. injection E as -> E. apply app_split in E as [(u & -> & E)|(u & -> & E)].
      * exists u. reflexivity.
      * destruct u as [|y u]; [exists EmptyString; rewrite !app_nil_s; reflexivity|]. cbn in E. injection E as <- E. exfalso. eapply lacks_no; [exact Hp|reflexivity].
  - destruct q as [|x q].
    + right. left. rewrite app_nil_s. cbn in E. injection E as E. split; [reflexivity|exact E].
    + right. right. cbn in E. injection E as <- E. exists q. split; [reflexivity|exact E].
Qed.
Lemma digits_lacks c s : ~ digit c -> Forall digit (list_ascii_of_string s) -> lacks c s.
Proof. intros Hc H K. rewrite Forall_forall in H. exact (Hc (H _ K)). Qed.
Lemma nl_not_digit : ~ digit "010".
Proof. unfold digit. vm_compute. intuition congruence. Qed.
Lemma die_text_lacks d : writable d -> lacks "010"%char (die_text d).
Proof.
  intros (H1 & H2). unfold die_text. rewrite !lacks_app. repeat split; try (apply digits_lacks; [apply nl_not_digit|apply itoa_digits; lia]). intros [H|[]]; discriminate H.
Qed.
Lemma join_lacks c sep l : lacks c sep -> Forall (lacks c) l -> lacks c (join sep l).
Proof.
  intros Hs H. induction H as [|a l Ha H IH]; [intros []|]. destruct l as [|b l]; [exact Ha|]. rewrite join_cons by discriminate. rewrite !lacks_app. repeat split; assumption.
Qed.
Lemma format_lacks ds : Forall writable ds -> lacks "010"%char (format_dice_without_spaces ds).
Proof. intros H. apply join_lacks; [intros [K|[]]; discriminate K|]. induction H; constructor; [apply die_text_lacks; assumption|assumption]. Qed.
Lemma output_lacks : lacks "010"%char "output:".
Proof. unfold lacks. cbn. intuition discriminate. Qed.
Lemma rand_lacks : lacks "010"%char "rand:".
Proof. unfold lacks. cbn. intuition discriminate. Qed.
Lemma join_nonempty_nl l : l <> [] -> l <> [EmptyString] -> join newline l <> EmptyString.
Proof.
  destruct l as [|a [|b l]]; intros H1 H2; [congruence| |].
  - intros E. cbn in E. congruence.
  - rewrite join_cons by discriminate. destruct a; discriminate.
Qed.
Lemma match_written c : well_formed_case c -> match_source (written_text c) = Some (join newline (w_lines c), ((newline ++ w_output c)%string, format_dice_without_spaces (w_dice c))).
Proof.
  intros (H1 & H2 & _ & _ & H5 & H6 & _). apply match_source_iff. set (J := join newline (w_lines c)). set (F := format_dice_without_spaces (w_dice c)). set (o := w_output c).
  assert (written_text c = ("input:" ++ newline ++ J ++ (newline ++ "output:") ++ (newline ++ o) ++ (newline ++ "rand:") ++ F)%string) as E by reflexivity.
  assert (lacks "010"%char ("rand:" ++ F)) as HF by (apply lacks_app; split; [apply rand_lacks|apply format_lacks, H6]).
  split; [split; [exact E|apply join_nonempty_nl; assumption]|]. intros i' o' r' (E' & _). rewrite E in E'. apply (app_inv_s "input:"), (app_inv_s newline) in E'.
  destruct (occ_split "010" "output:" J ("output:" ++ (newline ++ o) ++ (newline ++ "rand:") ++ F) i' (o' ++ (newline ++ "rand:") ++ r') output_lacks E') as [(w & K)|[(K & K2)|(w & K & K2)]].
  - left. rewrite K, length_append. cbn. lia.
  - right. split; [exact K|]. apply (app_inv_s "output:") in K2.
    destruct (occ_split "010" "rand:" (newline ++ o) ("rand:" ++ F) o' r' rand_lacks K2) as [(w & K3)|[(K3 & _)|(w & _ & K3)]].
    + rewrite K3, length_append. lia.
    + rewrite K3. lia.
    + exfalso. eapply lacks_no; [exact HF|exact K3].
  - exfalso. destruct (occ_split "010" "output:" ("output:" ++ newline ++ o) ("rand:" ++ F) w (o' ++ (newline ++ "rand:") ++ r') output_lacks K2) as [(w2 & K3)|[(_ & K3)|(w2 & _ & K3)]].
    + destruct (occ_split "010" "output:" "output:" o w w2 output_lacks K3) as [(w3 & K4)|[(_ & K4)|(w3 & _ & K4)]].
      * eapply lacks_no; [exact output_lacks|exact K4].
      * apply H5. exists EmptyString, w2. fold o. rewrite K4. reflexivity.
      * apply H5. exists (newline ++ w3)%string, w2. fold o. rewrite K4. reflexivity.
    + discriminate K3.
    + eapply lacks_no; [exact HF|exact K3].
Qed.
Definition numbered (game_id : string) (i : Z) (c : written_case) : test_case := TestCase game_id i (w_lines c) (w_output c) (w_dice c).
Lemma parse_written c game_id i : well_formed_case c -> parse_test_case (written_text c) game_id i = Ok (numbered game_id i c).
Proof.
  intros H. unfold parse_test_case. rewrite match_written by exact H. destruct H as (H1 & _ & H3 & H4 & _ & H6 & _). rewrite parse_format_without_spaces by exact H6.
  rewrite (split_join "010") by assumption. unfold numbered. do 2 f_equal. cbn [append newline trim_left_nl]. cbn. specialize (H4). destruct (w_output c) as [|a t] eqn:E; [reflexivity|]. cbn [trim_left_nl].
  destruct (Ascii.eqb a "010") eqn:Ea; [apply Ascii.eqb_eq in Ea as ->; destruct (H4 t eq_refl)|reflexivity].
Qed.

(** ** Files *)
Lemma find_first_spec sep s : match find_first sep s with
  | Some (b, a) => s = (b ++ sep ++ a)%string /\ forall b' a', s = (b' ++ sep ++ a')%string -> (String.length b <= String.length b')%nat
  | None => ~ occurs sep s end.
Proof.
  induction s as [|c s IH]; cbn [find_first].
  - destruct (strip_prefix sep "") as [r|] eqn:E; [apply strip_prefix_iff in E; split; [exact E|intros; cbn; lia]|]. intros (b & a & H). destruct b; [|discriminate]. cbn [append] in H. apply (strip_prefix_iff sep) in H. congruence.
  - destruct (strip_prefix sep (String c s)) as [r|] eqn:E; [apply strip_prefix_iff in E; split; [exact E|intros; cbn; lia]|]. destruct (find_first sep s) as [(b, a)|].
    + destruct IH as (-> & IH). split; [reflexivity|]. intros [|c' b'] a' H; [cbn [append] in H; apply (strip_prefix_iff sep) in H; congruence|]. cbn in H. injection H as -> H. specialize (IH _ _ H). cbn. lia.
    + intros ([|c' b'] & a' & H); [cbn [append] in H; apply (strip_prefix_iff sep) in H; congruence|]. cbn in H. injection H as -> H. apply IH. exists b', a'. exact H.
Qed.
(** If the separating line is no line of x, the first separator in x, separator, t is the one after x. *)
Lemma find_first_here x t : ~ occurs case_separator (x ++ newline) -> find_first separator (x ++ separator ++ t) = Some (x, t).
Proof.
  intros H. pose proof (find_first_spec separator (x ++ separator ++ t)) as K. destruct (find_first separator _) as [(b, a)|]; [|destruct K; exists x, t; reflexivity].
  destruct K as (E & Hm). specialize (Hm x t eq_refl). apply app_split in E as [(q & -> & E)|(q & -> & E)].
  - destruct q as [|c q]; [rewrite app_nil_s; apply (app_inv_s separator) in E; congruence|]. exfalso. cbn [separator append nl] in E. unfold separator, nl in E. cbn in E. injection E as -> E.
    do 28 (destruct q as [|? q]; [discriminate E|cbn in E; injection E as -> E]). destruct q as [|? q].
    + apply H. exists b, EmptyString. rewrite <- app_assoc_s. f_equal.
    + cbn in E. injection E as -> E. apply H. exists b, (q ++ newline)%string. rewrite <- app_assoc_s. f_equal.
  - rewrite length_append in Hm. destruct q as [|c q]; [rewrite app_nil_s; apply (app_inv_s separator) in E; congruence|]. cbn in Hm. lia.
Qed.
Lemma split_fuel_join l : Forall (fun x => ~ occurs case_separator (x ++ newline)) l -> l <> [] -> forall fuel, (length l <= S fuel)%nat -> split_fuel fuel separator (join separator l) = l.
Proof.
  intros H. induction H as [|x l Hx H IH]; intros Hl fuel Hf; [congruence|]. destruct l as [|y l].
  - cbn [join]. destruct fuel as [|fuel]; [reflexivity|]. cbn [split_fuel]. pose proof (find_first_spec separator x) as K. destruct (find_first separator x) as [(b, a)|]; [|reflexivity].
    destruct K as (-> & _). destruct Hx. exists b, (a ++ newline)%string. rewrite <- !app_assoc_s. reflexivity.
  - rewrite join_cons by discriminate. destruct fuel as [|fuel]; [cbn in Hf; lia|]. cbn [split_fuel]. rewrite find_first_here by exact Hx. f_equal. apply IH; [discriminate|cbn in Hf |- *; lia].
Qed.
Lemma join_length sep l : (1 <= String.length sep)%nat -> (length l <= S (String.length (join sep l)))%nat.
Proof.
  intros Hs. induction l as [|a l IH]; [cbn; lia|]. destruct l as [|b l]; [cbn; lia|]. rewrite join_cons by discriminate. rewrite !length_append. cbn [length] in *. lia.
Qed.
Lemma split_str_join l : Forall (fun x => ~ occurs case_separator (x ++ newline)) l -> l <> [] -> split_str separator (join separator l) = l.
Proof. intros H Hl. apply split_fuel_join; [exact H|exact Hl|]. apply join_length. cbn. lia. Qed.
(** texts that do not end with a newline *)
Definition ends_well (s : string) : Prop := exists p c, s = (p ++ String c EmptyString)%string /\ c <> "010"%char.
Lemma ends_app a b : ends_well b -> ends_well (a ++ b).
Proof. intros (p & c & -> & H). exists (a ++ p)%string, c. split; [apply app_assoc_s|exact H]. Qed.
Lemma ends_digits s : digits s -> ends_well s.
Proof.
  intros (Hn & H). induction s as [|a s IH]; [congruence|]. inversion H as [|? ? Ha Hs]; subst. destruct s as [|b s].
  - exists EmptyString, a. split; [reflexivity|]. intros ->. exact (nl_not_digit Ha).
  - change (String a (String b s)) with (String a EmptyString ++ String b s)%string. apply ends_app, IH; [discriminate|exact Hs].
Qed.
Lemma ends_join sep l : l <> [] -> Forall ends_well l -> ends_well (join sep l).
Proof.
  intros Hl H. induction H as [|a l Ha H IH]; [congruence|]. destruct l as [|b l]; [exact Ha|]. rewrite join_cons by discriminate. apply ends_app, ends_app, IH. discriminate.
Qed.
Lemma ends_case c : Forall writable (w_dice c) -> ends_well (written_text c).
Proof.
  intros H. unfold written_text, case_text. do 8 apply ends_app. destruct H as [|d ds Hd H].
  - exists "rand"%string, ":"%char. split; [reflexivity|discriminate].
  - apply ends_app, ends_join; [discriminate|]. assert (forall d, writable d -> ends_well (die_text d)) as K by (intros x (H1 & H2); do 2 apply ends_app; apply ends_digits, itoa_digits; lia).
    constructor; [apply K, Hd|]. induction H; constructor; [apply K; assumption|assumption].
Qed.
Lemma trim_newlines n : trim_right_nl (newlines n) = EmptyString.
Proof. induction n as [|n IH]; [reflexivity|]. cbn [newlines trim_right_nl]. rewrite IH. reflexivity. Qed.
Lemma trim_right_ends s n : ends_well s -> trim_right_nl (s ++ newlines n) = s.
Proof.
  intros (p & c & -> & H). induction p as [|a p IH]; cbn [append trim_right_nl].
  - rewrite trim_newlines. apply Ascii.eqb_neq in H. rewrite H. reflexivity.
  - rewrite IH. destruct p; reflexivity.
Qed.
(** the numbers i+1, i+2, ... *)
Fixpoint number_from (game_id : string) (i : Z) (cs : list written_case) : list test_case :=
  match cs with [] => [] | c :: cs' => numbered game_id (i + 1) c :: number_from game_id (i + 1) cs' end.
Lemma parse_cases_written cs game_id : Forall well_formed_case cs -> forall i acc, parse_cases i game_id (map written_text cs) acc = Ok (acc ++ number_from game_id i cs).
Proof.
  intros H. induction H as [|c cs Hc H IH]; intros i acc; cbn [map parse_cases number_from]; [rewrite app_nil_r; reflexivity|].
  rewrite parse_written by exact Hc. rewrite IH, <- app_assoc. reflexivity.
Qed.
Lemma parse_file_written cs n game_id : cs <> [] -> Forall well_formed_case cs -> parse_file (file_text cs n) game_id = Ok (number_from game_id 0 cs).
Proof.
  intros Hn H. unfold parse_file, file_text. rewrite trim_right_ends.
  - change case_separator with separator. rewrite (split_str_join (map written_text cs)).
    + apply (parse_cases_written cs game_id H 0 []).
    + clear Hn. induction H as [|c cs Hc H IH]; constructor; [apply Hc|exact IH].
    + destruct cs; [congruence|discriminate].
  - apply ends_join; [destruct cs; [congruence|discriminate]|]. clear Hn. induction H as [|c cs Hc H IH]; constructor; [apply ends_case, Hc|exact IH].
Qed.
(** ** Numbering *)
Lemma parse_test_case_ok s game_id i c : parse_test_case s game_id i = Ok c -> tc_index c = i /\ tc_game_id c = game_id.
Proof. unfold parse_test_case. destruct (match_source s) as [(x, (o, r))|]; [|discriminate]. destruct (parse_dice r); try discriminate. intros [= <-]. split; reflexivity. Qed.
Lemma parse_cases_ok l : forall i game_id acc cs, parse_cases i game_id l acc = Ok cs ->
  exists cs', cs = acc ++ cs' /\ length cs' = length l /\ forall k c, nth_error cs' k = Some c -> tc_index c = i + Z.of_nat k + 1 /\ tc_game_id c = game_id /\ exists s, nth_error l k = Some s /\ parse_test_case s game_id (tc_index c) = Ok c.
Proof.
  induction l as [|s l IH]; intros i game_id acc cs; cbn [parse_cases].
  - intros [= <-]. exists []. rewrite app_nil_r. split; [reflexivity|]. split; [reflexivity|]. intros [|k] c H; discriminate H.
  - destruct (parse_test_case s game_id (i + 1)) as [c| |] eqn:E; try discriminate. intros H. apply IH in H as (cs' & -> & Hl & H). exists (c :: cs'). rewrite <- app_assoc. split; [reflexivity|]. split; [cbn; lia|].
    intros [|k] c' Hk; cbn in Hk.
    + injection Hk as <-. destruct (parse_test_case_ok _ _ _ _ E) as (H1 & H2). split; [lia|]. split; [exact H2|]. exists s. split; [reflexivity|]. rewrite H1. exact E.
    + destruct (H _ _ Hk) as (H1 & H2 & H3). split; [lia|]. split; assumption.
Qed.

(** The positions 1, 2, ... *)
Definition numbered_in_order (game_id : string) (cs : list test_case) : Prop :=
  forall k c, nth_error cs k = Some c -> tc_index c = Z.of_nat k + 1 /\ tc_game_id c = game_id.
Lemma parse_file_ok content game_id cs : parse_file content game_id = Ok cs -> cs <> [] /\ numbered_in_order game_id cs.
Proof.
  unfold parse_file. intros H. apply parse_cases_ok in H as (cs' & -> & Hl & H). cbn [app]. split.
  - intros ->. cbn in Hl. unfold split_str in Hl. destruct (String.length _); cbn [split_fuel] in Hl; [discriminate|]. destruct (find_first _ _) as [(b, a)|]; discriminate.
  - intros k c Hk. destruct (H _ _ Hk) as (H1 & H2 & _). split; [lia|exact H2].
Qed.
Lemma parse_files_loop_ok game_id files : forall acc cs, numbered_in_order game_id acc -> parse_files_loop game_id files acc = Ok cs ->
  numbered_in_order game_id cs /\
  exists css, Forall2 (fun f l => exists content l0, snd f = Ok content /\ parse_file content game_id = Ok l0 /\
                  map (fun c => (tc_input c, tc_output c, tc_dice c)) l = map (fun c => (tc_input c, tc_output c, tc_dice c)) l0) files css /\ cs = acc ++ concat css.
Proof.
  induction files as [|(name, content) files IH]; intros acc cs Ha; cbn [parse_files_loop].
  - intros [= <-]. split; [exact Ha|]. exists []. rewrite app_nil_r. split; [constructor|reflexivity].
  - destruct content as [content|e|p]; try discriminate. destruct (parse_file content game_id) as [l0|e|p] eqn:E; try discriminate. intros H.
    set (l := map (add_index (Z.of_nat (length acc))) l0) in *. destruct (IH (acc ++ l) cs) as (H1 & css & H2 & H3); [|exact H|].
    + intros k c Hk. destruct (Nat.lt_ge_cases k (length acc)) as [Hlt|Hge].
      * rewrite nth_error_app1 in Hk by exact Hlt. exact (Ha _ _ Hk).
      * rewrite nth_error_app2 in Hk by exact Hge. unfold l in Hk. rewrite nth_error_map in Hk. destruct (nth_error l0 (k - length acc)) as [c0|] eqn:E0; [|discriminate]. injection Hk as <-.
        apply parse_file_ok in E as (_ & E). destruct (E _ _ E0) as (K1 & K2). cbn [add_index tc_index tc_game_id]. split; [lia|exact K2].
    + split; [exact H1|]. exists (l :: css). split.
      * constructor; [|exact H2]. exists content, l0. split; [reflexivity|]. split; [exact E|]. unfold l. rewrite map_map. reflexivity.
      * cbn [concat]. rewrite app_assoc. exact H3.
Qed.
