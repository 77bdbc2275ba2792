(** The errors of Parse on a valid text. *)
From Verif Require Import Grammar PegText ProofBase SpecGrammar SpecErrors TextFacts ErrInv ErrTwo ErrErase PegProofs GrammarSound ParseSound DecodeProofs PegTotal PegForward.
From Verif Require Prop_games.
From Coq Require Import Permutation Sorting.Sorted.
Open Scope list_scope.
Open Scope Z_scope.

(** ** The list of suggestions *)
Lemma dedupe_in seen l x : In x (dedupe seen l) <-> In x l /\ ~ In x seen.
Proof.
  revert seen. induction l as [|s l IH]; intros seen; cbn [dedupe]; [cbn; tauto|]. destruct (existsb (String.eqb s) seen) eqn:E.
  - apply existsb_exists in E as (y & Hy & E). apply String.eqb_eq in E as <-. rewrite IH. cbn. split; [tauto|]. intros ([<-|H] & H2); [contradiction|tauto].
  - assert (~ In s seen) as Hs. { intros H. assert (existsb (String.eqb s) seen = true) as E2 by (apply existsb_exists; exists s; split; [exact H|apply String.eqb_refl]). congruence. }
    cbn. rewrite IH. cbn. split.
    + intros [<-|(H & H2)]; [tauto|]. split; [tauto|]. intros H3. apply H2. right. exact H3.
    + intros (H & H2). destruct (string_dec s x) as [->|Hn]; [tauto|]. right. destruct H as [->|H]; [congruence|]. split; [exact H|]. intros [H3|H3]; tauto.
Qed.
Lemma dedupe_nodup l : forall seen, NoDup (dedupe seen l).
Proof.
  induction l as [|s l IH]; intros seen; cbn [dedupe]; [constructor|]. destruct (existsb (String.eqb s) seen); [apply IH|]. constructor; [|apply IH]. rewrite dedupe_in. cbn. tauto.
Qed.
Lemma sort_in l x : In x (sort_strings l) <-> In x l.
Proof. split; apply Permutation_in; [symmetry|]; apply Prop_games.sort_perm. Qed.
Lemma eof_mark l : existsb (String.eqb "!.") l = true <-> In "!."%string l.
Proof. rewrite existsb_exists. split; [intros (x & H & E); apply String.eqb_eq in E as <-; exact H|intros H; exists "!."%string; split; [exact H|reflexivity]]. Qed.
Lemma expected_in l item : In item (expected_list l) -> exists x, In x l /\ (expected_text x = "!."%string /\ item = "EOF"%string \/ expected_text x <> "!."%string /\ item = expected_text x).
Proof.
  unfold expected_list. intros H. apply in_app_or in H as [H|H].
  - apply sort_in, filter_In in H as (H & Hn). apply dedupe_in in H as (H & _). apply in_map_iff in H as (x & <- & Hx). exists x. split; [exact Hx|]. right. split; [|reflexivity]. intros E. rewrite E in Hn. discriminate Hn.
  - destruct (existsb (String.eqb "!.") (dedupe [] (map expected_text l))) eqn:E; [|destruct H]. destruct H as [<-|[]]. apply eof_mark, dedupe_in in E as (E & _). apply in_map_iff in E as (x & Ex & Hx). exists x. auto.
Qed.
Lemma expected_nonempty l : l <> [] -> expected_list l <> [].
Proof.
  intros Hl. destruct l as [|x l]; [congruence|]. intros H. unfold expected_list in H. apply app_eq_nil in H as (H1 & H2).
  assert (In (expected_text x) (dedupe [] (map expected_text (x :: l)))) as Hx by (apply dedupe_in; cbn; tauto).
  destruct (string_dec (expected_text x) "!.") as [E|E].
  - rewrite E in Hx. apply eof_mark in Hx. rewrite Hx in H2. discriminate H2.
  - assert (In (expected_text x) (sort_strings (filter (fun s => negb (String.eqb s "!.")) (dedupe [] (map expected_text (x :: l)))))) as Hi.
    { apply sort_in, filter_In. split; [exact Hx|]. apply String.eqb_neq in E. rewrite E. reflexivity. }
    rewrite H1 in Hi. exact Hi.
Qed.
(** sorted and without repetitions, the end of the text last *)
Definition in_order (items : list string) : Prop := exists l, StronglySorted (fun s t => string_leb s t = true) l /\ NoDup l /\ ~ In "EOF"%string l /\ (items = l \/ items = l ++ ["EOF"%string]).
Lemma known_texts x : known x -> x <> (true, WAny) -> exists b s, expected_text x = String b s /\ (b = "034"%char \/ b = "["%char).
Proof.
  intros H Hn. unfold known, table in H. cbn [map app In] in H.
  repeat (destruct H as [<-|H]; [first [exfalso; apply Hn; reflexivity|eexists; eexists; split; [vm_compute; reflexivity|auto]]|]). destruct H.
Qed.
Lemma expected_order l : Forall known l -> in_order (expected_list l).
Proof.
  intros Hk. unfold expected_list. set (texts := dedupe [] (map expected_text l)). exists (sort_strings (filter (fun s => negb (String.eqb s "!.")) texts)). split; [apply Prop_games.sort_sorted|].
  split; [eapply Permutation_NoDup; [apply Prop_games.sort_perm|]; apply NoDup_filter, dedupe_nodup|]. split.
  - intros H. apply sort_in, filter_In in H as (H & _). unfold texts in H. apply dedupe_in in H as (H & _). apply in_map_iff in H as (x & Ex & Hx). pose proof (proj1 (Forall_forall _ _) Hk x Hx) as K.
    destruct (known_texts x K) as (b & s & E & Hb); [intros ->; discriminate Ex|]. rewrite Ex in E. injection E as <- _. destruct Hb; discriminate.
  - destruct (existsb (String.eqb "!.") texts); [right; reflexivity|left; apply app_nil_r].
Qed.

Lemma known_word x : known x -> In (if string_dec (expected_text x) "!." then "EOF"%string else expected_text x) vocabulary.
Proof.
  intros H. apply (in_map (fun x => if string_dec (expected_text x) "!." then "EOF"%string else expected_text x)) in H. revert H. generalize (if string_dec (expected_text x) "!." then "EOF"%string else expected_text x). intros s H.
  assert (forallb (fun s => existsb (String.eqb s) vocabulary) (map (fun x => if string_dec (expected_text x) "!." then "EOF"%string else expected_text x) table) = true) as T by (vm_compute; reflexivity).
  rewrite forallb_forall in T. apply T in H. apply existsb_exists in H as (y & Hy & E). apply String.eqb_eq in E as ->. exact Hy.
Qed.
Lemma expected_vocabulary l : Forall known l -> Forall (fun i => In i vocabulary) (expected_list l).
Proof.
  intros Hk. apply Forall_forall. intros i Hi. destruct (expected_in _ _ Hi) as (x & Hx & Ex). pose proof (known_word x (proj1 (Forall_forall _ _) Hk x Hx)) as K.
  destruct (string_dec (expected_text x) "!.") as [E|E]; destruct Ex as [(E1 & ->)|(E1 & ->)]; try congruence; exact K.
Qed.

(** ** From a suggestion to a terminal *)
Lemma begins_starts fold w : forall t, begins fold w t <-> starts (runes w) fold t = true.
Proof.
  induction w as [|a w IH]; intros t; [split; reflexivity || exact (fun _ => I)|]. destruct t as [|c t]; [split; [intros []|discriminate]|]. cbn [begins runes starts].
  change small_letter with to_lower. rewrite andb_true_iff, Z.eqb_eq, IH. reflexivity.
Qed.
Lemma quoted_inj w w' : quoted w = quoted w' -> w = w'.
Proof.
  unfold quoted. intros H. injection H as H. revert w' H. induction w as [|a w IH]; intros [|b w'] H; cbn in H; [reflexivity| | |].
  - injection H as _ H. destruct w'; discriminate H.
  - injection H as _ H. destruct w; discriminate H.
  - injection H as -> H. f_equal. apply IH, H.
Qed.
Lemma app_i_inj (a b : string) : (a ++ "i" = b ++ "i")%string -> a = b.
Proof.
  revert b. induction a as [|x a IH]; intros [|y b] H; cbn in H; [reflexivity| | |].
  - injection H as _ H. destruct b; discriminate H.
  - injection H as _ H. destruct a; discriminate H.
  - injection H as -> H. f_equal. apply IH, H.
Qed.
Lemma last_differs (a b : string) x y : x <> y -> (a ++ String x EmptyString = b ++ String y EmptyString)%string -> False.
Proof.
  intros Hxy. revert b. induction a as [|c a IH]; intros [|d b] H; cbn in H.
  - injection H as H. exact (Hxy H).
  - injection H as _ H. destruct b; discriminate H.
  - injection H as _ H. destruct a; discriminate H.
  - injection H as -> H. exact (IH _ H).
Qed.
Lemma quoted_last w : exists s, quoted w = (s ++ String "034" EmptyString)%string.
Proof. exists (String "034" w). reflexivity. Qed.
Lemma word_item w t : suggests (quoted w) t -> begins false w t.
Proof.
  intros H. remember (quoted w) as q eqn:E. destruct H as [|w' t' H'|w' t' H'|t' H'|t' H'|t' H'|t' H']; try discriminate E.
  - apply quoted_inj in E as ->. exact H'.
  - exfalso. destruct (quoted_last w) as (s & Es). rewrite Es in E. eapply (last_differs (quoted w') s "i" "034"); [discriminate|exact E].
Qed.
Lemma word_item_i w t : suggests (quoted w ++ "i")%string t -> begins true w t.
Proof.
  intros H. remember (quoted w ++ "i")%string as q eqn:E. destruct H as [|w' t' H'|w' t' H'|t' H'|t' H'|t' H'|t' H']; try discriminate E.
  - exfalso. destruct (quoted_last w') as (s & Es). rewrite Es in E. eapply (last_differs s (quoted w) "034" "i"); [discriminate|exact E].
  - apply app_i_inj, quoted_inj in E as ->. exact H'.
Qed.
Definition item_of (x : bool * want) : string := if string_dec (expected_text x) "!." then "EOF"%string else expected_text x.
Lemma class_item q P t : (forall t', suggests q t' <-> first_is P t') -> suggests q t <-> exists c l, t = c :: l /\ P (gc_rune c).
Proof. intros H. rewrite H. destruct t as [|c t]; cbn [first_is]; [split; [intros []|intros (c & l & E & _); discriminate E]|]. split; [intros Hp; exists c, t; auto|intros (c' & l & E & Hp); injection E as -> ->; exact Hp]. Qed.
Lemma class_hits c t : hits (false, WClass c) t <-> exists x l, t = x :: l /\ class_match c (gc_rune x) = true.
Proof. cbn [hits]. unfold class_at. destruct t as [|x t]; [split; [discriminate|intros (x & l & E & _); discriminate E]|]. split; [intros H; exists x, t; auto|intros (x' & l & E & H); injection E as -> ->; exact H]. Qed.
Ltac sug_inv := intros H; match type of H with suggests ?q _ => remember q as q' eqn:E; destruct H; try discriminate E; assumption end.
Lemma suggests_hits x t : known x -> suggests (item_of x) t <-> hits x t.
Proof.
  intros Hk. unfold known, table in Hk. apply in_inv in Hk as [<-|Hk].
  - change (item_of (true, WAny)) with "EOF"%string. cbn [hits]. split; [intros H; inversion H; subst; try reflexivity; discriminate|intros ->; constructor].
  - apply in_app_or in Hk as [Hk|Hk]; [|apply in_app_or in Hk as [Hk|Hk]].
    + cbn [map In] in Hk. destruct Hk as [<-|[<-|[<-|[<-|[]]]]]; rewrite class_hits.
      * change (item_of _) with "[\pZ]"%string. rewrite (class_item _ (fun r => In r separators)) by (intros t'; split; [sug_inv|apply sug_space]).
        split; intros (c & l & -> & H); exists c, l; (split; [reflexivity|]); unfold class_match, class_hit in *; cbn [cc_inverted cc_chars cc_ranges cc_Z cc_ignore_case existsb orb andb xorb fst snd] in *.
        -- rewrite (proj2 (is_Z_iff c) H). reflexivity.
        -- apply is_Z_iff. destruct (is_Z (gc_rune c)); [reflexivity|discriminate H].
      * change (item_of _) with "[^\],]"%string. rewrite (class_item _ (fun r => r <> 93 /\ r <> 44)) by (intros t'; split; [sug_inv|apply sug_item]).
        split; intros (c & l & -> & H); exists c, l; (split; [reflexivity|]); unfold class_match, class_hit in *; change (runes "],") with [93; 44] in *; cbn [cc_inverted cc_chars cc_ranges cc_Z cc_ignore_case existsb orb andb xorb fst snd] in *; destruct (Z.eqb_spec (gc_rune c) 93), (Z.eqb_spec (gc_rune c) 44); cbn [orb negb] in *; try discriminate H; try reflexivity; lia.
      * change (item_of _) with "[ur]i"%string. rewrite (class_item _ (fun r => small_letter r = 117 \/ small_letter r = 114)) by (intros t'; split; [sug_inv|apply sug_ur]). change small_letter with to_lower.
        split; intros (c & l & -> & H); exists c, l; (split; [reflexivity|]); unfold class_match, class_hit in *; change (runes "ur") with [117; 114] in *; cbn [cc_inverted cc_chars cc_ranges cc_Z cc_ignore_case existsb orb andb xorb fst snd] in *; revert H; generalize (to_lower (gc_rune c)); intros r H; destruct (Z.eqb_spec r 117), (Z.eqb_spec r 114); cbn [orb negb] in *; try discriminate H; try reflexivity; lia.
      * change (item_of _) with "[0-9]"%string. rewrite (class_item _ (fun r => 48 <= r <= 57)) by (intros t'; split; [sug_inv|apply sug_digit]).
        split; intros (c & l & -> & H); exists c, l; (split; [reflexivity|]); unfold class_match, class_hit in *; cbn [cc_inverted cc_chars cc_ranges cc_Z cc_ignore_case existsb orb andb xorb fst snd] in *; unfold in_range in *; destruct (Z.leb_spec 48 (gc_rune c)), (Z.leb_spec (gc_rune c) 57); cbn [orb andb negb] in *; try discriminate H; try reflexivity; lia.
    + apply in_map_iff in Hk as (w & <- & Hw). cbn [hits]. rewrite <- begins_starts. replace (item_of (false, WLit (runes w) false)) with (quoted w); [split; [apply word_item|apply sug_word]|].
      cbn [In] in Hw. repeat (destruct Hw as [<-|Hw]; [vm_compute; reflexivity|]). destruct Hw.
    + apply in_map_iff in Hk as (w & <- & Hw). cbn [hits]. rewrite <- begins_starts. replace (item_of (false, WLit (runes w) true)) with (quoted w ++ "i")%string; [split; [apply word_item_i|apply sug_word_i]|].
      cbn [In] in Hw. repeat (destruct Hw as [<-|Hw]; [vm_compute; reflexivity|]). destruct Hw.
Qed.
Lemma expected_all l x : In x l -> In (item_of x) (expected_list l).
Proof.
  intros H. assert (In (expected_text x) (dedupe [] (map expected_text l))) as Hx by (apply dedupe_in; split; [apply in_map, H|intros []]).
  unfold expected_list, item_of. apply in_or_app. destruct (string_dec (expected_text x) "!.") as [E|E].
  - right. rewrite E in Hx. apply eof_mark in Hx. rewrite Hx. left. reflexivity.
  - left. apply sort_in, filter_In. split; [exact Hx|]. apply String.eqb_neq in E. rewrite E. reflexivity.
Qed.

(** ** Texts of messages *)
Lemma app_assoc_str (a b c : string) : ((a ++ b) ++ c = a ++ b ++ c)%string.
Proof. induction a as [|x a IH]; cbn; [reflexivity|]. rewrite IH. reflexivity. Qed.
Lemma join_cons' sep a (l : list string) : l <> [] -> join sep (a :: l) = (a ++ sep ++ join sep l)%string.
Proof. destruct l; [congruence|reflexivity]. Qed.
Lemma or_list_join l b : l <> [] -> or_list (l ++ [b]) = (join ", " l ++ " or " ++ b)%string.
Proof.
  induction l as [|a l IH]; [congruence|]. intros _. destruct l as [|a' l]; [reflexivity|]. rewrite join_cons' by discriminate. rewrite !app_assoc_str, <- (IH ltac:(discriminate)). cbn [app].
  destruct l; reflexivity.
Qed.
Lemma list_join_or l : list_join l ", " "or" = or_list l.
Proof.
  unfold list_join. destruct (rev l) as [|b r] eqn:E.
  - apply (f_equal (@rev _)) in E. rewrite rev_involutive in E. subst l. reflexivity.
  - apply (f_equal (@rev _)) in E. rewrite rev_involutive in E. cbn [rev] in E. subst l. destruct r as [|c r]; [reflexivity|]. rewrite or_list_join by (intros H; apply (f_equal (@rev _)) in H; rewrite rev_involutive in H; discriminate). reflexivity.
Qed.
Lemma err_text_no_match F t k items : err_text F (PErr (fspot t k) None ("no match found, expected: " ++ list_join items ", " "or")%string) = no_match_error F (place t k) items.
Proof.
  rewrite fspot_place, list_join_or. unfold err_text, no_match_error, place_text, file_prefix. destruct (place t k) as ((l, c), o). cbn [e_pos e_rule e_text pos_of p_line p_col p_offset].
  replace (if String.eqb F "" then ""%string else (F ++ ":")%string) with (match F with EmptyString => EmptyString | _ => (F ++ ":")%string end) by (destruct F; reflexivity).
  rewrite !app_assoc_str. reflexivity.
Qed.
Lemma single_text F e : errs_text F [e] = err_text F e.
Proof. reflexivity. Qed.

(** ** Which errors are recorded *)
Definition dice_err (p : position) (c : bool) : perr rule := PErr p (Some (if c then DRollCompCommand else DRollExprCommand)) "random element not found".
(** An expression that cannot begin with a line feed *)
Fixpoint stuck (n : nat) (e : expr rule) : bool :=
  match n with
  | O => false
  | S n =>
      match e with
      | EAction _ e | ELabel _ e | EPlus e => stuck n e
      | EChoice alts => forallb (stuck n) alts
      | ESeq (e :: _) => stuck n e
      | ELit (w :: _) _ => negb (w =? 10)
      | EClass c => negb (class_match c 10)
      | ERef r => stuck n (rules r)
      | _ => false
      end
  end.
Lemma stuck_ok f : forall n e d c l, stuck n e = true -> d_rest d = c :: l -> newline c = true -> valid (d_rest d) ->
  match dexpr rules f e d with Some (PMatch _, _, _) => False | Some (PFail, d', _) => d_rest d' = d_rest d | _ => True end.
Proof.
  induction f as [|f IH]; intros n e d c l Hs Hd Hc V; [exact I|]. destruct n as [|n]; [discriminate Hs|]. destruct e as [act e|lb e|alts|es|lt ic|cl| |r|e|e|e|e|g]; cbn [stuck] in Hs; cbn [dexpr]; try discriminate Hs.
  - specialize (IH n e d c l Hs Hd Hc V). destruct (dexpr rules f e d) as [[[[v| |m] d'] k]|]; [destruct IH|exact IH|exact I|exact I].
  - specialize (IH n e (d_set_env d []) c l Hs Hd Hc V). destruct (dexpr rules f e (d_set_env d [])) as [[[[v| |m] d'] k]|]; [destruct IH|exact IH|exact I|exact I].
  - assert (forall es x k, forallb (stuck n) es = true -> d_rest x = d_rest d -> match d_choice_loop (dexpr rules f) es x k with Some (PMatch _, _, _) => False | Some (PFail, d', _) => d_rest d' = d_rest d | _ => True end) as Hl; [|apply Hl; [exact Hs|reflexivity]].
    induction es as [|e es IHe]; intros x k Hes Hx; cbn [d_choice_loop]; [exact Hx|]. cbn [forallb] in Hes. apply andb_prop in Hes as (He & Hes).
    pose proof (IH n e (d_set_env x []) c l He (eq_trans Hx Hd) Hc (eq_ind_r valid V Hx)) as H. destruct (dexpr rules f e (d_set_env x [])) as [[[[v| |m] d'] k']|]; [destruct H| |exact I|exact I]. apply IHe; [exact Hes|]. cbn. cbn in H. congruence.
  - destruct es as [|e es]; [discriminate Hs|]. cbn [d_seq_loop]. specialize (IH n e d c l Hs Hd Hc V). destruct (dexpr rules f e d) as [[[[v| |m] d'] k]|]; [destruct IH|reflexivity|exact I|exact I].
  - destruct lt as [|w lt]; [discriminate Hs|]. cbn [d_lit_loop]. rewrite Hd. unfold newline in Hc. apply Z.eqb_eq in Hc. rewrite Hc. change (to_lower 10) with 10. replace (if ic then 10 else 10) with 10 by (destruct ic; reflexivity).
    apply negb_true_iff in Hs. rewrite Z.eqb_sym in Hs. rewrite Hs. cbn [dret]. reflexivity.
  - rewrite Hd. unfold newline in Hc. apply Z.eqb_eq in Hc. rewrite Hc. apply negb_true_iff in Hs. rewrite Hs. cbn [dret]. unfold fail_at. destruct (Bool.eqb _ _); [|exact Hd]. destruct (_ <? _); exact Hd.
  - specialize (IH n (rules r) (d_set_rstack (d_set_env d []) (r :: d_rstack d)) c l Hs Hd Hc V). destruct (dexpr rules f (rules r) _) as [[[[v| |m] d'] k]|]; [destruct IH|exact IH|exact I|exact I].
  - assert (forall k x m, d_rest x = d_rest d -> match d_star_loop k (dexpr rules f e) true x [] m with Some (PMatch _, _, _) => False | Some (PFail, d', _) => d_rest d' = d_rest d | _ => True end) as Hl; [|apply Hl; reflexivity].
    intros k x m Hx. destruct k as [|k]; [exact I|]. cbn [d_star_loop].
    pose proof (IH n e (d_set_env x []) c l Hs (eq_trans Hx Hd) Hc (eq_ind_r valid V Hx)) as H. destruct (dexpr rules f e (d_set_env x [])) as [[[[v| |m'] d'] k']|]; [destruct H|cbn in *; congruence|exact I|exact I].
Qed.

(** The text begins with an expression in which no die was counted, and a target if [c] *)
Definition undiced (c : bool) (l : text) : Prop :=
  exists e t u rest, l = t ++ u ++ rest /\ sp_dexpr e t /\ wrap64 (total dcount e) < 1 /\ if c then exists op g, sp_target op g u else u = [].
Section Run.
  Variable a : text.
  Hypothesis V : valid a.
  Hypothesis R : Forall (fun c => gc_raw c <> EmptyString) a.
  Hypothesis P : Forall plain a.

  Lemma at_valid i j d : at_ a i j d -> valid (d_rest d).
  Proof. intros A. rewrite (at_rest _ _ _ _ A). rewrite <- (firstn_skipn i a) in V. apply valid_app in V. apply V. Qed.
  Lemma at_counted i j d c : at_ a i j d -> in_int64 c -> d_st d = Some c -> counted (erase d).
  Proof. intros A Hc Hs. split; [|exists c; auto]. cbn. rewrite (at_rest _ _ _ _ A). rewrite <- (firstn_skipn i a) in P. apply Forall_app in P. apply P. Qed.
  Lemma errs_kept d d' : grown d d' -> map e_text (d_errs d') = map e_text (d_errs d) -> d_errs d' = d_errs d.
  Proof.
    intros (_ & _ & x & E) Hm. rewrite E, map_app in Hm. rewrite E. destruct x as [|y x]; [apply app_nil_r|]. apply (f_equal (@length _)) in Hm. rewrite app_length, !map_length in Hm. cbn in Hm. lia.
  Qed.
  Lemma inner_errs f r i j d c : inner r = true -> at_ a i j d -> in_int64 c -> d_st d = Some c ->
    match dexpr rules f (ERef r) d with Some (PMatch _, d', _) | Some (PFail, d', _) => d_errs d' = d_errs d | _ => True end.
  Proof.
    intros Hr A Hc Hs. pose proof (rule_sound f r (erase d) Hr (at_counted _ _ _ _ A Hc Hs)) as H. unfold wpp, holds in H. rewrite (erase_dexpr rules f (ERef r) d) in H.
    assert (plain_e true (ERef r)) as Hp by reflexivity. pose proof (dexpr_good a V R true f (ERef r) i j d Hp A) as G.
    assert (forall d', grown d d' -> map e_text (d_errs d') = map e_text (d_errs d) -> d_errs d' = d_errs d) as Hlen by apply errs_kept.
    destruct (dexpr rules f (ERef r) d) as [[[[v| |m] d'] n]|]; cbn [erase_out] in H; [| |exact I|exact I]; cbn [run_ok] in G.
    - destruct G as (i' & j' & _ & _ & _ & G). apply (Hlen d' G). destruct H as (t & k & S & _). apply S. apply (at_valid _ _ _ A).
    - destruct G as (j' & _ & _ & _ & G & _). apply (Hlen d' G). apply H. apply (at_valid _ _ _ A).
  Qed.

  Definition no_newline : Prop := forall x l, a = x :: l -> newline x = false.
  Lemma zero_ok : in_int64 0.
  Proof. unfold in_int64, min_int, max_int, two63. lia. Qed.

  (** *** Alternatives *)
  (** an alternative that records no error, or "random element not found" *)
  Definition quiet_alt (e : expr rule) : Prop := forall f j d, at_ a 0 j d -> d_st d = Some 0 ->
    match dexpr rules f e d with
    | Some (PMatch _, d', _) => d_errs d' = d_errs d \/ exists c, d_errs d' = d_errs d ++ [dice_err (d_pt d) c] /\ no_newline /\ undiced c a
    | Some (PFail, d', _) => d_errs d' = d_errs d
    | _ => True
    end.
  (** an alternative that certainly fails *)
  Definition alt_fails (e : expr rule) : Prop := forall f j d, at_ a 0 j d -> d_st d = Some 0 ->
    match dexpr rules f e d with Some (PFail, d', _) => d_errs d' = d_errs d | None => True | _ => False end.
  (** an alternative that certainly records the error *)
  Definition alt_hits (c : bool) (e : expr rule) : Prop := forall f j d, at_ a 0 j d -> d_st d = Some 0 ->
    match dexpr rules f e d with Some (PMatch _, d', _) => d_errs d' = d_errs d ++ [dice_err (d_pt d) c] /\ no_newline | None => True | _ => False end.
  (** an alternative without errors *)
  Definition alt_pre (U : Prop) (e : expr rule) : Prop := forall f j d, at_ a 0 j d -> d_st d = Some 0 ->
    match dexpr rules f e d with Some (PMatch _, d', _) => d_errs d' = d_errs d /\ U | Some (PFail, d', _) => d_errs d' = d_errs d | _ => True end.

  Lemma inner_pre r : inner r = true -> alt_pre True (ERef r).
  Proof. intros Hr f j d A Hs. pose proof (inner_errs f r 0%nat j d 0 Hr A zero_ok Hs) as H. destruct (dexpr rules f (ERef r) d) as [[[[v| |m] d'] n]|]; auto. Qed.
  Lemma inner_quiet r : inner r = true -> quiet_alt (ERef r).
  Proof. intros Hr f j d A Hs. pose proof (inner_pre r Hr f j d A Hs) as H. destruct (dexpr rules f (ERef r) d) as [[[[v| |m] d'] n]|]; auto. left. apply H. Qed.
  Lemma rest_all j d : at_ a 0 j d -> d_rest d = a.
  Proof. intros A. exact (at_rest _ _ _ _ A). Qed.
  Lemma erased j d : at_ a 0 j d -> d_st d = Some 0 -> erase d = PState a (Some 0) (map e_text (d_errs d)) (d_env d).
  Proof. intros A Hs. unfold erase. rewrite (rest_all j d A), Hs. reflexivity. Qed.
  Lemma Fl_fails e : plain_e true e -> Fl e a -> alt_fails e.
  Proof.
    intros Hp H f j d A Hs. pose proof (erase_dexpr rules f e d) as E. rewrite (erased j d A Hs) in E. destruct (H 0 (map e_text (d_errs d)) (d_env d) zero_ok) as (E' & f0 & Hf). destruct (Hf f0 (le_n _)) as (n & Hn).
    pose proof (dexpr_good a V R true f e 0%nat j d Hp A) as G. destruct (dexpr rules f e d) as [((r, d'), n')|]; [|exact I]. cbn [erase_out] in E.
    pose proof (pexpr_det rules _ _ _ _ _ _ Hn E) as D. injection D as <- _ _ D _ _. cbn [run_ok] in G. destruct G as (j' & _ & _ & _ & G & _). apply (errs_kept d d' G). symmetry. exact D.
  Qed.
  Lemma fails_pre U e : alt_fails e -> alt_pre U e.
  Proof. intros H f j d A Hs. specialize (H f j d A Hs). destruct (dexpr rules f e d) as [[[[v| |m] d'] n]|]; auto. destruct H. Qed.

  (** the two commands that check for random elements *)
  Definition d_cmd (c : bool) : rule := if c then DRollCompCommand else DRollExprCommand.
  Definition d_in (c : bool) : rule := if c then DRollComp else DRollExpr.
  Definition d_ct (c : bool) : cmdtype := if c then CDRollComp else CDRollExpr.
  Lemma d_cmd_rule c : rules (d_cmd c) = EAction (act_d_command (d_ct c)) (ELabel "expr" (ERef (d_in c))).
  Proof. destruct c; reflexivity. Qed.
  Lemma d_in_inner c : inner (d_in c) = true.
  Proof. destruct c; reflexivity. Qed.
  Lemma d_in_stuck c : stuck 40 (ERef (d_in c)) = true.
  Proof. destruct c; vm_compute; reflexivity. Qed.
  Lemma d_in_lacks c t v k rest : Post (d_in c) t v k -> wrap64 k < 1 -> undiced c (t ++ rest).
  Proof.
    destruct c.
    - intros (e & op & g & t1 & t2 & -> & -> & He & Hg & ->) Hk. exists e, t1, t2, rest. rewrite <- app_assoc. eauto 10.
    - intros (e & -> & He & ->) Hk. exists e, t, [], rest. auto.
  Qed.
  Lemma d_cmd_run (c : bool) f j d : at_ a 0 j d -> d_st d = Some 0 ->
    match dexpr rules f (ERef (d_cmd c)) d with
    | Some (PMatch _, d', _) => exists t v k, a = t ++ d_rest d' /\ Post (d_in c) t v k /\ d_st d' = Some (wrap64 k) /\
        (if wrap64 k <? 1 then d_errs d' = d_errs d ++ [dice_err (d_pt d) c] /\ no_newline else d_errs d' = d_errs d)
    | Some (PFail, d', _) => d_errs d' = d_errs d
    | _ => True
    end.
  Proof.
    intros A Hs. destruct f as [|f]; [exact I|]. cbn [dexpr]. rewrite d_cmd_rule. destruct f as [|f]; [exact I|]. cbn [dexpr]. destruct f as [|f]; [exact I|]. cbn [dexpr].
    set (q := d_in c). set (d1 := d_set_env (d_set_rstack (d_set_env d []) (d_cmd c :: d_rstack d)) []).
    assert (inner q = true) as Hq by apply d_in_inner.
    assert (at_ a 0 j d1) as A1 by (apply -> at_set_env; apply -> at_set_rstack; apply -> at_set_env; exact A).
    pose proof (inner_errs f q 0%nat j d1 0 Hq A1 zero_ok Hs) as H.
    assert (plain_e true (ERef q)) as Hp by reflexivity. pose proof (dexpr_good a V R true f (ERef q) 0%nat j d1 Hp A1) as G.
    assert (match dexpr rules f (ERef q) d1 with Some (PMatch _, _, _) => no_newline | _ => True end) as Hnl.
    { assert (forall x l, a = x :: l -> newline x = false \/ match dexpr rules f (ERef q) d1 with Some (PMatch _, _, _) => False | _ => True end) as Hx.
      { intros x l Hx. rewrite <- (rest_all j d A) in Hx. destruct (newline x) eqn:E; [right|left; reflexivity].
        pose proof (stuck_ok f 40 (ERef q) d1 x l (d_in_stuck c) Hx E (at_valid _ _ _ A1)) as Hk. destruct (dexpr rules f (ERef q) d1) as [[[[v| |m] d'] n]|]; auto. }
      destruct (dexpr rules f (ERef q) d1) as [[[[v| |m] d'] n]|]; auto. intros x l E. destruct (Hx x l E) as [?|[]]. assumption. }
    pose proof (rule_sound f q (erase d1) Hq (at_counted _ _ _ _ A1 zero_ok Hs)) as Hrs. unfold wpp, holds in Hrs. rewrite (erase_dexpr rules f (ERef q) d1) in Hrs.
    destruct (dexpr rules f (ERef q) d1) as [[[[v| |m] d'] n]|]; cbn [dret]; [|exact H|exact I|exact I]. cbn [run_ok] in G. destruct G as (i' & j' & _ & _ & _ & G1 & _).
    cbn [erase_out] in Hrs. destruct Hrs as (t & k0 & (R1 & _ & _ & c0 & C1 & C2 & C3) & _ & Hpo).
    assert (c0 = 0) as ->. { cbn in C2. rewrite Hs in C2. clear - C2. congruence. }
    rewrite Z.add_0_l in C3. cbn in C3, R1. rewrite (rest_all j d A) in R1.
    unfold act_d_command. cbn [d_st d_set_env d_rest]. rewrite C3. destruct (wrap64 k0 <? 1) eqn:Ek1.
    - cbn. exists t, v, k0. split; [exact R1|]. split; [exact Hpo|]. split; [exact C3|]. rewrite Ek1. split; [|exact Hnl]. rewrite H, G1. cbn. destruct c; reflexivity.
    - destruct (as_node _) as [w|w]; cbn [abind dret]; [|exact I]. exists t, v, k0. split; [exact R1|]. split; [exact Hpo|]. split; [exact C3|]. rewrite Ek1. exact H.
  Qed.
  Lemma d_cmd_quiet c : quiet_alt (ERef (d_cmd c)).
  Proof.
    intros f j d A Hs. pose proof (d_cmd_run c f j d A Hs) as H. destruct (dexpr rules f (ERef (d_cmd c)) d) as [[[[v| |m] d'] n]|]; auto. destruct H as (t & w & k & E & Hp & _ & H).
    destruct (wrap64 k <? 1) eqn:Ek; [right|left; exact H]. exists c. destruct H as (H & Hn). split; [exact H|]. split; [exact Hn|]. rewrite E. apply (d_in_lacks c t w k _ Hp). lia.
  Qed.
  (** if the expression is read and has no random element, the error is recorded *)
  Lemma d_cmd_hits c v l' : M (ERef (d_in c)) a [] v l' 0 -> alt_hits c (ERef (d_cmd c)).
  Proof.
    intros Hm f j d A Hs. pose proof (d_cmd_run c f j d A Hs) as H. pose proof (erase_dexpr rules f (ERef (d_cmd c)) d) as E. rewrite (erased j d A Hs) in E.
    destruct (Hm 0 (map e_text (d_errs d)) [] zero_ok) as (f0 & Hf). destruct (Hf (Nat.max f0 f) ltac:(lia)) as (n & Hn). cbn [app] in Hn.
    destruct (dexpr rules f (ERef (d_cmd c)) d) as [((r, d'), n')|] eqn:Ed; [|exact I]. cbn [erase_out] in E.
    assert (pexpr rules (S (S (S (Nat.max f0 f)))) (ERef (d_cmd c)) (PState a (Some 0) (map e_text (d_errs d)) (d_env d)) =
      Some (PMatch VNil, PState l' (Some 0) (map e_text (d_errs d) ++ ["random element not found"%string]) (d_env d), (1 + (1 + (1 + n)))%N)) as Hr.
    { cbn [pexpr]. rewrite d_cmd_rule. cbn [pexpr]. unfold set_env at 1 2. cbn [ps_rest ps_st ps_errs ps_env]. rewrite Hn. reflexivity. }
    pose proof (pexpr_det rules _ _ _ _ _ _ Hr E) as D. injection D as <- _ _ D _ _. destruct H as (t & w & k & _ & _ & S1 & H). destruct (wrap64 k <? 1); [exact H|exfalso].
    rewrite H in D. apply (f_equal (@length _)) in D. rewrite app_length in D. cbn in D. lia.
  Qed.

  (** *** The whole command; U: it is possible that there is no error *)
  Section Outer.
  Variable U : Prop.
  Variable K : bool -> Prop.
  Definition outcome_ok (d d' : dstate rule) : Prop := d_errs d' = d_errs d /\ U \/ exists c, d_errs d' = d_errs d ++ [dice_err (d_pt d) c] /\ no_newline /\ K c.
  Definition errs_ok (d : dstate rule) (o : @dout rule) : Prop :=
    match o with
    | Some (PMatch _, d', _) => outcome_ok d d'
    | Some (PFail, d', _) => d_errs d' = d_errs d /\ U
    | _ => True
    end.
  Definition errs_one (d : dstate rule) (o : @dout rule) : Prop := match o with Some (PMatch _, d', _) | Some (PFail, d', _) => outcome_ok d d' | _ => True end.
  Definition dice_alts : list (expr rule) := [ERef BRollComp; ERef BRollList; ERef RRollComp; ERef RRollList; ERef URollComp; ERef URollExpr; ERef DRollCompCommand; ERef DRollExprCommand].
  Hypothesis HK : forall f j d n, at_ a 0 j d -> d_st d = Some 0 -> errs_ok d (d_choice_loop (dexpr rules f) dice_alts d n).
  Hypothesis Hpre : Forall (alt_pre U) [ERef Choice; ERef Calc].

  Lemma label_quiet f l j d : at_ a 0 j d -> d_st d = Some 0 -> errs_ok d (dexpr rules f (ELabel l (EChoice dice_alts)) d).
  Proof.
    intros A Hs. destruct f as [|[|f]]; [exact I|exact I|]. cbn [dexpr]. assert (at_ a 0 j (d_set_env d [])) as A1 by (apply -> at_set_env; exact A).
    pose proof (HK f j _ 1%N A1 Hs) as H. destruct (d_choice_loop _ _ _ _) as [[[[v| |m] d'] n]|]; exact H || exact I.
  Qed.
  (** The end of the text adds no error *)
  Lemma eot_errs f i j d : at_ a i j d -> match dexpr rules f (ERef EOT) d with Some (PMatch _, d', _) | Some (PFail, d', _) => d_errs d' = d_errs d | _ => True end.
  Proof.
    intros A. destruct f as [|[|[|f]]]; [exact I|exact I|exact I|]. cbn [dexpr rules]. set (d1 := d_set_invert _ _). change (d_rest d1) with (d_rest d). rewrite (at_rest _ _ _ _ A).
    assert (d_invert d = false) as Hi by apply A. unfold d1. cbn [d_invert d_set_rstack d_set_env]. rewrite Hi. cbn [negb]. destruct (skipn i a) as [|c l] eqn:E; cbn [dret].
    - unfold fail_at. destruct (Bool.eqb _ _); [|reflexivity]. destruct (_ <? _); reflexivity.
    - assert (forall x b p w, d_errs (fail_at x b p w) = d_errs (R := rule) x) as Hf by (intros; unfold fail_at; destruct (Bool.eqb _ _); [destruct (_ <? _)|]; reflexivity).
      cbn [d_set_point d_set_st d_set_env d_set_invert d_errs d_set_rstack]. rewrite Hf. unfold d_read, d_arrive. cbn [d_rest d_set_point d_set_invert d_set_env d_pt d_set_rstack]. rewrite (at_rest _ _ _ _ A), E. cbn [tl]. destruct l as [|x l]; [reflexivity|].
      assert (gc_bad x = false) as ->; [|reflexivity]. pose proof (at_valid _ _ _ A) as Hv. rewrite (at_rest _ _ _ _ A), E in Hv. inversion Hv as [|? ? _ Hv']. inversion Hv'. assumption.
  Qed.
  Lemma alts_plain : Forall (plain_e true) dice_alts.
  Proof. unfold dice_alts. repeat (apply Forall_cons; [reflexivity|]). apply Forall_nil. Qed.
  Lemma cwe_rule : rules CommandWithExpression = EAction (act_label "n") (ESeq [ELabel "n" (EChoice dice_alts); ERef EOT]).
  Proof. reflexivity. Qed.
  Lemma plain_go b l : Forall (plain_e b) l -> (fix go l := match l with [] => True | e :: l' => plain_e b e /\ go l' end) l.
  Proof. induction 1; [exact I|split; assumption]. Qed.
  Lemma cwe_errs f j d : at_ a 0 j d -> d_st d = Some 0 -> errs_one d (dexpr rules f (ERef CommandWithExpression) d).
  Proof.
    intros A Hs. destruct f as [|f]; [exact I|]. cbn [dexpr]. rewrite cwe_rule. destruct f as [|[|f]]; [exact I|exact I|]. cbn [dexpr d_seq_loop]. set (d1 := d_set_rstack _ _).
    assert (at_ a 0 j d1) as A1 by (apply -> at_set_rstack; apply -> at_set_env; exact A). set (e := ELabel _ _).
    pose proof (label_quiet f "n" j d1 A1 Hs) as H. fold e in H.
    assert (plain_e true e) as Hp by (split; [clear; discriminate|apply plain_go, alts_plain]).
    pose proof (dexpr_good a V R true f e 0%nat j d1 Hp A1) as G.
    destruct (dexpr rules f e d1) as [[[[v| |m] d3] n]|]; [|left; exact H|exact I|exact I]. cbn [run_ok errs_ok] in G, H.
    destruct G as (i' & j' & A3 & _). pose proof (eot_errs f i' j' d3 A3) as He.
    destruct (dexpr rules f (ERef EOT) d3) as [[[[v'| |m] d5] n']|]; [| |exact I|exact I]; cbn [dret errs_one]; unfold errs_one, outcome_ok, act_label; cbn [dret d_errs d_set_rstack d_set_env d_set_st d_set_point]; rewrite He; exact H.
  Qed.
  Lemma choice_last f e : (forall j d, at_ a 0 j d -> d_st d = Some 0 -> errs_one d (dexpr rules f e d)) ->
    forall es j d n, Forall (alt_pre U) es -> Forall (plain_e true) es -> at_ a 0 j d -> d_st d = Some 0 -> errs_one d (d_choice_loop (dexpr rules f) (es ++ [e]) d n).
  Proof.
    intros He. induction es as [|e1 es IH]; intros j d n Hq Hp A Hs; cbn [app d_choice_loop].
    - assert (at_ a 0 j (d_set_env d [])) as A1 by (apply -> at_set_env; exact A). specialize (He j _ A1 Hs). destruct (dexpr rules f e (d_set_env d [])) as [[[[v| |m] d'] k]|]; exact He || exact I.
    - inversion Hq as [|? ? Hq1 Hq2]. inversion Hp as [|? ? Hp1 Hp2]. subst.
      assert (at_ a 0 j (d_set_env d [])) as A1 by (apply -> at_set_env; exact A).
      pose proof (Hq1 f j _ A1 Hs) as H. pose proof (dexpr_good a V R true f e1 0%nat j _ Hp1 A1) as G. destruct (dexpr rules f e1 (d_set_env d [])) as [[[[v| |m] d'] k]|]; cbn [dret] in *; [left; exact H| |exact I|exact I].
      destruct G as (j' & A' & _). specialize (IH j' (d_set_env (d_set_st d' (d_st d)) (d_env d)) (n + k)%N Hq2 Hp2).
      specialize (IH ltac:(apply -> at_set_env; apply -> at_set_st; exact A') Hs). unfold errs_one, outcome_ok in *. cbn [d_set_env d_set_st d_errs d_pt d_rest] in IH. cbn [d_set_env d_errs] in H. rewrite H in IH.
      pose proof (at_pt _ _ _ _ A') as E1. rewrite E1 in IH. rewrite (at_pt _ _ _ _ A).
      destruct (d_choice_loop (dexpr rules f) (es ++ [e]) _ _) as [[[[v'| |m] d''] k']|]; exact IH.
  Qed.
  Lemma reset_at f j d : at_ a 0 j d -> dexpr rules f (ERef ResetRandCount) d = None \/ exists d' n, dexpr rules f (ERef ResetRandCount) d = Some (PMatch VNil, d', n) /\ at_ a 0 j d' /\ d_st d' = Some 0 /\ d_errs d' = d_errs d /\ d_rstack d' = d_rstack d.
  Proof.
    intros A. destruct f as [|[|f]]; [left; reflexivity|left; reflexivity|right]. do 2 eexists. split; [reflexivity|]. split; [|repeat split]. apply -> at_set_rstack. apply -> at_set_env. apply -> at_set_st. apply -> at_set_rstack. apply -> at_set_env. exact A.
  Qed.
  Definition top_label : expr rule := ELabel "n" (EChoice [ERef Choice; ERef Calc; ERef CommandWithExpression]).
  Lemma command_rule : rules Command = EAction (act_label "n") (ESeq [ERef ResetRandCount; top_label]).
  Proof. reflexivity. Qed.
  Lemma top_errs f j d : at_ a 0 j d -> d_st d = Some 0 -> errs_one d (dexpr rules f top_label d).
  Proof.
    intros A Hs. destruct f as [|[|f]]; [exact I|exact I|]. unfold top_label. cbn [dexpr]. assert (at_ a 0 j (d_set_env d [])) as A1 by (apply -> at_set_env; exact A).
    assert (errs_one (d_set_env d []) (d_choice_loop (dexpr rules f) ([ERef Choice; ERef Calc] ++ [ERef CommandWithExpression]) (d_set_env d []) 1)) as H.
    { apply (choice_last f _ (fun j d => cwe_errs f j d) _ j); [exact Hpre|repeat (apply Forall_cons; [reflexivity|]); apply Forall_nil|exact A1|exact Hs]. }
    cbn [app] in H. destruct (d_choice_loop _ _ _ _) as [[[[v| |m] d'] n]|]; exact H || exact I.
  Qed.
  Lemma command_errs f j d : at_ a 0 j d -> errs_one d (dexpr rules f (rules Command) d).
  Proof.
    intros A. rewrite command_rule. destruct f as [|[|f]]; [exact I|exact I|]. cbn [dexpr d_seq_loop].
    destruct (reset_at f j d A) as [->|(d1 & n & -> & A1 & S1 & E1 & _)]; [exact I|].
    pose proof (top_errs f j d1 A1 S1) as H. unfold errs_one, outcome_ok in *. rewrite E1, (at_pt _ _ _ _ A1) in H. rewrite (at_pt _ _ _ _ A).
    destruct (dexpr rules f top_label d1) as [[[[v| |m] d2] k]|]; cbn [dret]; [|exact H|exact I|exact I]. unfold act_label. exact H.
  Qed.
  End Outer.

  Lemma choice_quiet f : forall es j d n, Forall quiet_alt es -> Forall (plain_e true) es -> at_ a 0 j d -> d_st d = Some 0 -> errs_ok True (fun c => undiced c a) d (d_choice_loop (dexpr rules f) es d n).
  Proof.
    induction es as [|e es IH]; intros j d n Hq Hp A Hs; [split; [reflexivity|exact I]|]. inversion Hq as [|? ? Hq1 Hq2]. inversion Hp as [|? ? Hp1 Hp2]. subst. cbn [d_choice_loop].
    assert (at_ a 0 j (d_set_env d [])) as A1 by (apply -> at_set_env; exact A).
    pose proof (Hq1 f j _ A1 Hs) as H. pose proof (dexpr_good a V R true f e 0%nat j _ Hp1 A1) as G. destruct (dexpr rules f e (d_set_env d [])) as [[[[v| |m] d'] k]|]; cbn [errs_ok dret] in *; [destruct H as [H|H]; [left; split; [exact H|exact I]|right; exact H]| |exact I|exact I].
    destruct G as (j' & A' & _). specialize (IH j' (d_set_env (d_set_st d' (d_st d)) (d_env d)) (n + k)%N Hq2 Hp2).
    specialize (IH ltac:(apply -> at_set_env; apply -> at_set_st; exact A') Hs). unfold errs_ok, outcome_ok in *. cbn [d_set_env d_set_st d_errs d_pt d_rest] in IH. cbn [d_set_env d_errs] in H. rewrite H in IH.
    pose proof (at_pt _ _ _ _ A') as E1. rewrite E1 in IH. rewrite (at_pt _ _ _ _ A). exact IH.
  Qed.
  Lemma choice_hits f c e post : alt_hits c e -> forall es j d n, Forall alt_fails es -> Forall (plain_e true) es -> at_ a 0 j d -> d_st d = Some 0 -> errs_ok False (eq c) d (d_choice_loop (dexpr rules f) (es ++ e :: post) d n).
  Proof.
    intros He. induction es as [|e1 es IH]; intros j d n Hq Hp A Hs; cbn [app d_choice_loop].
    - assert (at_ a 0 j (d_set_env d [])) as A1 by (apply -> at_set_env; exact A). specialize (He f j _ A1 Hs). destruct (dexpr rules f e (d_set_env d [])) as [[[[v| |m] d'] k]|]; [|destruct He|destruct He|exact I].
      right. exists c. destruct He as (H1 & H2). repeat split; [exact H1|exact H2].
    - inversion Hq as [|? ? Hq1 Hq2]. inversion Hp as [|? ? Hp1 Hp2]. subst.
      assert (at_ a 0 j (d_set_env d [])) as A1 by (apply -> at_set_env; exact A).
      pose proof (Hq1 f j _ A1 Hs) as H. pose proof (dexpr_good a V R true f e1 0%nat j _ Hp1 A1) as G. destruct (dexpr rules f e1 (d_set_env d [])) as [[[[v| |m] d'] k]|]; cbn [dret] in *; [destruct H| |destruct H|exact I].
      destruct G as (j' & A' & _). specialize (IH j' (d_set_env (d_set_st d' (d_st d)) (d_env d)) (n + k)%N Hq2 Hp2).
      specialize (IH ltac:(apply -> at_set_env; apply -> at_set_st; exact A') Hs). unfold errs_ok, outcome_ok in *. cbn [d_set_env d_set_st d_errs d_pt d_rest] in IH. cbn [d_set_env d_errs] in H. rewrite H in IH.
      pose proof (at_pt _ _ _ _ A') as E1. rewrite E1 in IH. rewrite (at_pt _ _ _ _ A). exact IH.
  Qed.
  Lemma alts_quiet : Forall quiet_alt dice_alts.
  Proof. unfold dice_alts. repeat (apply Forall_cons; [first [apply inner_quiet; reflexivity|exact (d_cmd_quiet true)|exact (d_cmd_quiet false)]|]). apply Forall_nil. Qed.
  Lemma command_any f j d : at_ a 0 j d -> errs_one True (fun c => undiced c a) d (dexpr rules f (rules Command) d).
  Proof.
    apply command_errs.
    - intros f' j' d' n A Hs. apply (choice_quiet f' dice_alts j'); [apply alts_quiet|apply alts_plain|exact A|exact Hs].
    - repeat (apply Forall_cons; [apply inner_pre; reflexivity|]). apply Forall_nil.
  Qed.
  Lemma command_hits c pre e post f j d : dice_alts = pre ++ e :: post -> Forall (fun x => Fl x a) pre -> alt_hits c e -> Fl (ERef Choice) a -> Fl (ERef Calc) a -> at_ a 0 j d -> errs_one False (eq c) d (dexpr rules f (rules Command) d).
  Proof.
    intros Ha Hpre He F1 F2. assert (Forall (plain_e true) pre) as Hp. { pose proof alts_plain as X. rewrite Ha in X. apply Forall_app in X. apply X. }
    apply command_errs.
    - intros f' j' d' n A Hs. rewrite Ha. apply (choice_hits f' c e post He pre j'); [|exact Hp|exact A|exact Hs].
      clear - Hpre Hp V R P. induction Hpre as [|x l Hx _ IH]; [apply Forall_nil|]. inversion Hp. subst. apply Forall_cons; [apply Fl_fails; assumption|apply IH; assumption].
    - apply Forall_cons; [apply fails_pre, Fl_fails; [reflexivity|exact F1]|]. apply Forall_cons; [apply fails_pre, Fl_fails; [reflexivity|exact F2]|]. apply Forall_nil.
  Qed.
End Run.

(** ** The whole run *)
Definition run_of (f : nat) (s : string) : @dout rule := dexpr rules f (rules Command) (d_set_rstack (d_start s) [Command]).
Lemma decode_raws s : Forall (fun c => gc_raw c <> EmptyString) (decode s).
Proof.
  eapply Forall_impl; [|apply DecodeProofs.decode_decoded]. intros c (x & x' & H) E. revert H. destruct x as [|b x]; [discriminate|]. cbn [first_char]. cbv zeta. split_chars; intros H; injection H as <- _; discriminate E.
Qed.
Lemma run_erase s : pexpr rules (parse_fuel s) (rules Command) (arrive (PState (decode s) None [] [])) = erase_out (run_of (parse_fuel s) s).
Proof.
  unfold run_of. rewrite <- erase_dexpr. change (erase (d_set_rstack (d_start s) [Command])) with (erase (d_start (R := rule) s)). unfold d_start. rewrite erase_arrive. reflexivity.
Qed.
Lemma run_total s : run_of (parse_fuel s) s <> None.
Proof. intros H. pose proof (parse_enough s) as Hf. unfold parse_val, parse in Hf. rewrite run_erase, H in Hf. exact (Hf eq_refl). Qed.
Lemma start_at s : valid (decode s) -> at_ (decode s) 0 0 (d_set_rstack (d_start s) [Command]) /\ d_errs (d_set_rstack (R := rule) (d_start s) [Command]) = [] /\ d_expected (d_set_rstack (R := rule) (d_start s) [Command]) = [].
Proof. intros Hv. unfold d_start. destruct (at_start (decode s) [Command] Hv) as (H1 & H2 & H3). split; [exact H1|]. split; [exact H2|exact H3]. Qed.
Lemma spot_first t : (forall x l, t = x :: l -> newline x = false) -> spot t 0 = Position 1 1 0.
Proof. intros H. unfold spot. cbn [skipn firstn]. destruct t as [|c t]; [reflexivity|]. rewrite (H c t eq_refl). reflexivity. Qed.
Definition one_dice (l : text) (d : dstate rule) : Prop := exists c, d_errs d = [dice_err (Position 1 1 0) c] /\ undiced c l.
Lemma run_cases s : valid (decode s) -> exists r d n, run_of (parse_fuel s) s = Some (r, d, n) /\
  match r with
  | PMatch _ => d_errs d = [] \/ one_dice (decode s) d
  | PFail => (d_errs d = [] \/ one_dice (decode s) d) /\ d_rstack d = [Command] /\ exists j, at_ (decode s) 0 j d /\ d_expected d <> []
  | PPanic _ => False
  end.
Proof.
  intros Hv. destruct (start_at s Hv) as (A & E & _). pose proof (run_total s) as Ht. destruct (run_of (parse_fuel s) s) as [((r, d), n)|] eqn:Er; [|congruence]. exists r, d, n. split; [reflexivity|].
  pose proof (command_any (decode s) Hv (decode_raws s) (decode_plain s) (parse_fuel s) 0%nat _ A) as H. unfold errs_one, outcome_ok in H. rewrite E in H. fold (run_of (parse_fuel s) s) in H. rewrite Er in H.
  rewrite (at_pt _ _ _ _ A) in H. cbn [app] in H.
  assert (match r with PPanic _ => True | _ => d_errs d = [] \/ one_dice (decode s) d end) as H1.
  { destruct r; auto; (destruct H as [(H & _)|(c & H & Hn & Hl)]; [left; exact H|right; exists c; rewrite H, (spot_first _ Hn); split; [reflexivity|exact Hl]]). }
  assert (plain_e true (rules Command)) as Hp by (apply rules_plain; reflexivity).
  pose proof (dexpr_good (decode s) Hv (decode_raws s) true (parse_fuel s) (rules Command) 0%nat 0%nat _ Hp A) as G. fold (run_of (parse_fuel s) s) in G. rewrite Er in G.
  pose proof (command_top (parse_fuel s) (arrive (PState (decode s) None [] []))) as Hw. unfold wq in Hw. rewrite arrive_rest in Hw. specialize (Hw (decode_plain s)). rewrite run_erase, Er in Hw. cbn [erase_out] in Hw.
  destruct r as [v| |m]; [exact H1| |exact Hw]. split; [exact H1|]. cbn [run_ok] in G. destruct G as (j & A' & _ & _ & (G & _) & X). split; [exact G|]. exists j. split; assumption.
Qed.
Lemma no_dice_text F c : errs_text F [dice_err (Position 1 1 0) c] = no_dice_error F c.
Proof.
  rewrite single_text. unfold err_text, dice_err, no_dice_error, file_prefix. cbn [e_pos e_rule e_text p_line p_col p_offset].
  replace (if String.eqb F "" then ""%string else (F ++ ":")%string) with (match F with EmptyString => EmptyString | _ => (F ++ ":")%string end) by (destruct F; reflexivity).
  destruct c; reflexivity.
Qed.
Inductive verdict (F s : string) : Prop :=
| v_ok v d n c : run_of (parse_fuel s) s = Some (PMatch v, d, n) -> parse_text F s = Ok c -> verdict F s
| v_dice c : parse_text F s = Err (no_dice_error F c) -> (forall F', parse_text F' s = Err (no_dice_error F' c)) -> undiced c (decode s) -> verdict F s
| v_match d n j : run_of (parse_fuel s) s = Some (PFail, d, n) -> at_ (decode s) 0 j d -> d_expected d <> [] -> d_errs d = [] ->
    parse_text F s = Err (no_match_error F (place (decode s) j) (expected_list (d_expected d))) -> verdict F s.
Lemma fail_text F s d n j : run_of (parse_fuel s) s = Some (PFail, d, n) -> d_errs d = [] -> d_rstack d = [Command] -> at_ (decode s) 0 j d ->
  parse_text F s = Err (no_match_error F (place (decode s) j) (expected_list (d_expected d))).
Proof.
  intros Er E G A. unfold parse_text. fold (run_of (parse_fuel s) s). rewrite Er. unfold final_errs. cbn [d_errs d_set_rstack d_fail d_rstack d_expected]. rewrite E, G. cbn [tl hd_error]. rewrite single_text, (at_fail _ _ _ _ A), err_text_no_match. reflexivity.
Qed.
Lemma verdict_of F s : valid (decode s) -> verdict F s.
Proof.
  intros Hv. destruct (run_cases s Hv) as (r & d & n & Er & H). destruct r as [v| |m]; [| |destruct H].
  - destruct H as [H|(c & H & Hlk)].
    + assert (exists c, parse_text F s = Ok c) as (c & Hc); [|eapply v_ok; eassumption].
      pose proof (parse_text_command F s) as P. pose proof (parse_no_panic s) as Np. revert P. unfold parse_text. fold (run_of (parse_fuel s) s). rewrite Er, H. destruct v; try (intros _; eexists; reflexivity); destruct (parse_command s); intros P; try destruct P; exfalso; eapply Np; reflexivity.
    + assert (forall F', parse_text F' s = Err (no_dice_error F' c)) as Hf; [|exact (v_dice F s c (Hf F) Hf Hlk)].
      intros F'. unfold parse_text. fold (run_of (parse_fuel s) s). rewrite Er, H, no_dice_text. reflexivity.
  - destruct H as ([H|(c & H & Hlk)] & G & j & A & X).
    + eapply v_match; [exact Er|exact A|exact X|exact H|]. apply (fail_text F s d n j Er H G A).
    + assert (forall F', parse_text F' s = Err (no_dice_error F' c)) as Hf; [|exact (v_dice F s c (Hf F) Hf Hlk)].
      intros F'. unfold parse_text. fold (run_of (parse_fuel s) s). rewrite Er. unfold final_errs. cbn [d_errs d_set_rstack]. rewrite H, no_dice_text. reflexivity.
Qed.

(** ** Two texts *)
Lemma place_shared (t t' : text) k : firstn (k + 7) t = firstn (k + 7) t' -> place t k = place t' k.
Proof.
  intros H. assert (firstn k t = firstn k t') as Hk. { apply (f_equal (firstn k)) in H. rewrite !firstn_firstn in H. replace (Nat.min k (k + 7)) with k in H by lia. exact H. }
  assert (hd_error (skipn k t) = hd_error (skipn k t')) as Hh.
  { assert (forall x : text, hd_error (skipn k x) = hd_error (skipn k (firstn (k + 7) x))) as Y; [|rewrite (Y t), (Y t'), H; reflexivity].
    intros x. rewrite skipn_firstn_comm. replace (k + 7 - k)%nat with 7%nat by lia. destruct (skipn k x); reflexivity. }
  unfold place. rewrite Hk. destruct k as [|k]; [reflexivity|]. destruct (skipn (S k) t) as [|x l], (skipn (S k) t') as [|x' l']; cbn in Hh; try discriminate Hh; [reflexivity|]. injection Hh as ->. reflexivity.
Qed.
Lemma shared_length (t t' : text) k : (k <= length t)%nat -> firstn k t = firstn k t' -> (k <= length t')%nat.
Proof. intros Hk H. apply (f_equal (@length _)) in H. rewrite !firstn_length in H. lia. Qed.
Lemma at_unique s i j d j' : at_ (decode s) i j d -> at_ (decode s) i j' d -> j = j'.
Proof.
  intros A A'. pose proof (at_fail _ _ _ _ A) as Y. rewrite (at_fail _ _ _ _ A') in Y. apply (f_equal p_offset) in Y. rewrite !fspot_off in Y.
  pose proof (off_le _ (decode_raws s) j j' (at_j _ _ _ _ A) (at_j _ _ _ _ A')). pose proof (off_le _ (decode_raws s) j' j (at_j _ _ _ _ A') (at_j _ _ _ _ A)). lia.
Qed.
Lemma two_runs_gen (strict : bool) (lim : list (bool * want) -> Prop) s s' d n k : (forall l l', incl l l' -> lim l' -> lim l) ->
  valid (decode s) -> valid (decode s') -> run_of (parse_fuel s) s = Some (PFail, d, n) -> at_ (decode s) 0 k d -> lim (d_expected d) ->
  firstn k (decode s) = firstn k (decode s') ->
  (strict = true -> forall x i, known x -> (i <= k)%nat -> hits x (skipn i (decode s')) -> (i = k -> exists l, lim l /\ In x l) -> hits x (skipn i (decode s))) ->
  (exists d' n', run_of (parse_fuel s') s' = Some (PFail, d', n') /\ at_ (decode s') 0 k d' /\ d_expected d' = d_expected d /\ map e_text (d_errs d') = map e_text (d_errs d) /\ d_rstack d' = d_rstack d /\ (forall x, In x (d_expected d') -> ~ hits x (skipn k (decode s')))) \/
  strict = false /\ forall d' n' j, run_of (parse_fuel s') s' = Some (PFail, d', n') -> at_ (decode s') 0 j d' -> ~ ok3 k lim 0 j d'.
Proof.
  intros Hsub V1 V2 Er A Hlim Hk Hs. pose proof (at_j _ _ _ _ A) as K1. pose proof (shared_length _ _ _ K1 Hk) as K2.
  destruct (start_at s V1) as (A1 & E1 & X1). destruct (start_at s' V2) as (A2 & E2 & X2).
  assert (linked (decode s) (decode s') k 0 0 (d_set_rstack (d_start s) [Command]) (d_set_rstack (d_start s') [Command])) as L.
  { split; [exact A1|]. split; [exact A2|]. split; [|intros _ x Hx; rewrite X2 in Hx; destruct Hx]. unfold core2. rewrite E1, E2, X1, X2.
    assert (forall t, d_st (d_set_rstack (R := rule) (d_start t) [Command]) = None /\ d_env (d_set_rstack (R := rule) (d_start t) [Command]) = [] /\ d_rstack (d_set_rstack (R := rule) (d_start t) [Command]) = [Command]) as Hc.
    { intros t. unfold d_start, d_arrive. cbn [d_rest]. destruct (decode t) as [|x l]; [repeat split|]. destruct (gc_bad x); repeat split. }
    destruct (Hc s) as (-> & -> & ->). destruct (Hc s') as (-> & -> & ->). reflexivity. }
  set (f := Nat.max (parse_fuel s) (parse_fuel s')).
  pose proof (dexprF (decode s) (decode s') V1 V2 (decode_raws s) (decode_raws s') k strict K1 K2 Hk lim Hsub Hs f (rules Command) 0%nat 0%nat _ _ (rules_tail Command) L) as H.
  pose proof (run_total s') as Ht. destruct (run_of (parse_fuel s') s') as [x|] eqn:Er'; [|congruence].
  unfold run_of in Er, Er'. rewrite (dexpr_mono rules _ f _ _ _ (Nat.le_max_l _ _) Er), (dexpr_mono rules _ f _ _ _ (Nat.le_max_r _ _) Er') in H.
  specialize (H (ex_intro _ _ (ex_intro _ _ eq_refl))). cbn [within] in H.
  specialize (H (proj2 (near1 (decode s) (decode s') (decode_raws s) k strict K1 K2 lim _ _ _ A) (conj (Nat.le_0_l _) (conj (le_n _) (fun _ => Hlim))))). destruct H as [H|[H|H]]; [discriminate H| |].
  - left. destruct x as ((r', d'), n'). destruct H as (<- & i & j & (B1 & B2 & C & Q)). exists d', n'. split; [reflexivity|].
    assert (i = 0%nat) as ->. { pose proof (at_rest _ _ _ _ A) as Y. rewrite (at_rest _ _ _ _ B1) in Y. apply (f_equal (@length _)) in Y. rewrite !skipn_length in Y. pose proof (at_i _ _ _ _ B1). lia. }
    assert (j = k) as -> by (eapply at_unique; eassumption). destruct (core2_parts _ _ C) as (_ & _ & C3 & C4 & C5). split; [exact B2|]. split; [symmetry; exact C4|].
    split; [apply (f_equal (map snd)) in C5; rewrite !map_map in C5; symmetry; exact C5|]. split; [symmetry; exact C3|]. apply Q. reflexivity.
  - right. destruct H as (Hst & H). split; [exact Hst|]. intros d' n' j Ex B. injection Ex as ->. intros Hok. apply H. apply (near2 _ _ (decode_raws s') k strict K1 K2 Hk lim 0%nat j d' B). exact Hok.
Qed.
Lemma known_length l ic : known (false, WLit l ic) -> (length l <= 7)%nat.
Proof.
  intros H. unfold known in H. assert (forallb (fun x => match x with (false, WLit l _) => (length l <=? 7)%nat | _ => true end) table = true) as T by (vm_compute; reflexivity).
  rewrite forallb_forall in T. apply T in H. apply Nat.leb_le. exact H.
Qed.
Lemma hits_firstn x t t' : known x -> firstn 7 t = firstn 7 t' -> hits x t' -> hits x t.
Proof.
  intros Hk E. destruct x as ([|], [l ic|c|]); cbn [hits]; auto.
  - destruct t; [reflexivity|]. destruct t'; [discriminate E|discriminate].
  - rewrite <- (starts_firstn l ic 7 t), <- (starts_firstn l ic 7 t'), E by (eapply known_length; exact Hk). auto.
  - rewrite <- (class_firstn c 7 t), <- (class_firstn c 7 t'), E by lia. auto.
Qed.
Lemma two_runs (strict : bool) s s' d n k : valid (decode s) -> valid (decode s') -> run_of (parse_fuel s) s = Some (PFail, d, n) -> at_ (decode s) 0 k d ->
  firstn k (decode s) = firstn k (decode s') -> (strict = true -> firstn (k + 7) (decode s) = firstn (k + 7) (decode s')) ->
  (exists d' n', run_of (parse_fuel s') s' = Some (PFail, d', n') /\ at_ (decode s') 0 k d' /\ d_expected d' = d_expected d /\ map e_text (d_errs d') = map e_text (d_errs d) /\ d_rstack d' = d_rstack d /\ (forall x, In x (d_expected d') -> ~ hits x (skipn k (decode s')))) \/
  strict = false /\ forall d' n' j, run_of (parse_fuel s') s' = Some (PFail, d', n') -> at_ (decode s') 0 j d' -> (k < j)%nat.
Proof.
  intros V1 V2 Er A Hk Hs. destruct (two_runs_gen strict (fun _ => True) s s' d n k ltac:(auto) V1 V2 Er A I Hk) as [H|(H1 & H2)]; [|left; exact H|right; split; [exact H1|]].
  - intros Hst x i Kx Hi Hh _. eapply hits_firstn; [exact Kx| |exact Hh]. specialize (Hs Hst). rewrite !firstn_skipn_comm. apply (f_equal (firstn (i + 7))) in Hs. rewrite !firstn_firstn in Hs.
    replace (Nat.min (i + 7) (k + 7)) with (i + 7)%nat in Hs by lia. rewrite Hs. reflexivity.
  - intros d' n' j Er' B. destruct (Nat.ltb_spec k j) as [Hl|Hl]; [exact Hl|]. exfalso. apply (H2 d' n' j Er' B). split; [lia|]. split; [lia|auto].
Qed.
(** when nothing that was expected is found in the other text, and no word reaches across the place *)
Lemma two_runs_none s s' d n k : valid (decode s) -> valid (decode s') -> run_of (parse_fuel s) s = Some (PFail, d, n) -> at_ (decode s) 0 k d ->
  firstn k (decode s) = firstn k (decode s') -> (forall x, In x (d_expected d) -> ~ hits x (skipn k (decode s'))) ->
  (forall l ic i, known (false, WLit l ic) -> (i < k < i + length l)%nat -> starts l ic (skipn i (decode s')) = false) ->
  exists d' n', run_of (parse_fuel s') s' = Some (PFail, d', n') /\ at_ (decode s') 0 k d' /\ d_expected d' = d_expected d /\ map e_text (d_errs d') = map e_text (d_errs d) /\ d_rstack d' = d_rstack d.
Proof.
  intros V1 V2 Er A Hk Hno Hcross. pose proof (at_j _ _ _ _ A) as K1. pose proof (shared_length _ _ _ K1 Hk) as K2.
  assert (forall i m, (i + m <= k)%nat -> firstn m (skipn i (decode s)) = firstn m (skipn i (decode s'))) as Hnear.
  { intros i m H. rewrite !firstn_skipn_comm, (share_less _ _ _ _ Hk H). reflexivity. }
  destruct (two_runs_gen true (fun l => incl l (d_expected d)) s s' d n k) as [(d' & n' & H1 & H2 & H3 & H4 & H5 & _)|(H & _)]; try assumption; [| | |exists d', n'; auto|discriminate H].
  - intros l l' H H'. eapply incl_tran; eassumption.
  - apply incl_refl.
  - intros _ x i Kx Hi Hh Hex. destruct (Nat.eq_dec i k) as [->|Hik].
    + destruct (Hex eq_refl) as (l & Hl & Hx). destruct (Hno x (Hl x Hx) Hh).
    + destruct x as ([|], [l ic|c|]); cbn [hits] in *; auto.
      * apply (f_equal (@length _)) in Hh. rewrite skipn_length in Hh. cbn in Hh. lia.
      * destruct (Nat.leb_spec (i + length l) k) as [Hl|Hl].
        -- rewrite <- (starts_firstn l ic (length l) (skipn i (decode s))), (Hnear i (length l) Hl), starts_firstn by lia. exact Hh.
        -- rewrite (Hcross l ic i Kx ltac:(lia)) in Hh. discriminate Hh.
      * rewrite <- (class_firstn c 1 (skipn i (decode s))), (Hnear i 1%nat ltac:(lia)), class_firstn by lia. exact Hh.
Qed.
(** the words that can reach across a place *)
Lemma crossing t k l ic i : known (false, WLit l ic) -> (i < k < i + length l)%nat -> starts l ic (skipn i t) = true -> straddles t k.
Proof.
  intros Hk Hi Hs. unfold known, table in Hk. apply in_inv in Hk as [Hk|Hk]; [discriminate Hk|]. apply in_app_or in Hk as [Hk|Hk]; [|apply in_app_or in Hk as [Hk|Hk]].
  - cbn [map In] in Hk. destruct Hk as [Hk|[Hk|[Hk|[Hk|[]]]]]; discriminate Hk.
  - apply in_map_iff in Hk as (w & E & Hw). injection E as <- <-. exists false, w, i. apply begins_starts in Hs. split; [|split; [|exact Hs]].
    + cbn [In] in Hw. repeat (destruct Hw as [<-|Hw]; [first [exfalso; cbn [runes length] in Hi; lia|cbn [In]; tauto]|]). destruct Hw.
    + cbn [In] in Hw. repeat (destruct Hw as [<-|Hw]; [exact Hi|]). destruct Hw.
  - apply in_map_iff in Hk as (w & E & Hw). injection E as <- <-. exists true, w, i. apply begins_starts in Hs. split; [|split; [|exact Hs]].
    + cbn [In] in Hw. repeat (destruct Hw as [<-|Hw]; [first [exfalso; cbn [runes length] in Hi; lia|cbn [In]; tauto]|]). destruct Hw.
    + cbn [In] in Hw. repeat (destruct Hw as [<-|Hw]; [exact Hi|]). destruct Hw.
Qed.
