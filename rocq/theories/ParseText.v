(** Items of CHOICE, comments, text after a command. *)
From Verif Require Import Grammar ProofBase SpecText SpecSyntax SpecGrammar TextFacts PegProofs GrammarSound PegTotal PegForward ParseSound ParseComplete ParseLang ParseCmd ParseTop DecodeProofs ParseFacts
  Dice Command BCDice BCDiceProofs.
From Verif Require RegexUses.
Import RegexUses(is_re_space, hand_first_part, first_part_eq).
Open Scope list_scope.
Open Scope Z_scope.

(** ** CHOICE items *)
Definition item_clean (s : string) : Prop :=
  ~ In 44 (bytes s) /\ ~ In 93 (bytes s) /\
  (forall c l, decode s = c :: l -> is_space (gc_rune c) = false) /\ (forall l c, decode s = l ++ [c] -> is_space (gc_rune c) = false).
Definition part_of (s input : string) : Prop := exists a b, input = (a ++ s ++ b)%string.
Lemma append_assoc (a b c : string) : ((a ++ b) ++ c)%string = (a ++ b ++ c)%string.
Proof. induction a as [|x a IH]; [reflexivity|]. cbn [append]. f_equal. exact IH. Qed.
Lemma part_of_app a s b input : part_of (a ++ s ++ b) input -> part_of s input.
Proof. intros (x & y & ->). exists (x ++ a)%string, (b ++ y)%string. rewrite !append_assoc. reflexivity. Qed.
Lemma item_is_clean s t : sp_item s t -> Forall decoded t -> valid t -> item_clean s /\ part_of s (raw_text t).
Proof.
  intros H Hd Hv. apply item_inv in H as (z & t0 & -> & -> & Hz & Hn & Hi & Hh). rename t0 into t. apply Forall_app in Hd as (_ & Hd). apply valid_app in Hv as (_ & Hv).
  destruct (trim_split t) as (z1 & z2 & E & _ & _).
  assert (Forall decoded (trim_space t) /\ valid (trim_space t) /\ Forall item_char (trim_space t)) as (Td & Tv & Ti).
  { rewrite E in Hd, Hv, Hi. apply Forall_app in Hd as (_ & Hd). apply Forall_app in Hd as (Hd & _). apply Forall_app in Hi as (_ & Hi). apply Forall_app in Hi as (Hi & _).
    apply valid_app in Hv as (_ & Hv). apply valid_app in Hv as (Hv & _). auto. }
  pose proof (decode_raw_text _ Td Tv) as Hdec. split; [|].
  - split; [|split; [|split]].
    + intros Hin. apply (raw_byte _ _ Td) in Hin as (c & Hc & Er); [|lia]. rewrite Forall_forall in Ti. destruct (Ti c Hc). contradiction.
    + intros Hin. apply (raw_byte _ _ Td) in Hin as (c & Hc & Er); [|lia]. rewrite Forall_forall in Ti. destruct (Ti c Hc). contradiction.
    + intros c l Hc. rewrite Hdec in Hc. eapply trim_head; exact Hc.
    + intros l c Hc. rewrite Hdec in Hc. eapply trim_last; exact Hc.
  - exists (raw_text z ++ raw_text z1)%string, (raw_text z2). rewrite raw_text_app. rewrite E at 1. rewrite !raw_text_app, append_assoc. reflexivity.
Qed.
Lemma items_are_clean ss t : sp_items ss t -> Forall decoded t -> valid t -> Forall (fun s => item_clean s /\ part_of s (raw_text t)) ss.
Proof.
  induction 1 as [|s ss o t u Ho Ht Hu IH]; intros Hd Hv; [constructor|].
  apply Forall_app in Hd as (_ & Hd). apply Forall_app in Hd as (D1 & D2). apply valid_app in Hv as (_ & Hv). apply valid_app in Hv as (V1 & V2).
  constructor.
  - destruct (item_is_clean _ _ Ht D1 V1) as (H1 & H2). split; [exact H1|]. destruct H2 as (a & b & E). rewrite !raw_text_app, E.
    exists (raw_text o ++ a)%string, (b ++ raw_text u)%string. rewrite !append_assoc. reflexivity.
  - eapply Forall_impl; [|exact (IH D2 V2)]. intros s' (H1 & a & b & E). split; [exact H1|]. rewrite !raw_text_app, E.
    exists (raw_text o ++ raw_text t ++ a)%string, b. rewrite !append_assoc. reflexivity.
Qed.
Lemma command_tree_choice c items : command_tree c = NChoice items -> c = Choose items.
Proof. destruct c; cbn; try discriminate. intros [= ->]. reflexivity. Qed.
Lemma choice_items input items : parse_command input = Ok (NChoice items) ->
  items <> [] /\ Forall (fun s => item_clean s /\ part_of s input) items.
Proof.
  intros H. apply parse_sound in H as (c & t & rest & E & H1 & H2 & H3 & _ & _). symmetry in E. apply command_tree_choice in E as ->.
  pose proof (decode_split _ _ _ H2) as (Ein & _ & Hd). revert Ein. inversion H1; subst. intros Ein. split; [discriminate|].
  apply Forall_app in Hd as (_ & Hd). apply Forall_app in Hd as (D1 & Hd). apply Forall_app in Hd as (D2 & _).
  apply valid_app in H3 as (_ & H3). apply valid_app in H3 as (V1 & H3). apply valid_app in H3 as (V2 & _).
  match goal with H : sp_item _ _ |- _ => destruct (item_is_clean _ _ H D1 V1) as (C1 & a & b & C2) end.
  match goal with H : sp_items _ _ |- _ => pose proof (items_are_clean _ _ H D2 V2) as C3 end.
  constructor.
  - split; [exact C1|]. rewrite !raw_text_app, C2 in Ein. exists (raw_text k ++ a)%string, (b ++ raw_text u ++ raw_text f ++ raw_text c ++ raw_text rest)%string.
    rewrite !append_assoc in *. exact Ein.
  - eapply Forall_impl; [|exact C3]. intros s' (K1 & a' & b' & K2). split; [exact K1|]. rewrite !raw_text_app, K2 in Ein.
    exists (raw_text k ++ raw_text t0 ++ a')%string, (b' ++ raw_text f ++ raw_text c ++ raw_text rest)%string. rewrite !append_assoc in *. exact Ein.
Qed.

(** ** Text after a command *)
Definition followed (n : node) : Prop := (exists e, n = NCommand CCalc e) \/ exists items, n = NChoice items.
Lemma followed_tree c : followed (command_tree c) <-> may_be_followed c.
Proof.
  split.
  - intros [(e & H)|(i & H)]; destruct c; cbn in *; try discriminate; exact I.
  - destruct c; cbn; try contradiction; intros _; [left|right]; eexists; reflexivity.
Qed.
Lemma decode_app_split s t rest x : decode s = t ++ rest -> valid t -> decode (s ++ x) = t ++ decode (raw_text rest ++ x).
Proof. intros H Hv. destruct (decode_split _ _ _ H) as (E & _ & Hd). rewrite E, append_assoc. apply decode_raw; assumption. Qed.
Lemma head_app s x : decode s <> [] -> valid_head (decode s) -> valid_head (decode (s ++ x)).
Proof.
  intros Hn Hv. rewrite decode_first in Hn, Hv. destruct (first_char s) as [[c s']|] eqn:E; [|contradiction]. cbn [valid_head] in Hv.
  rewrite (first_raw _ _ _ E), append_assoc. rewrite decode_first, (first_valid _ _ _ _ E Hv). exact Hv.
Qed.
Theorem parse_followed s x n : Z.of_nat (String.length (s ++ x)) < two63 -> valid_head (decode x) -> parse_command s = Ok n -> followed n -> parse_command (s ++ x) = Ok n.
Proof.
  intros Hlen Hx H Hf. apply parse_sound in H as (c & t & rest & -> & H1 & H2 & H3 & H4 & H5). apply followed_tree in Hf.
  apply (parse_complete _ c t (decode (raw_text rest ++ x))); try assumption.
  - apply decode_app_split; assumption.
  - destruct rest as [|c0 rest]; [exact Hx|]. destruct (decode_split _ _ _ H2) as (_ & E & _). apply head_app; rewrite E; [discriminate|exact H4].
  - left. exact Hf.
Qed.
Theorem parse_not_followed s n : parse_command s = Ok n -> ~ followed n -> exists c, n = command_tree c /\ spells c (decode s) /\ Forall cr (decode s).
Proof.
  intros H Hf. apply parse_sound in H as (c & t & rest & -> & H1 & H2 & H3 & H4 & H5). rewrite followed_tree in Hf.
  destruct H5 as [H5| ->]; [contradiction|]. rewrite app_nil_r in H2. exists c. rewrite H2. split; [reflexivity|]. split; [exact H1|].
  apply (spells_chars c); [exact H1|]. intros items ->. apply Hf. exact I.
Qed.

(** ** Comments *)
Lemma first_part_none s : no_white s -> first_part s = s.
Proof.
  unfold no_white. rewrite first_part_eq. induction s as [|a s IH]; intros H; [reflexivity|]. cbn [list_ascii_of_string hand_first_part] in *. inversion H as [|? ? H1 H2]. subst.
  destruct (is_re_space a) eqn:E; [|f_equal; apply IH; exact H2]. exfalso. apply H1. unfold white, is_re_space in *. cbn. lia.
Qed.
Lemma first_part_white s a x : no_white s -> white a -> first_part (s ++ String a x) = s.
Proof.
  unfold no_white. intros H Ha. rewrite first_part_eq. induction s as [|b s IH]; cbn [append hand_first_part].
  - replace (is_re_space a) with true; [reflexivity|]. unfold white, is_re_space in *. cbn in Ha. lia.
  - cbn [list_ascii_of_string] in H. inversion H as [|? ? H1 H2]. subst.
    destruct (is_re_space b) eqn:E; [|f_equal; apply IH; exact H2]. exfalso. apply H1. unfold white, is_re_space in *. cbn. lia.
Qed.
(** a command does not begin with s *)
Lemma spells_head c t : spells c t -> exists d t', t = d :: t' /\ gc_rune d <> 83 /\ gc_rune d <> 115.
Proof.
  assert (forall d, cr d -> gc_rune d <> 83 /\ gc_rune d <> 115) as Hcr.
  { intros d H. unfold cr, command_rune in H. destruct H as [H|[H|[H|[H|(l & Hl & H)]]]]; try lia. cbn in Hl. lia. }
  intros H. destruct t as [|d t'].
  - exfalso. inversion H; repeat match goal with H : _ ++ _ = [] |- _ => apply app_eq_nil in H as (-> & H) end; subst;
    try (match goal with H : word_i _ [] |- _ => discriminate H end); try (match goal with H : sp_roll _ _ [] |- _ => apply roll_head in H as (? & ? & E & _); discriminate E end);
    match goal with H : sp_dexpr _ [], K : has_random _ |- _ => pose proof (dexpr_random _ _ H K) as E; inversion E end.
  - exists d, t'. split; [reflexivity|]. destruct c; try (pose proof (spells_chars _ _ H) as Hc; specialize (Hc ltac:(discriminate)); inversion Hc; subst; apply Hcr; assumption).
    inversion H as [|s ss k t u f c Hk _ _ _ _ E1 E2| | | | | | | |]; subst. destruct k as [|d' k]; [discriminate Hk|]. cbn [app] in *. match goal with H : _ :: _ = d :: _ |- _ => injection H as <- _ end.
    injection Hk as Ek _. apply to_lower_letter in Ek; [|cbn; lia..]. cbn in Ek. lia.
Qed.
Lemma parse_not_secret s x n : parse_command s = Ok n -> check_secret (s ++ x) = ((s ++ x)%string, false).
Proof.
  intros H. apply parse_sound in H as (c & t & rest & -> & H1 & H2 & H3 & H4 & H5). unfold check_secret. rewrite (decode_app_split _ _ _ _ H2 H3).
  destruct (spells_head _ _ H1) as (d & t' & -> & E1 & E2). cbn [app].
  replace ((gc_rune d =? 83) || (gc_rune d =? 115)) with false by lia. reflexivity.
Qed.
(** An ASCII character is a boundary for decoding. *)
Lemma first_boundary s a x c s' : byte_val a < 128 -> first_char s = Some (c, s') -> first_char (s ++ String a x) = Some (c, (s' ++ String a x)%string).
Proof.
  intros Ha. assert (forall b, cont_ok (byte_val a) = false /\ second_ok b (byte_val a) = false) as Hc.
  { intros b. unfold cont_ok, second_ok, in_range. split; [lia|]. repeat match goal with |- context [if ?b then _ else _] => destruct b end; lia. }
  destruct s as [|a0 s]; [discriminate|]. intros [= H]. cbn [append first_char]. f_equal. revert H. cbv zeta.
  destruct (byte_val a0 <? 128); [intros [= <- <-]; reflexivity|].
  destruct (in_range 194 223 (byte_val a0)).
  { destruct s as [|a1 s]; cbn [append].
    - rewrite (proj1 (Hc 0)). intros [= <- <-]. reflexivity.
    - destruct (cont_ok (byte_val a1)); intros [= <- <-]; reflexivity. }
  destruct (in_range 224 239 (byte_val a0)).
  { destruct s as [|a1 [|a2 s]]; cbn [append].
    - destruct x as [|x1 x]; [intros [= <- <-]; reflexivity|]. rewrite (proj2 (Hc _)). intros [= <- <-]. reflexivity.
    - rewrite (proj1 (Hc 0)), andb_false_r. intros [= <- <-]. reflexivity.
    - destruct (second_ok (byte_val a0) (byte_val a1) && cont_ok (byte_val a2)); intros [= <- <-]; reflexivity. }
  destruct (in_range 240 244 (byte_val a0)); [|intros [= <- <-]; reflexivity].
  destruct s as [|a1 [|a2 [|a3 s]]]; cbn [append].
  - destruct x as [|x1 [|x2 x]]; try (intros [= <- <-]; reflexivity). rewrite (proj2 (Hc _)). intros [= <- <-]. reflexivity.
  - destruct x as [|x1 x]; try (intros [= <- <-]; reflexivity). rewrite (proj1 (Hc 0)), andb_false_r. intros [= <- <-]. reflexivity.
  - rewrite (proj1 (Hc 0)), andb_false_r. intros [= <- <-]. reflexivity.
  - destruct (second_ok (byte_val a0) (byte_val a1) && cont_ok (byte_val a2) && cont_ok (byte_val a3)); intros [= <- <-]; reflexivity.
Qed.
Lemma decode_boundary s a x : byte_val a < 128 -> decode (s ++ String a x) = decode s ++ ascii_char a :: decode x.
Proof.
  intros Ha. induction s as [|s c s' E IH] using decode_ind.
  - cbn [append]. rewrite decode_first. cbn [first_char]. cbv zeta. replace (byte_val a <? 128) with true by lia. reflexivity.
  - rewrite decode_first, (first_boundary _ _ _ _ _ Ha E), IH, (decode_first s), E. reflexivity.
Qed.
Lemma spells_not_c c t l : spells c t -> ~ may_be_followed c -> not_head (fun c => to_lower (gc_rune c) = 99) (t ++ l).
Proof.
  intros H Hf. destruct H; cbn in Hf; try contradiction; try (exfalso; tauto); rewrite <- ?app_assoc; first [eapply dexpr_not_c; eassumption | eapply roll_not_c; eassumption].
Qed.
Lemma items_no_close ss t : sp_items ss t -> Forall (fun c => gc_rune c <> 93) t.
Proof.
  induction 1 as [|s ss o t u Ho Ht Hu IH]; [constructor|]. apply Forall_app. split; [sym Ho as c E; constructor; [lia|constructor]|]. apply Forall_app. split; [|exact IH].
  destruct (item_inv _ _ Ht) as (z & t' & -> & _ & Hz & _ & Hi & _). apply Forall_app. split; [|eapply Forall_impl; [|exact Hi]; intros c (_ & H); exact H].
  eapply Forall_impl; [|exact Hz]. intros c Hc E. cbn in Hc. rewrite E in Hc. discriminate Hc.
Qed.
Lemma choice_shape items t : spells (Choose items) t -> exists u d, t = u ++ [d] /\ gc_rune d = 93 /\ Forall (fun c => gc_rune c <> 93) u /\
  exists c1 c2 u', u = c1 :: c2 :: u' /\ to_lower (gc_rune c1) = 99 /\ to_lower (gc_rune c2) = 104.
Proof.
  intros H. inversion H as [|s ss k t0 u f c Hk Ht Hu Hf Hc E1 E2| | | | | | | |]. subst. sym Hc as d Ed. exists (k ++ t0 ++ u ++ f), d. split; [rewrite <- !app_assoc; reflexivity|]. split; [exact Ed|]. split.
  - apply Forall_app. split; [|apply Forall_app; split; [|apply Forall_app; split; [eapply items_no_close; exact Hu|]]].
    + unfold word_i in Hk. change small_letter with to_lower in Hk. assert (Forall (fun z => z <> 93) (codes "choice[")) as Hne by (vm_compute; repeat constructor; discriminate).
      rewrite <- Hk, Forall_map in Hne. eapply Forall_impl; [|exact Hne]. intros x Hx E. apply Hx. cbv beta. rewrite E. reflexivity.
    + destruct (item_inv _ _ Ht) as (z & t' & -> & _ & Hz & _ & Hi & _). apply Forall_app. split; [|eapply Forall_impl; [|exact Hi]; intros x (_ & Hx); exact Hx].
      eapply Forall_impl; [|exact Hz]. intros x Hx E. cbn in Hx. rewrite E in Hx. discriminate Hx.
    + destruct Hf as [|o z Ho Hz]; [constructor|]. apply Forall_app. split; [sym Ho as x Ex; constructor; [lia|constructor]|].
      apply sep_forall in Hz. eapply Forall_impl; [|exact Hz]. intros x Hx E. cbn in Hx. rewrite E in Hx. discriminate Hx.
  - destruct k as [|c1 [|c2 k]]; try discriminate Hk. exists c1, c2, (k ++ t0 ++ u ++ f). split; [reflexivity|]. injection Hk as K1 K2 _. split; [exact K1|exact K2].
Qed.
Lemma prefix_split {A} (a b c d : list A) : a ++ b = c ++ d -> (exists u, c = a ++ u /\ b = u ++ d) \/ (exists u, a = c ++ u /\ d = u ++ b).
Proof.
  revert c. induction a as [|x a IH]; intros c H; [left; exists c; split; [reflexivity|exact H]|]. destruct c as [|y c]; [right; exists (x :: a); split; [reflexivity|symmetry; exact H]|].
  cbn [app] in H. injection H as -> H. destruct (IH c H) as [(u & -> & ->)|(u & -> & ->)]; [left|right]; exists u; split; reflexivity.
Qed.
Theorem comment_parse c a x n n' : white a -> Z.of_nat (String.length c) < two63 ->
  parse_command c = Ok n -> parse_command (c ++ String a x) = Ok n' -> n' = n.
Proof.
  intros Ha Hlen Hc Hw. assert (byte_val a < 128 /\ ~ command_rune (byte_val a)) as (Ha1 & Ha2).
  { unfold white in Ha. cbn in Ha. split; [lia|]. unfold command_rune. intros [H|[H|[H|[H|(l & Hl & H)]]]]; try lia. cbn in Hl. lia. }
  apply parse_sound in Hw as (c1 & t1 & r1 & -> & W1 & W2 & W3 & W4 & W5). rewrite decode_boundary in W2 by exact Ha1. symmetry in W2.
  destruct (prefix_split _ _ _ _ W2) as [(u & E1 & E2)|(u & E1 & E2)].
  - rewrite (parse_complete c c1 t1 u) in Hc; try assumption; [congruence| |].
    + destruct u as [|d u]; [exact I|]. rewrite E2 in W4. exact W4.
    + left. destruct W5 as [W5|W5]; [exact W5|]. subst r1. destruct u; discriminate.
  - destruct u as [|d u].
    + rewrite app_nil_r in E1. cbn [app] in E2. rewrite (parse_complete c c1 t1 []) in Hc; try assumption; try exact I; [congruence|rewrite app_nil_r; symmetry; exact E1|tauto].
    + cbn [app] in E2. injection E2 as <- E2. exfalso.
      assert (forall c2, c1 = c2 -> (forall items, c2 <> Choose items) -> False) as Hother.
      { intros c2 -> Hi. pose proof (spells_chars _ _ W1 Hi) as Hch. rewrite E1 in Hch. apply Forall_app in Hch as (_ & Hch). inversion Hch as [|? ? H1 _]. subst. exact (Ha2 H1). }
      destruct c1 as [e1| | | | | | | | |items]; try (eapply Hother; [reflexivity|discriminate]). clear Hother.
      apply parse_sound in Hc as (c0 & t0 & r0 & -> & C1 & C2 & C3 & C4 & C5). apply choice_shape in W1 as (u1 & d1 & F1 & F2 & F3 & x1 & x2 & u2 & -> & G1 & G2).
      rewrite E1, C2, <- app_assoc in F1. destruct c0 as [e0| | | | | | | | |items0];
        try (pose proof (spells_not_c _ _ (r0 ++ ascii_char a :: u) C1 ltac:(cbn; tauto)) as Hn; rewrite F1 in Hn; exact (Hn G1)).
      * inversion C1 as [e k o t c' K1 K2 _ _| | | | | | | | |]. subst. symi K1 as k1 L1. sym K2 as k2 L2. cbn [app] in F1. injection F1 as -> -> _. rewrite L2 in G2. discriminate G2.
      * apply choice_shape in C1 as (u0 & d0 & -> & D2 & _). rewrite <- app_assoc in F1. cbn [app] in F1.
        destruct (prefix_split u0 (d0 :: r0 ++ ascii_char a :: u) (x1 :: x2 :: u2) [d1] F1) as [(v & V1 & V2)|(v & V1 & V2)].
        -- destruct v as [|v0 v]; [cbn [app] in V2; injection V2 as _ V2; destruct r0; discriminate V2|]. cbn [app] in V2. injection V2 as <- _. rewrite V1 in F3. apply Forall_app in F3 as (_ & F3). inversion F3. contradiction.
        -- destruct v as [|v0 [|v1 v]]; cbn [app] in V2; try discriminate V2; injection V2 as _ V2; destruct r0; discriminate V2.
Qed.
