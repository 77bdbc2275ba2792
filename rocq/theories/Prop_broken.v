(** Texts with broken bytes (C75). *)
From Verif Require Import Grammar PegText ProofBase Peg PegProofs SpecText SpecGrammar TextFacts SpecErrors SpecBroken Utf8 DecodeProofs ErrInv ErrErase ErrTop ParseSound ParseTop ParseFacts MendSim MendSpots Prop_errors.
From Coq Require Import Lia.
Open Scope list_scope.
Open Scope Z_scope.

Lemma decoded_okc c : decoded c -> okc c.
Proof.
  intros (x & x' & H). split.
  - intros Hr. assert (Forall plain (decode x)) as P by apply decode_plain. rewrite decode_first, H in P. inversion P as [|? ? P1 _]. exact (P1 Hr).
  - intros Hb. revert H. destruct x as [|b x]; [discriminate|]. cbn [first_char]. cbv zeta.
    destruct (byte_val b <? 128) eqn:E.
    + intros H. injection H as <- _. exfalso. apply bad_rune in Hb. cbn in Hb. apply Z.ltb_lt in E. lia.
    + apply Z.ltb_ge in E. split_chars; intros H; injection H as <- _; first [exists b; split; [reflexivity|exact E]|discriminate Hb|(exfalso; unfold gc_bad in Hb; cbn [gc_raw String.length bytes2 bytes3 bytes4 Nat.eqb] in Hb; rewrite andb_false_r in Hb; discriminate Hb)].
Qed.
Lemma okc_decode s : Forall okc (decode s).
Proof. eapply Forall_impl; [|apply decode_decoded]. apply decoded_okc. Qed.
Lemma decoded_mend t : Forall decoded t -> Forall decoded (map mend_char t).
Proof.
  intros H. apply Forall_map. eapply Forall_impl; [|exact H]. intros c Hc. unfold mend_char. destruct (gc_bad c); [|exact Hc]. exists "?"%string, EmptyString. reflexivity.
Qed.
Lemma mended_valid t : valid (map mend_char t).
Proof. unfold valid. apply Forall_map, Forall_forall. intros c _. apply mended_good. Qed.
Lemma decode_mend s : decode (mend s) = mc (decode s).
Proof. unfold mend. apply decode_raw_text; [apply decoded_mend, decode_decoded|apply mended_valid]. Qed.
Lemma mend_length s : String.length (mend s) = String.length s.
Proof. unfold mend. fold (mc (decode s)). rewrite <- (smend_length _ _ (raw_sim (decode s) (okc_decode s))), raw_decode. reflexivity. Qed.
Lemma mend_fuel s : parse_fuel (mend s) = parse_fuel s.
Proof. unfold parse_fuel. rewrite mend_length. reflexivity. Qed.

(** ** Places are the same *)
Lemma newline_mend c : newline (mend_char c) = newline c.
Proof. apply (mend_rune (fun x => x =? 10)). reflexivity. Qed.
Lemma filter_mend t : length (filter newline (mc t)) = length (filter newline t).
Proof. induction t as [|c t IH]; [reflexivity|]. cbn [mc map filter]. rewrite newline_mend. destruct (newline c); cbn [length]; [f_equal|]; exact IH. Qed.
Lemma tail_mend t : length (line_tail (mc t)) = length (line_tail t).
Proof. induction t as [|c t IH]; [reflexivity|]. cbn [mc map line_tail]. rewrite newline_mend. destruct (newline c); [reflexivity|]. cbn [length]. f_equal. exact IH. Qed.
Lemma spot_mend t k : Forall okc t -> spot (mc t) k = spot t k.
Proof.
  intros Ht. unfold spot. assert (off (mc t) k = off t k) as ->.
  { unfold off, mc. rewrite firstn_map. fold (mc (firstn k t)). assert (Forall okc (firstn k t)) as H by (rewrite <- (firstn_skipn k t) in Ht; apply Forall_app in Ht; apply Ht). rewrite (smend_length _ _ (raw_sim _ H)). reflexivity. }
  unfold mc. rewrite firstn_map, skipn_map, <- map_rev. fold (mc (firstn k t)). fold (mc (rev (firstn k t))). rewrite filter_mend, tail_mend. destruct (skipn k t) as [|c l]; [reflexivity|]. cbn [map]. rewrite newline_mend. reflexivity.
Qed.
Lemma fspot_mend t k : Forall okc t -> fspot (mc t) k = fspot t k.
Proof. intros H. destruct k; [reflexivity|apply spot_mend, H]. Qed.
Lemma place_mend s k : place (decode (mend s)) k = place (decode s) k.
Proof.
  rewrite decode_mend. pose proof (fspot_mend (decode s) k (okc_decode s)) as H. rewrite !fspot_place in H. destruct (place (mc (decode s)) k) as ((a, b), c), (place (decode s) k) as ((a', b'), c'). cbn in H. injection H as -> -> ->. reflexivity.
Qed.

(** ** The two runs *)
Definition state_of (s : string) : dstate rule := d_set_rstack (d_start s) [Command].
Lemma start_sim s : sim (state_of s) (state_of (mend s)).
Proof.
  unfold state_of. apply sim_set_rstack. unfold d_start. apply arrive_sim. rewrite decode_mend. apply (sim_intro _ (decode s) _ []); [apply okc_decode|constructor].
Qed.
Lemma start_inv s : inv (decode s) (state_of s).
Proof.
  unfold state_of. change (inv (decode s) (d_start s)). unfold d_start, d_arrive. cbn [d_rest d_pt p_line p_col p_offset]. destruct (decode s) as [|c t] eqn:E.
  - split; [|split; [|constructor]]; exists 0%nat; cbn; repeat split; try lia; intros k _ (c & H & _); destruct k; discriminate H.
  - set (p := if gc_rune c =? 10 then _ else _). assert (p = spot (c :: t) 0) as Hp by (unfold p, spot; cbn; unfold newline; destruct (gc_rune c =? 10); reflexivity). rewrite Hp. clear p Hp. destruct (gc_bad c) eqn:Eb.
    + assert (covered (c :: t) [PErr (spot (c :: t) 0) None "invalid encoding"%string] 0) as Hc.
      { intros k Hk _. replace k with 0%nat by lia. eexists. split; [left; reflexivity|]. split; reflexivity. }
      split; [|split]; cbn [d_add_err d_err_at d_errs d_pt d_rest d_set_point d_fail d_rstack app hd_error].
      * exists 0%nat. repeat split; [cbn; lia|exact Hc].
      * exists 0%nat. repeat split; [cbn; lia|exact Hc].
      * constructor; [|constructor]. intros _. exists 0%nat. split; [exists c; split; [reflexivity|exact Eb]|reflexivity].
    + assert (covered (c :: t) [] 0) as Hc. { intros k Hk (x & Hx & Hb). replace k with 0%nat in Hx by lia. cbn in Hx. injection Hx as <-. congruence. }
      split; [|split; [|constructor]]; exists 0%nat; repeat split; try exact Hc; cbn; lia.
Qed.
Lemma enc_text F t e k : broken t k -> encoding (e_text e) = true -> e_pos e = spot t k -> err_text F e = encoding_error F (place t k) (option_map rule_name (e_rule e)).
Proof.
  intros (c & Hn & Hb) He Hp. apply String.eqb_eq in He.
  assert (spot t k = fspot t k) as Hs. { destruct k; [|reflexivity]. destruct t as [|x t]; [discriminate|]. injection Hn as ->. unfold spot. cbn. unfold newline. rewrite (bad_rune _ Hb). reflexivity. }
  rewrite Hs, fspot_place in Hp. unfold err_text, encoding_error, place_text, file_prefix. rewrite He, Hp. destruct (place t k) as ((l, c'), o). cbn [pos_of p_line p_col p_offset].
  replace (if String.eqb F "" then ""%string else (F ++ ":")%string) with (match F with EmptyString => EmptyString | _ => (F ++ ":")%string end) by (destruct F; reflexivity).
  rewrite !app_assoc_str. destruct (e_rule e); reflexivity.
Qed.
Definition about_broken (F : string) (t : text) (line : string) : Prop := exists k (r : option rule), broken t k /\ line = encoding_error F (place t k) (option_map rule_name r).
Definition lines_of (F : string) (er : list (perr rule)) : list string := dedupe [] (map (err_text F) er).
Lemma lines_in F er line : In line (lines_of F er) <-> exists e, In e er /\ err_text F e = line.
Proof. unfold lines_of. rewrite dedupe_in, in_map_iff. split; [intros ((e & H1 & H2) & _); exists e; auto|intros (e & H1 & H2); split; [exists e; auto|intros []]]. Qed.
Lemma line_cases F s d e : inv (decode s) d -> In e (d_errs d) -> about_broken F (decode s) (err_text F e) \/ In e (filter keep (d_errs d)).
Proof.
  intros (_ & _ & H) He. destruct (keep e) eqn:E; [right; apply filter_In; auto|left]. unfold keep in E. apply negb_false_iff in E.
  destruct (proj1 (Forall_forall _ _) H e He E) as (k & Hk & Hp). exists k, (e_rule e). split; [exact Hk|]. apply enc_text; assumption.
Qed.

Lemma mc_valid t : valid t -> mc t = t.
Proof. induction 1 as [|c t Hc _ IH]; [reflexivity|]. cbn [mc map]. unfold mc in IH. rewrite IH. unfold mend_char. rewrite Hc. reflexivity. Qed.
Lemma mend_accepted s n : Z.of_nat (String.length s) < 2 ^ 63 -> parse_command s = Ok n -> parse_command (mend s) = Ok n.
Proof.
  intros Hl H. apply parse_sound in H as (c & t & rest & -> & H1 & H2 & H3 & H4 & H5). assert (Z.of_nat (String.length (mend s)) < two63) as Hl2 by (rewrite mend_length; exact Hl). apply (parse_complete (mend s) c t (mc rest)); try assumption.
  - rewrite decode_mend, H2. unfold mc at 1. rewrite map_app. fold (mc t). fold (mc rest). rewrite (mc_valid t H3). reflexivity.
  - destruct rest as [|x rest]; [exact I|]. cbn. apply mended_good.
  - destruct H5 as [H5| ->]; [left; exact H5|right; reflexivity].
Qed.

(** C75. A text with broken bytes is read as if there were question marks instead, and every broken byte that is read is
    reported. If Parse accepts the text, it gives the tree of the mended text. If not, each line of the message tells the
    place of a byte that really is broken, or it is the error of the mended text; a broken byte not after the place where
    the mended text cannot be read on is always reported. *)
Theorem C75_broken_bytes F s : let t := decode s in
  match parse_text F s with
  | Ok n => exists n', parse_text F (mend s) = Ok n' /\ (Z.of_nat (String.length s) < 2 ^ 63 -> n' = n)
  | Err m => exists lines, m = join (String "010" EmptyString) lines /\ lines <> [] /\ NoDup lines /\
      ((exists n, parse_text F (mend s) = Ok n) /\ Forall (about_broken F t) lines \/
       (exists e, parse_text F (mend s) = Err e /\ (exists c, e = no_dice_error F c) /\ In e lines /\ forall line, In line lines -> line = e \/ about_broken F t line) \/
       (exists k items, parse_text F (mend s) = Err (no_match_error F (place t k) items) /\ (k <= length t)%nat /\
         (lines = [no_match_error F (place t k) items] \/ Forall (about_broken F t) lines) /\
         forall i, (i <= k)%nat -> broken t i -> exists r : option rule, In (encoding_error F (place t i) (option_map rule_name r)) lines))
  | Panic _ => False
  end.
Proof.
  cbv zeta.
  assert (valid (decode (mend s))) as Hv by (rewrite decode_mend; apply mended_valid).
  destruct (run_cases (mend s) Hv) as (r' & d' & n' & Er' & Hc'). pose proof (mend_fuel s) as Hfu. unfold run_of in Er'. rewrite Hfu in Er'.
  pose proof (dexpr_sim rules_good (parse_fuel s) (rules Command) _ _ (rules_good Command) (start_sim s)) as X. pose proof (dexpr_inv (decode s) (parse_fuel s) (rules Command) _ (rules_good Command) (start_inv s)) as I0.
  assert (forall c, parse_text F (mend s) <> Panic c) as Np1. { intros c Hp. pose proof (parse_text_command F (mend s)) as P. pose proof (parse_no_panic (mend s)) as N. rewrite Hp in P. destruct (parse_command (mend s)); try (destruct P; fail). subst. eapply N; reflexivity. }
  assert (forall c, parse_text F s <> Panic c) as Np2. { intros c Hp. pose proof (parse_text_command F s) as P. pose proof (parse_no_panic s) as N. rewrite Hp in P. destruct (parse_command s); try (destruct P; fail). subst. eapply N; reflexivity. }
  revert Np1 Np2. unfold parse_text. rewrite Hfu. unfold state_of in *. rewrite Er' in *. destruct (dexpr rules (parse_fuel s) (rules Command) (d_set_rstack (d_start s) [Command])) as [((r, d), n)|] eqn:Er; [|destruct X]. cbn [outsim out_inv] in X, I0.
  destruct X as (X1 & X2 & _). destruct I0 as (I0 & _). intros Np1 Np2.
  pose proof (mend_accepted s) as Hma. pose proof (parse_text_command F s) as Pc. pose proof (parse_text_command F (mend s)) as Pc'.
  unfold parse_text in Pc, Pc'. rewrite Hfu, Er' in Pc'. rewrite Er in Pc.
  assert (forall er, er <> [] -> lines_of F er <> [] /\ NoDup (lines_of F er)) as Hl.
  { intros [|e er] Hne; [congruence|]. split; [|apply dedupe_nodup]. intros E. assert (In (err_text F e) (lines_of F (e :: er))) as Hi by (apply lines_in; exists e; split; [left; reflexivity|reflexivity]). rewrite E in Hi. destruct Hi. }
  assert (d_errs d' = filter keep (d_errs d)) as Ee by (destruct X2; reflexivity).
  assert (d_errs d' = [] -> Forall (about_broken F (decode s)) (lines_of F (d_errs d))) as Hall.
  { intros E0. apply Forall_forall. intros line Hi. apply lines_in in Hi as (e & He & <-). destruct (line_cases F s d e I0 He) as [H|H]; [exact H|]. rewrite <- Ee, E0 in H. destruct H. }
  assert (one_dice (decode (mend s)) d' -> exists c, errs_text F (d_errs d') = no_dice_error F c /\ In (no_dice_error F c) (lines_of F (d_errs d)) /\ forall line, In line (lines_of F (d_errs d)) -> line = no_dice_error F c \/ about_broken F (decode s) line) as Hone.
  { intros (c & E0 & _). exists c. rewrite E0. split; [apply no_dice_text|]. rewrite E0 in Ee. split.
    - apply lines_in. exists (dice_err (Position 1 1 0) c). split; [|rewrite <- single_text; apply no_dice_text]. assert (In (dice_err (Position 1 1 0) c) (filter keep (d_errs d))) as Hi by (rewrite <- Ee; left; reflexivity). apply filter_In in Hi. apply Hi.
    - intros line Hi. apply lines_in in Hi as (e & He & <-). destruct (line_cases F s d e I0 He) as [H|H]; [right; exact H|left]. rewrite <- Ee in H. destruct H as [<-|[]]. rewrite <- single_text. apply no_dice_text. }
  destruct r' as [v'| |m']; [| |destruct Hc'].
  - destruct r as [v| |m]; try (destruct X1; fail). destruct Hc' as [E0|Hd].
    + rewrite E0 in *. assert (exists nn, v' = VNode nn) as (nn & ->). { destruct v'; try (exfalso; eapply Np1; reflexivity). eauto. }
      destruct (d_errs d) as [|e0 er] eqn:Ed.
      * destruct v; try (exfalso; eapply Np2; reflexivity). exists nn. split; [reflexivity|]. intros Hf. destruct (parse_command s) as [nq| |] eqn:Ps; try (destruct Pc; fail). subst nq. specialize (Hma _ Hf eq_refl). rewrite Hma in Pc'. exact Pc'.
      * exists (lines_of F (e0 :: er)). split; [reflexivity|]. destruct (Hl (e0 :: er) ltac:(discriminate)) as (L1 & L2). split; [exact L1|]. split; [exact L2|]. left. split; [exists nn; reflexivity|exact (Hall eq_refl)].
    + destruct (Hone Hd) as (c & H1 & H2 & H3). destruct Hd as (c0 & E0 & _).
      assert (d_errs d <> []) as Hne by (intros E; rewrite E in Ee; cbn in Ee; rewrite E0 in Ee; discriminate Ee).
      destruct (d_errs d) as [|e0 er] eqn:Ed; [congruence|]. destruct (d_errs d') as [|e1 er1]; [discriminate E0|].
      exists (lines_of F (e0 :: er)). split; [reflexivity|]. destruct (Hl (e0 :: er) Hne) as (L1 & L2). split; [exact L1|]. split; [exact L2|]. right. left. exists (no_dice_error F c). rewrite H1. split; [reflexivity|]. split; [exists c; reflexivity|]. split; [exact H2|exact H3].
  - destruct r as [v| |m]; try (destruct X1; fail). destruct Hc' as (Hc' & G & j & A & Hx). destruct Hc' as [E0|Hd].
    + assert (errs_text F (final_errs (d_set_rstack d' (tl (d_rstack d')))) = no_match_error F (place (decode s) j) (expected_list (d_expected d'))) as Em.
      { pose proof (fail_text F (mend s) d' n' j ltac:(unfold run_of; rewrite Hfu; exact Er') E0 G A) as Hft. rewrite place_mend in Hft. unfold parse_text in Hft. rewrite Hfu, Er' in Hft. injection Hft as Hft. exact Hft. }
      assert (j <= length (decode s))%nat as Hj by (pose proof (at_j _ _ _ _ A) as Hj; rewrite decode_mend in Hj; unfold mc in Hj; rewrite map_length in Hj; exact Hj).
      assert (covered (decode s) (d_errs d) j) as Hcov.
      { destruct I0 as (_ & (j2 & Hj2 & Hf2 & Hc2) & _). pose proof (at_fail _ _ _ _ A) as Hf1. assert (d_fail d' = d_fail d) as Ef by (destruct X2; reflexivity). rewrite Ef, Hf2, decode_mend, (fspot_mend _ _ (okc_decode s)) in Hf1. apply (f_equal p_offset) in Hf1. rewrite !fspot_off in Hf1.
        pose proof (off_le _ (decode_raws s) j2 j Hj2 Hj). pose proof (off_le _ (decode_raws s) j j2 Hj Hj2). assert (j = j2) as -> by lia. exact Hc2. }
      assert (d_rstack d = d_rstack d' /\ d_fail d = d_fail d' /\ d_expected d = d_expected d') as (E1 & E2 & E3) by (destruct X2; auto).
      assert (forall i, (i <= j)%nat -> broken (decode s) i -> exists r : option rule, In (encoding_error F (place (decode s) i) (option_map rule_name r)) (lines_of F (d_errs d))) as Hrep.
      { intros i Hi Hb. destruct (Hcov i Hi Hb) as (e & He & Henc & Hp). exists (e_rule e). apply lines_in. exists e. split; [exact He|]. apply enc_text; assumption. }
      rewrite Em. destruct (d_errs d) as [|e0 er] eqn:Ed.
      * exists [no_match_error F (place (decode s) j) (expected_list (d_expected d'))]. split; [|split; [discriminate|split; [constructor; [intros []|constructor]|]]].
        -- rewrite <- Em. unfold final_errs. cbn [d_errs d_set_rstack d_fail d_rstack d_expected]. rewrite Ed, E0, E1, E2, E3. reflexivity.
        -- right. right. exists j, (expected_list (d_expected d')). split; [reflexivity|]. split; [exact Hj|]. split; [left; reflexivity|]. intros i Hi Hb. destruct (Hrep i Hi Hb) as (r & Hr). destruct Hr.
      * exists (lines_of F (e0 :: er)). split; [unfold final_errs; cbn [d_errs d_set_rstack]; rewrite Ed; reflexivity|]. destruct (Hl (e0 :: er) ltac:(discriminate)) as (L1 & L2). split; [exact L1|]. split; [exact L2|].
        right. right. exists j, (expected_list (d_expected d')). split; [reflexivity|]. split; [exact Hj|]. split; [right; exact (Hall E0)|exact Hrep].
    + destruct (Hone Hd) as (c & H1 & H2 & H3). destruct Hd as (c0 & E0 & _).
      assert (d_errs d <> []) as Hne by (intros E; rewrite E in Ee; cbn in Ee; rewrite E0 in Ee; discriminate Ee).
      unfold final_errs. cbn [d_errs d_set_rstack]. rewrite E0 in *. destruct (d_errs d) as [|e0 er] eqn:Ed; [congruence|].
      exists (lines_of F (e0 :: er)). split; [reflexivity|]. destruct (Hl (e0 :: er) Hne) as (L1 & L2). split; [exact L1|]. split; [exact L2|]. right. left. exists (no_dice_error F c). rewrite H1. split; [reflexivity|]. split; [exists c; reflexivity|]. split; [exact H2|exact H3].
Qed.
Print Assumptions C75_broken_bytes.
(** The mended text is valid UTF-8 of the same length; a text without broken bytes is left as it is. *)
Theorem C75_mended s : valid_utf8 (mend s) /\ String.length (mend s) = String.length s /\ length (decode (mend s)) = length (decode s) /\ (valid_utf8 s -> mend s = s) /\ forall k, ~ broken (decode (mend s)) k.
Proof.
  assert (valid (decode (mend s))) as Hv by (rewrite decode_mend; apply mended_valid). split; [exact Hv|]. split; [apply mend_length|]. split; [rewrite decode_mend; apply map_length|]. split.
  - intros H. unfold mend. fold (mc (decode s)). rewrite (mc_valid _ H). apply raw_decode.
  - intros k (c & Hn & Hb). apply nth_error_In in Hn. pose proof (proj1 (Forall_forall _ _) Hv c Hn) as X. cbn in X. congruence.
Qed.
Print Assumptions C75_mended.

Definition x255 : string := String "255" EmptyString.
(** in an item of CHOICE: accepted but for the broken byte; several rules are being read when it is met *)
Example C75_choice : parse_text "input" ("choice[a," ++ x255 ++ "]") = Err ("input:1:10 (9): rule ChoiceItems: invalid encoding") /\
  (exists n, parse_text "input" (mend ("choice[a," ++ x255 ++ "]")) = Ok n) /\ broken (decode ("choice[a," ++ x255 ++ "]")) 9.
Proof. split; [vm_compute; reflexivity|]. split; [eexists; vm_compute; reflexivity|]. eexists. split; vm_compute; reflexivity. Qed.
(** after a roll: the mended text cannot be read on there either *)
Example C75_after_roll : parse_text "" ("2D6" ++ x255) = Err "1:4 (3): rule Integer: invalid encoding" /\
  parse_text "" (mend ("2D6" ++ x255)) = Err (no_match_error "" (place (decode ("2D6" ++ x255)) 3) ["""*"""; """+"""; """-"""; """/"""; """<"""; """<="""; """<>"""; """="""; """>"""; """>="""; "[0-9]"; "EOF"]%string).
Proof. split; vm_compute; reflexivity. Qed.
(** the first byte; arithmetic without dice: two lines; a byte that is never read *)
Example C75_first : parse_text "f" (x255 ++ "1") = Err "f:1:1 (0): invalid encoding".
Proof. vm_compute. reflexivity. Qed.
Example C75_two_lines : parse_text "" ("1+2" ++ x255) = Err ("1:4 (3): rule Integer: invalid encoding" ++ String "010" (no_dice_error "" false)).
Proof. vm_compute. reflexivity. Qed.
Example C75_unread : (exists n, parse_text "" ("C(1) " ++ x255) = Ok n) /\ broken (decode ("C(1) " ++ x255)) 5.
Proof. split; eexists; vm_compute; [reflexivity|split; reflexivity]. Qed.
