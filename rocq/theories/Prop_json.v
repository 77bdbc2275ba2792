(** Property C84: the bodies of the API's responses as JSON texts. *)
From Coq Require Import Sorted Permutation DecimalFacts DecimalPos DecimalN DecimalString.
From Verif Require Import ProofBase GoBase Utf8 SpecText SpecSyntax SpecUnicode SpecBroken PegProofs ParseSound DecodeProofs Prop_unicode NumberText Quote BCDice Api Json SpecGames Prop_games SpecJson.
Open Scope list_scope.
Open Scope Z_scope.

(** What the program wants to tell by a value: the characters of a string are those of its UTF-8 text (C78; a broken byte is U+FFFD); the entries of a map
    come in ascending order of their keys. *)
Definition characters (s : string) : list Z := map gc_rune (decode s).
Inductive means : json -> value -> Prop :=
| means_null : means JNull VNull
| means_bool b : means (JBool b) (VBool b)
| means_int z : means (JInt z) (VInt z)
| means_string s : means (JString s) (VString (characters s))
| means_list l l' : Forall2 means l l' -> means (JList l) (VArray l')
| means_struct m m' : Forall2 (fun kv kv' => fst kv' = characters (fst kv) /\ means (snd kv) (snd kv')) m m' -> means (JStruct m) (VObject m')
| means_map m sorted m' : Permutation m sorted -> StronglySorted before_or_same (map fst sorted) ->
    Forall2 (fun kv kv' => fst kv' = characters (fst kv) /\ means (snd kv) (snd kv')) sorted m' -> means (JMap m) (VObject m').

(** * UTF-8 *)
Lemma str_assoc a b c : ((a ++ b) ++ c = a ++ b ++ c)%string.
Proof. induction a as [|x a IH]; cbn [append]; [reflexivity|]. f_equal. exact IH. Qed.
Lemma str_nil a : (a ++ "" = a)%string.
Proof. induction a as [|x a IH]; cbn [append]; [reflexivity|]. f_equal. exact IH. Qed.
Lemma writes_app a s b t : writes a s -> writes b t -> writes (a ++ b) (s ++ t).
Proof. intros H Hb. induction H as [|r rs e s Hc H IH]; [exact Hb|]. rewrite str_assoc. cbn [app]. constructor; assumption. Qed.
Lemma writes_one r e : character r e -> writes [r] e.
Proof. intros H. rewrite <- (str_nil e). constructor; [exact H|constructor]. Qed.
Lemma writes_ascii s : Forall (fun a => byte_val a < 128) (list_ascii_of_string s) -> writes (bytes s) s.
Proof.
  induction s as [|a s IH]; intros H; [constructor|]. inversion H; subst. change (String a s) with (String a "" ++ s)%string. rewrite bytes_cons || idtac. change (bytes (String a "" ++ s)) with (byte_val a :: bytes s).
  constructor; [|apply IH; assumption]. pose proof (byte_nonneg a). split; [unfold scalar; lia|]. change (bytes (String a "")) with [byte_val a]. constructor. lia.
Qed.
Ltac ascii_text_tac := match goal with |- writes ?l ?s => replace l with (bytes s) by (vm_compute; reflexivity) end; apply writes_ascii; unfold quote_mark; cbn [list_ascii_of_string]; repeat (apply Forall_cons; [vm_compute; reflexivity|]); apply Forall_nil.

(** * Strings *)
Lemma hex_digit_val d : 0 <= d < 16 -> byte_val (hex_digit d) = if d <? 10 then 48 + d else 87 + d.
Proof. intros H. unfold hex_digit. destruct (d <? 10) eqn:E; rewrite byte_val_of; lia. Qed.
Lemma hex_digit_value d : 0 <= d < 16 -> hex_value (byte_val (hex_digit d)) = Some d.
Proof.
  intros H. rewrite hex_digit_val by exact H. unfold hex_value. destruct (Z.ltb_spec d 10).
  - replace ((48 <=? 48 + d) && (48 + d <=? 57)) with true by lia. f_equal. lia.
  - replace ((48 <=? 87 + d) && (87 + d <=? 57)) with false by lia. replace ((65 <=? 87 + d) && (87 + d <=? 70)) with false by lia. replace ((97 <=? 87 + d) && (87 + d <=? 102)) with true by lia. f_equal. lia.
Qed.
Lemma hex_read r : 0 <= r < 65536 -> exists x1 x2 x3 x4, writes [x1; x2; x3; x4] (hex 4 r) /\ hex4 x1 x2 x3 x4 = Some r.
Proof.
  intros H. exists (byte_val (hex_digit (r / 16 / 16 / 16 mod 16))), (byte_val (hex_digit (r / 16 / 16 mod 16))), (byte_val (hex_digit (r / 16 mod 16))), (byte_val (hex_digit (r mod 16))).
  assert (forall x, 0 <= x mod 16 < 16) as Hm by (intros; apply Z.mod_pos_bound; lia). split.
  - cbn [hex append]. match goal with |- writes ?l ?s => change l with (bytes s) end. apply writes_ascii. cbn [list_ascii_of_string].
    repeat (apply Forall_cons; [rewrite hex_digit_val by apply Hm; match goal with |- context [?x mod 16] => pose proof (Hm x); destruct (x mod 16 <? 10); lia end|]). apply Forall_nil.
  - unfold hex4. rewrite !hex_digit_value by apply Hm. f_equal. pose proof (Z.div_mod r 16). pose proof (Z.div_mod (r / 16) 16). pose proof (Z.div_mod (r / 16 / 16) 16). rewrite (Z.mod_small (r / 16 / 16 / 16)) by (rewrite !Z.div_div by lia; split; [apply Z.div_pos; lia|apply Z.div_lt_upper_bound; lia]). lia.
Qed.
Lemma char_read c : decoded c -> exists cs, writes cs (json_char c) /\ (forall rest, read_string (cs ++ rest) = put (gc_rune c) (read_string rest)).
Proof.
  intros Hd. unfold json_char. cbv zeta. destruct (gc_bad c) eqn:Eb.
  { exists [92; 117; 102; 102; 102; 100]. split; [ascii_text_tac|]. destruct (bad_decoded c Hd Eb) as (a & ->). reflexivity. }
  pose proof (good_character c Hd Eb) as Hc. pose proof (proj1 Hc) as Hs. unfold scalar in Hs.
  destruct ((gc_rune c =? 34) || (gc_rune c =? 92)) eqn:E1.
  { exists [92; gc_rune c]. split; [change (String "\" (gc_raw c)) with ("\" ++ gc_raw c)%string; change [92; gc_rune c] with ([92] ++ [gc_rune c]); apply writes_app; [ascii_text_tac|apply writes_one, Hc]|].
    intros rest. assert (gc_rune c = 34 \/ gc_rune c = 92) as [->| ->] by lia; reflexivity. }
  destruct (Z.eqb_spec (gc_rune c) 10) as [->|]; [exists [92; 110]; split; [ascii_text_tac|reflexivity]|].
  destruct (Z.eqb_spec (gc_rune c) 13) as [->|]; [exists [92; 114]; split; [ascii_text_tac|reflexivity]|].
  destruct (Z.eqb_spec (gc_rune c) 9) as [->|]; [exists [92; 116]; split; [ascii_text_tac|reflexivity]|].
  destruct ((gc_rune c <? 32) || _ || _ || _ || _ || _) eqn:E2.
  { destruct (hex_read (gc_rune c)) as (x1 & x2 & x3 & x4 & Hw & Hx); [lia|]. exists ([92; 117] ++ [x1; x2; x3; x4]). split; [apply writes_app; [ascii_text_tac|exact Hw]|].
    intros rest. cbn [app read_string Z.eqb Pos.eqb]. rewrite Hx. replace ((55296 <=? gc_rune c) && (gc_rune c <=? 56319)) with false by lia. replace ((56320 <=? gc_rune c) && (gc_rune c <=? 57343)) with false by lia. reflexivity. }
  exists [gc_rune c]. split; [apply writes_one, Hc|]. intros rest. cbn [app read_string]. replace (gc_rune c =? 34) with false by lia. replace (gc_rune c =? 92) with false by lia. replace (gc_rune c <? 32) with false by lia. reflexivity.
Qed.
Lemma string_read s : exists cs, writes (34 :: cs) (json_string s) /\ forall rest, read_string (cs ++ rest) = Some (characters s, rest).
Proof.
  unfold json_string, characters. assert (exists cs, writes cs (json_chars (decode s)) /\ forall rest, read_string (cs ++ 34 :: rest) = Some (map gc_rune (decode s), rest)) as (cs & Hw & Hr).
  { pose proof (decode_decoded s) as Hd. induction Hd as [|c l Hc _ (cs & Hw & Hr)]; [exists []; split; [constructor|reflexivity]|]. destruct (char_read c Hc) as (cs' & Hw' & Hr').
    exists (cs' ++ cs). split; [apply writes_app; assumption|]. intros rest. rewrite <- app_assoc, Hr', Hr. reflexivity. }
  exists (cs ++ [34]). split; [change (34 :: cs ++ [34]) with ([34] ++ cs ++ [34]); repeat apply writes_app; try exact Hw; ascii_text_tac|]. intros rest. rewrite <- app_assoc. apply Hr.
Qed.

(** * Values *)
Definition ends (rest : list Z) : Prop := match rest with c :: _ => blank c = true \/ c = 44 \/ c = 93 \/ c = 125 | [] => True end.
Definition starts (cs : list Z) : Prop := exists c r, cs = c :: r /\ blank c = false /\ c <> 93 /\ c <> 125.
Definition reads (cs : list Z) (v : value) : Prop := starts cs /\ forall rest n, ends rest -> (length cs <= n)%nat -> read_value n (cs ++ rest) = Some (v, rest).
Definition good (t : string) (v : value) : Prop := exists cs, writes cs t /\ reads cs v.
Definition blanks (ws : list Z) : Prop := Forall (fun c => blank c = true) ws.

Lemma skip_blanks ws r : blanks ws -> skip (ws ++ r) = skip r.
Proof. induction 1 as [|c ws Hc _ IH]; [reflexivity|]. cbn [app skip]. rewrite Hc. exact IH. Qed.
Lemma skip_start c r : blank c = false -> skip (c :: r) = c :: r.
Proof. intros H. cbn [skip]. rewrite H. reflexivity. Qed.
Lemma value_blanks n ws r : blanks ws -> read_value n (ws ++ r) = read_value n r.
Proof. intros H. destruct n as [|n]; [reflexivity|]. cbn [read_value]. rewrite skip_blanks by exact H. reflexivity. Qed.
Lemma items_blanks n ws r : blanks ws -> read_items n (ws ++ r) = read_items n r.
Proof. intros H. destruct n as [|n]; [reflexivity|]. cbn [read_items]. rewrite value_blanks by exact H. reflexivity. Qed.
Lemma members_blanks n ws r : blanks ws -> read_members n (ws ++ r) = read_members n r.
Proof. intros H. destruct n as [|n]; [reflexivity|]. cbn [read_members]. rewrite skip_blanks by exact H. reflexivity. Qed.
Lemma break_writes pretty d : exists ws, writes ws (line_break pretty d) /\ blanks ws.
Proof.
  unfold line_break. destruct pretty; [|exists []; split; constructor]. assert (exists ws, writes ws (indentation d) /\ blanks ws) as (ws & Hw & Hb).
  { induction d as [|d (ws & Hw & Hb)]; [exists []; split; constructor|]. exists ([32; 32] ++ ws). split; [apply writes_app; [ascii_text_tac|exact Hw]|]. repeat (apply Forall_cons; [reflexivity|]). exact Hb. }
  exists ([10] ++ ws). split; [apply writes_app; [unfold line_feed; ascii_text_tac|exact Hw]|]. apply Forall_cons; [reflexivity|exact Hb].
Qed.
Lemma ends_blanks ws c r : blanks ws -> c = 44 \/ c = 93 \/ c = 125 -> ends (ws ++ c :: r).
Proof. intros H Hc. destruct H as [|w ws Hw _]; cbn [app ends]; auto. Qed.
(** Words *)
Lemma good_null : good "null" VNull.
Proof. exists [110; 117; 108; 108]. split; [ascii_text_tac|]. split; [exists 110, [117; 108; 108]; repeat split; discriminate|]. intros rest [|n] _ Hn; [cbn in Hn; lia|]. reflexivity. Qed.
Lemma good_bool (b : bool) : good (if b then "true"%string else "false"%string) (VBool b).
Proof.
  destruct b.
  - exists [116; 114; 117; 101]. split; [ascii_text_tac|]. split; [exists 116, [114; 117; 101]; repeat split; discriminate|]. intros rest [|n] _ Hn; [cbn in Hn; lia|]. reflexivity.
  - exists [102; 97; 108; 115; 101]. split; [ascii_text_tac|]. split; [exists 102, [97; 108; 115; 101]; repeat split; discriminate|]. intros rest [|n] _ Hn; [cbn in Hn; lia|]. reflexivity.
Qed.
Lemma good_string s : good (json_string s) (VString (characters s)).
Proof.
  destruct (string_read s) as (cs & Hw & Hr). exists (34 :: cs). split; [exact Hw|]. split; [exists 34, cs; repeat split; discriminate|]. intros rest [|n] _ Hn; [cbn in Hn; lia|].
  cbn [app read_value]. rewrite skip_start by reflexivity. cbn [Z.eqb Pos.eqb]. rewrite Hr. reflexivity.
Qed.
(** Numbers *)
Lemma no_leading_zero p d : Pos.to_uint p <> Decimal.D0 d.
Proof.
  intros E. assert (N.to_uint (Npos p) = Decimal.unorm (N.to_uint (Npos p))) as H by (rewrite <- DecimalN.Unsigned.to_of, DecimalN.Unsigned.of_to; reflexivity).
  cbn [N.to_uint] in H. rewrite E in H. unfold Decimal.unorm in H. cbn [Decimal.nzhead] in H. destruct (Decimal.nzhead d) eqn:En; try discriminate H.
  - injection H as ->. assert (Npos p = N.of_uint (Decimal.D0 Decimal.Nil)) as K by (rewrite <- E; symmetry; apply (DecimalN.Unsigned.of_to (Npos p))). discriminate K.
  - exact (nzhead_nonzero _ _ En).
Qed.
Lemma span_all ds rest : Forall (fun c => decimal c = true) ds -> ends rest -> span_digits (ds ++ rest) = (ds, rest).
Proof.
  intros H He. induction H as [|c ds Hc _ IH]; cbn [app span_digits]; [|rewrite Hc, IH; reflexivity]. destruct rest as [|c r]; [reflexivity|]. cbn [ends span_digits] in *. unfold decimal, blank in *. replace ((48 <=? c) && (c <=? 57)) with false by lia. reflexivity.
Qed.
Lemma ends_fraction rest : ends rest -> no_fraction rest = true.
Proof. destruct rest as [|c r]; [reflexivity|]. cbn [ends no_fraction]. unfold blank. lia. Qed.
Lemma read_nat v rest : 0 <= v -> ends rest -> read_natural (bytes (itoa v) ++ rest) = Some (v, rest).
Proof.
  intros Hv He. unfold read_natural. assert (Forall (fun c => decimal c = true) (bytes (itoa v))) as Hd.
  { apply Forall_map. eapply Forall_impl; [|apply (itoa_digits v Hv)]. unfold digit, decimal. intros; lia. }
  rewrite (span_all _ _ Hd He). assert (digits_value (bytes (itoa v)) = v) as E.
  { rewrite <- (itoa_value v Hv) at 2. unfold digits_value, number_value, bytes. generalize 0. induction (list_ascii_of_string (itoa v)) as [|a l IH]; intros z; cbn [map fold_left]; [reflexivity|apply IH]. }
  destruct (bytes (itoa v)) as [|d ds] eqn:Eb.
  - exfalso. destruct (itoa_digits v Hv) as (K & _). apply K. destruct (itoa v); [reflexivity|discriminate Eb].
  - replace ((d =? 48) && _) with false; [rewrite (ends_fraction _ He), E; reflexivity|]. symmetry. destruct (Z.eqb_spec d 48) as [->|]; [|reflexivity]. destruct v as [|p|p]; [|exfalso|lia].
    + vm_compute in Eb. injection Eb as <-. reflexivity.
    + rewrite itoa_pos in Eb. pose proof (no_leading_zero p) as K. destruct (Pos.to_uint p) as [|u|u|u|u|u|u|u|u|u|u]; cbn [NilEmpty.string_of_uint] in Eb; try (rewrite ?bytes_cons in Eb; discriminate Eb). exact (K u eq_refl).
Qed.
Lemma good_int z : good (itoa z) (VInt z).
Proof.
  assert (forall v, 0 <= v -> writes (bytes (itoa v)) (itoa v)) as Hw. { intros v Hv. apply writes_ascii. eapply Forall_impl; [|apply (itoa_digits v Hv)]. unfold digit. intros; lia. }
  assert (forall v, 0 <= v -> exists d ds, bytes (itoa v) = d :: ds /\ 48 <= d <= 57) as Hh.
  { intros v Hv. destruct (itoa_digits v Hv) as (K & Hd). destruct (itoa v) as [|a s]; [congruence|]. inversion Hd; subst. exists (byte_val a), (bytes s). split; [reflexivity|]. unfold digit in *. lia. }
  destruct (Z_lt_le_dec z 0) as [Hz|Hz].
  - rewrite itoa_minus by exact Hz. exists (45 :: bytes (itoa (- z))). split; [change (String "-" (itoa (- z))) with ("-" ++ itoa (- z))%string; change (45 :: bytes (itoa (- z))) with ([45] ++ bytes (itoa (- z))); apply writes_app; [ascii_text_tac|apply Hw; lia]|].
    split; [eexists _, _; split; [reflexivity|]; repeat split; discriminate|]. intros rest [|n] He Hn; [cbn in Hn; lia|]. cbn [app read_value skip]. change (blank 45) with false. cbn [Z.eqb Pos.eqb read_integer]. rewrite read_nat by (assumption || lia). rewrite Z.opp_involutive. reflexivity.
  - exists (bytes (itoa z)). split; [apply Hw, Hz|]. destruct (Hh z Hz) as (d & ds & Ed & Hd). split.
    + exists d, ds. split; [exact Ed|]. unfold blank. lia.
    + intros rest [|n] He Hn; [rewrite Ed in Hn; cbn in Hn; lia|]. pose proof (read_nat z rest Hz He) as Hr. rewrite Ed in *. cbn [app] in *. cbn [read_value]. rewrite skip_start by (unfold blank; lia).
      replace (d =? 34) with false by lia. replace (d =? 91) with false by lia. replace (d =? 123) with false by lia. replace (d =? 110) with false by lia. replace (d =? 116) with false by lia. replace (d =? 102) with false by lia.
      unfold read_integer. replace (d =? 45) with false by lia. rewrite Hr. reflexivity.
Qed.
(** Lists *)
Lemma items_read ws0 tx vs : blanks ws0 -> forall sep, writes ws0 sep -> Forall2 good tx vs -> tx <> [] ->
  exists cs, writes cs (join ("," ++ sep) tx) /\ starts cs /\ forall ws rest n, blanks ws -> (length cs < n)%nat -> read_items n (cs ++ ws ++ 93 :: rest) = Some (vs, rest).
Proof.
  intros Hb sep Hsep H. induction H as [|t v tx vs (cs & Hw & Hs & Hr) H IH]; intros Hne; [congruence|]. destruct H as [|t' v' tx vs Hg H].
  - exists cs. split; [exact Hw|]. split; [exact Hs|]. intros ws rest [|n] Hws Hn; [lia|]. cbn [read_items]. rewrite Hr by (lia || (apply ends_blanks; auto)). rewrite skip_blanks, skip_start by (exact Hws || reflexivity). reflexivity.
  - destruct IH as (cs' & Hw' & Hs' & Hr'); [discriminate|]. exists (cs ++ [44] ++ ws0 ++ cs'). split; [|split].
    + change (join ("," ++ sep) (t :: t' :: tx)) with (t ++ ("," ++ sep) ++ join ("," ++ sep) (t' :: tx))%string. rewrite str_assoc. repeat apply writes_app; try assumption. ascii_text_tac.
    + destruct Hs as (c & r & -> & Hc). exists c. eexists. split; [reflexivity|exact Hc].
    + intros ws rest [|n] Hws Hn; [lia|]. rewrite !app_length in Hn. cbn [length] in Hn. cbn [read_items]. rewrite <- !app_assoc. cbn [app]. rewrite Hr by (lia || (cbn [ends]; auto)).
      rewrite skip_start by reflexivity. cbn [Z.eqb Pos.eqb]. rewrite items_blanks by exact Hb. rewrite Hr' by (assumption || lia). reflexivity.
Qed.
Definition good_member (t : string) (kv : list Z * value) : Prop := exists ks cs, writes (34 :: ks ++ cs) t /\ (forall rest, read_string (ks ++ rest) = Some (fst kv, rest)) /\
  (exists ws cs', cs = 58 :: ws ++ cs' /\ blanks ws /\ reads cs' (snd kv)).
Lemma members_read ws0 tx vs : blanks ws0 -> forall sep, writes ws0 sep -> Forall2 good_member tx vs -> tx <> [] ->
  exists cs, writes cs (join ("," ++ sep) tx) /\ starts cs /\ forall ws rest n, blanks ws -> (length cs < n)%nat -> read_members n (cs ++ ws ++ 125 :: rest) = Some (vs, rest).
Proof.
  intros Hb sep Hsep H. induction H as [|t (k & v) tx vs (ks & cs & Hw & Hk & wc & cv & -> & Hwc & Hs & Hr) H IH]; intros Hne; [congruence|]. cbn [fst snd] in *. destruct H as [|t' v' tx vs Hg H].
  - eexists. split; [exact Hw|]. split; [eexists _, _; split; [reflexivity|]; repeat split; discriminate|]. intros ws rest [|n] Hws Hn; [lia|]. cbn [length] in Hn. rewrite !app_length in Hn. cbn [length] in Hn. rewrite app_length in Hn.
    cbn [read_members]. cbn [app]. rewrite <- !app_assoc. cbn [app]. rewrite <- !app_assoc. rewrite skip_start by reflexivity. cbn [Z.eqb Pos.eqb]. rewrite Hk. rewrite skip_start by reflexivity. cbn [Z.eqb Pos.eqb]. rewrite value_blanks by exact Hwc.
    rewrite Hr by (lia || (apply ends_blanks; auto)). rewrite skip_blanks, skip_start by (exact Hws || reflexivity). reflexivity.
  - destruct IH as (cs' & Hw' & Hs' & Hr'); [discriminate|]. exists ((34 :: ks ++ 58 :: wc ++ cv) ++ [44] ++ ws0 ++ cs'). split; [|split].
    + change (join ("," ++ sep) (t :: t' :: tx)) with (t ++ ("," ++ sep) ++ join ("," ++ sep) (t' :: tx))%string. rewrite str_assoc. repeat apply writes_app; try assumption. ascii_text_tac.
    + eexists _, _. split; [reflexivity|]. repeat split; discriminate.
    + intros ws rest [|n] Hws Hn; [lia|]. rewrite !app_length in Hn. cbn [length] in Hn. rewrite !app_length in Hn. cbn [length] in Hn. rewrite app_length in Hn.
      cbn [read_members app]. repeat (rewrite <- !app_assoc; cbn [app]). rewrite skip_start by reflexivity. cbn [Z.eqb Pos.eqb]. rewrite Hk. rewrite skip_start by reflexivity. cbn [Z.eqb Pos.eqb]. rewrite value_blanks by exact Hwc.
      rewrite Hr by (lia || (cbn [ends]; auto)). rewrite skip_start by reflexivity. cbn [Z.eqb Pos.eqb]. rewrite members_blanks by exact Hb. rewrite Hr' by (assumption || lia). reflexivity.
Qed.
Lemma good_list pretty d tx vs : Forall2 good tx vs -> good (in_brackets pretty d "[" "]" tx) (VArray vs).
Proof.
  intros H. unfold in_brackets. destruct (break_writes pretty (S d)) as (w1 & Hw1 & Hb1), (break_writes pretty d) as (w2 & Hw2 & Hb2).
  pose proof (items_read w1 tx vs Hb1 _ Hw1 H) as K. destruct tx as [|t tx].
  - inversion H; subst. exists [91; 93]. split; [ascii_text_tac|]. split; [exists 91, [93]; repeat split; discriminate|]. intros rest [|n] _ Hn; [cbn in Hn; lia|]. reflexivity.
  - destruct K as (cs & Hw & (c & r & Ec & Hc1 & Hc2 & Hc3) & Hr); [discriminate|]. exists ([91] ++ w1 ++ cs ++ w2 ++ [93]). split; [repeat apply writes_app; try assumption; ascii_text_tac|].
    split; [exists 91; eexists; split; [reflexivity|]; repeat split; discriminate|]. intros rest [|n] _ Hn; [cbn in Hn; lia|]. cbn [app length] in Hn. rewrite !app_length in Hn. cbn [length] in Hn.
    cbn [read_value app]. repeat (rewrite <- !app_assoc; cbn [app]). rewrite skip_start by reflexivity. cbn [Z.eqb Pos.eqb]. rewrite skip_blanks, items_blanks, Hr by (assumption || lia). rewrite Ec. cbn [app]. rewrite skip_start by exact Hc1.
    replace (c =? 93) with false by lia. reflexivity.
Qed.
Lemma good_object pretty d tx vs : Forall2 good_member tx vs -> good (in_brackets pretty d "{" "}" tx) (VObject vs).
Proof.
  intros H. unfold in_brackets. destruct (break_writes pretty (S d)) as (w1 & Hw1 & Hb1), (break_writes pretty d) as (w2 & Hw2 & Hb2).
  pose proof (members_read w1 tx vs Hb1 _ Hw1 H) as K. destruct tx as [|t tx].
  - inversion H; subst. exists [123; 125]. split; [ascii_text_tac|]. split; [exists 123, [125]; repeat split; discriminate|]. intros rest [|n] _ Hn; [cbn in Hn; lia|]. reflexivity.
  - destruct K as (cs & Hw & (c & r & Ec & Hc1 & Hc2 & Hc3) & Hr); [discriminate|]. exists ([123] ++ w1 ++ cs ++ w2 ++ [125]). split; [repeat apply writes_app; try assumption; ascii_text_tac|].
    split; [exists 123; eexists; split; [reflexivity|]; repeat split; discriminate|]. intros rest [|n] _ Hn; [cbn in Hn; lia|]. cbn [app length] in Hn. rewrite !app_length in Hn. cbn [length] in Hn.
    cbn [read_value app]. repeat (rewrite <- !app_assoc; cbn [app]). rewrite skip_start by reflexivity. cbn [Z.eqb Pos.eqb]. rewrite skip_blanks, members_blanks, Hr by (assumption || lia). rewrite Ec. cbn [app]. rewrite skip_start by exact Hc1.
    replace (c =? 125) with false by lia. reflexivity.
Qed.
Lemma member_good pretty k t v : good t v -> good_member (member pretty (k, t)) (characters k, v).
Proof.
  intros (cs & Hw & Hr). destruct (string_read k) as (ks & Hk & Hs). unfold member. cbn [fst snd]. assert (exists ws, writes (58 :: ws) (colon pretty) /\ blanks ws) as (ws & Hc & Hb).
  { destruct pretty; [exists [32]|exists []]; (split; [unfold colon; ascii_text_tac|]); repeat (apply Forall_cons; [reflexivity|]); apply Forall_nil. }
  exists ks, ((58 :: ws) ++ cs). split; [change (34 :: ks ++ (58 :: ws) ++ cs) with ((34 :: ks) ++ (58 :: ws) ++ cs); repeat apply writes_app; assumption|]. split; [exact Hs|]. exists ws, cs. auto.
Qed.

(** * Maps *)
Definition on_values {A B} (f : A -> B) (l : list (string * A)) : list (string * B) := map (fun kv => (fst kv, f (snd kv))) l.
Lemma insert_key_map {A B} (f : A -> B) x l : on_values f (insert_key x l) = insert_key (fst x, f (snd x)) (on_values f l).
Proof. unfold on_values. induction l as [|y l IH]; [reflexivity|]. cbn [insert_key map fst]. destruct (string_leb (fst x) (fst y)); [reflexivity|]. cbn [map]. f_equal. exact IH. Qed.
Lemma sort_keys_map {A B} (f : A -> B) l : sort_keys (on_values f l) = on_values f (sort_keys l).
Proof. induction l as [|x l IH]; [reflexivity|]. change (sort_keys (on_values f (x :: l))) with (insert_key (fst x, f (snd x)) (sort_keys (on_values f l))). rewrite IH, <- insert_key_map. reflexivity. Qed.
Lemma insert_key_perm {A} (x : string * A) l : Permutation (x :: l) (insert_key x l).
Proof. induction l as [|y l IH]; cbn [insert_key]; [reflexivity|]. destruct (string_leb _ _); [reflexivity|]. etransitivity; [apply perm_swap|]. constructor. exact IH. Qed.
Lemma sort_keys_perm {A} (l : list (string * A)) : Permutation l (sort_keys l).
Proof. induction l as [|x l IH]; [constructor|]. change (sort_keys (x :: l)) with (insert_key x (sort_keys l)). etransitivity; [constructor; exact IH|apply insert_key_perm]. Qed.
Lemma insert_key_fst {A} (x : string * A) l : map fst (insert_key x l) = insert_sorted (fst x) (map fst l).
Proof. induction l as [|y l IH]; [reflexivity|]. cbn [insert_key map insert_sorted]. destruct (string_leb _ _); [reflexivity|]. cbn [map]. f_equal. exact IH. Qed.
Lemma sort_keys_fst {A} (l : list (string * A)) : map fst (sort_keys l) = sort_strings (map fst l).
Proof. induction l as [|x l IH]; [reflexivity|]. change (sort_keys (x :: l)) with (insert_key x (sort_keys l)). rewrite insert_key_fst, IH. reflexivity. Qed.
Lemma sort_keys_sorted {A} (l : list (string * A)) : StronglySorted before_or_same (map fst (sort_keys l)).
Proof. rewrite sort_keys_fst. pose proof (sort_sorted (map fst l)) as H. induction H as [|x m H IH Hx]; constructor; [exact IH|]. eapply Forall_impl; [|exact Hx]. intros y. apply string_leb_before. Qed.

(** * All values *)
Fixpoint json_ind2 (P : json -> Prop) (Hn : P JNull) (Hb : forall b, P (JBool b)) (Hi : forall z, P (JInt z)) (Hs : forall s, P (JString s))
  (Hl : forall l, Forall P l -> P (JList l)) (Hm : forall m, Forall (fun kv => P (snd kv)) m -> P (JMap m)) (Ht : forall m, Forall (fun kv => P (snd kv)) m -> P (JStruct m)) (j : json) : P j :=
  let members := fix go (m : list (string * json)) : Forall (fun kv => P (snd kv)) m :=
    match m with [] => Forall_nil _ | kv :: m' => Forall_cons kv (json_ind2 P Hn Hb Hi Hs Hl Hm Ht (snd kv)) (go m') end in
  match j with
  | JNull => Hn | JBool b => Hb b | JInt z => Hi z | JString s => Hs s
  | JList l => Hl l ((fix go (l : list json) : Forall P l := match l with [] => Forall_nil _ | x :: l' => Forall_cons x (json_ind2 P Hn Hb Hi Hs Hl Hm Ht x) (go l') end) l)
  | JMap m => Hm m (members m)
  | JStruct m => Ht m (members m)
  end.
Definition entry (kv : string * value) : list Z * value := (characters (fst kv), snd kv).
Fixpoint value_of (j : json) : value :=
  match j with
  | JNull => VNull
  | JBool b => VBool b
  | JInt z => VInt z
  | JString s => VString (characters s)
  | JList l => VArray (map value_of l)
  | JMap m => VObject (map entry (sort_keys (map (fun kv => (fst kv, value_of (snd kv))) m)))
  | JStruct m => VObject (map entry (map (fun kv => (fst kv, value_of (snd kv))) m))
  end.
Lemma Forall2_map_same {A B C} (P : B -> C -> Prop) (f : A -> B) (g : A -> C) l : Forall (fun a => P (f a) (g a)) l -> Forall2 P (map f l) (map g l).
Proof. induction 1; constructor; assumption. Qed.
Lemma text_good pretty j : forall d, good (json_text pretty d j) (value_of j).
Proof.
  induction j as [|b|z|s|l IH|m IH|m IH] using json_ind2; intros d; cbn [json_text value_of].
  - apply good_null.
  - apply good_bool.
  - apply good_int.
  - apply good_string.
  - apply good_list, Forall2_map_same. eapply Forall_impl; [|exact IH]. intros a Ha. apply Ha.
  - fold (on_values (json_text pretty (S d)) m). fold (on_values value_of m). rewrite !sort_keys_map. unfold on_values. rewrite !map_map. apply good_object, Forall2_map_same.
    assert (Forall (fun kv => forall d, good (json_text pretty d (snd kv)) (value_of (snd kv))) (sort_keys m)) as IH' by (apply (Permutation_Forall (sort_keys_perm m)), IH).
    eapply Forall_impl; [|exact IH']. intros (k & j) Hj. apply member_good, Hj.
  - rewrite !map_map. apply good_object, Forall2_map_same. eapply Forall_impl; [|exact IH]. intros (k & j) Hj. apply member_good, Hj.
Qed.
Lemma means_value j : means j (value_of j).
Proof.
  induction j as [|b|z|s|l IH|m IH|m IH] using json_ind2; cbn [value_of]; try constructor.
  - induction IH; constructor; assumption.
  - fold (on_values value_of m). rewrite sort_keys_map. unfold on_values. rewrite map_map. apply (means_map m (sort_keys m)); [apply sort_keys_perm|apply sort_keys_sorted|].
    assert (Forall (fun kv => means (snd kv) (value_of (snd kv))) (sort_keys m)) as IH' by (apply (Permutation_Forall (sort_keys_perm m)), IH). clear IH.
    induction IH' as [|(k & j) l Hj _ IH]; constructor; [split; [reflexivity|exact Hj]|exact IH].
  - rewrite map_map. induction IH as [|(k & j) l Hj _ IH]; constructor; [split; [reflexivity|exact Hj]|exact IH].
Qed.
Lemma writes_characters cs s : writes cs s -> characters s = cs.
Proof. intros H. apply C78_valid in H as (_ & H). exact H. Qed.
Lemma good_reads t v : good t v -> writes (characters t) t /\ read_json (characters t) = Some v.
Proof.
  intros (cs & Hw & _ & Hr). rewrite (writes_characters _ _ Hw). split; [exact Hw|]. unfold read_json. rewrite <- (app_nil_r cs) at 2. rewrite Hr by (exact I || lia). reflexivity.
Qed.

(** C84: the body of every response is a text in UTF-8 that a JSON reader reads as what the program wants to tell, with or without indentation. *)
Theorem C84_body_is_json pretty r : exists v, writes (characters (body_text pretty r)) (body_text pretty r) /\ read_json (characters (body_text pretty r)) = Some v /\ means (JMap (resp_body r)) v.
Proof. destruct (good_reads _ _ (text_good pretty (JMap (resp_body r)) 0)) as (H1 & H2). exists (value_of (JMap (resp_body r))). split; [exact H1|]. split; [exact H2|apply means_value]. Qed.
Print Assumptions C84_body_is_json.
(** C84: the four routes.  (The names are in ASCII, and the characters of an ASCII text are its bytes.) *)
Definition named (k : string) (v : value) : list Z * value := (bytes k, v).
Definition text (s : string) : value := VString (characters s).
Lemma value_map2 k1 j1 k2 j2 b : string_leb k1 k2 = b ->
  value_of (JMap [(k1, j1); (k2, j2)]) = VObject (if b then [(characters k1, value_of j1); (characters k2, value_of j2)] else [(characters k2, value_of j2); (characters k1, value_of j1)]).
Proof. intros E. cbn [value_of map fst snd]. unfold sort_keys. cbn [fold_right insert_key fst]. rewrite E. destruct b; reflexivity. Qed.
Lemma value_map3 k1 j1 k2 j2 k3 j3 : string_leb k1 k2 = true -> string_leb k2 k3 = true ->
  value_of (JMap [(k1, j1); (k2, j2); (k3, j3)]) = VObject [(characters k1, value_of j1); (characters k2, value_of j2); (characters k3, value_of j3)].
Proof. intros E1 E2. cbn [value_of map fst snd]. unfold sort_keys. cbn [fold_right insert_key fst]. rewrite E2. cbn [insert_key fst]. rewrite E1. reflexivity. Qed.
Theorem C84_routes reg api bcdice pretty :
  let answer path v := exists r, route_in reg api bcdice path = Some r /\ read_json (characters (body_text pretty r)) = Some v in
  answer "/"%string (VObject [named "message" (text "Hello. This is GoBCDiceAPI."); named "ok" (VBool true)]) /\
  answer "/v1/version"%string (VObject [named "api" (text api); named "bcdice" (text bcdice); named "ok" (VBool true)]) /\
  answer "/v1/systems"%string (VObject [named "ok" (VBool true); named "systems" (VArray (map text (available_game_ids reg true)))]) /\
  answer "/v1/names"%string (VObject [
    named "names" (VArray (map (fun i => VObject [named "system" (text (si_system i)); named "name" (text (si_name i)); named "sort_key" (text (si_sort_key i))]) (available_game_infos reg true)));
    named "ok" (VBool true)]).
Proof.
  cbv zeta. split; [|split; [|split]]; (eexists; split; [reflexivity|]); unfold body_text; (etransitivity; [apply (proj2 (good_reads _ _ (text_good pretty _ 0)))|]); apply f_equal.
  - change (resp_body get_root) with [("message", JString "Hello. This is GoBCDiceAPI."); ("ok", JBool true)]%string. rewrite (value_map2 _ _ _ _ true) by (vm_compute; reflexivity). reflexivity.
  - change (resp_body (get_version api bcdice)) with [("api", JString api); ("bcdice", JString bcdice); ("ok", JBool true)]%string. rewrite value_map3 by (vm_compute; reflexivity). reflexivity.
  - change (resp_body (get_systems reg)) with [("systems", JList (map JString (available_game_ids reg true))); ("ok", JBool true)]%string. rewrite (value_map2 _ _ _ _ false) by (vm_compute; reflexivity).
    cbn [value_of]. rewrite map_map. reflexivity.
  - change (resp_body (get_names reg)) with [("names", JList (map info_json (available_game_infos reg true))); ("ok", JBool true)]%string. rewrite (value_map2 _ _ _ _ true) by (vm_compute; reflexivity).
    cbn [value_of]. rewrite map_map. reflexivity.
Qed.
Print Assumptions C84_routes.
(** C84: every entry of a response can be found under its key, and nothing else; the keys of the response are those of the body. *)
Theorem C84_entries pretty r : NoDup (map fst (resp_body r)) -> exists l, read_json (characters (body_text pretty r)) = Some (VObject l) /\
  (forall k j, map_get (resp_body r) k = Some j -> exists v, means j v /\ In (characters k, v) l) /\
  (forall c v, In (c, v) l -> exists k j, c = characters k /\ map_get (resp_body r) k = Some j /\ means j v) /\ length l = length (resp_body r).
Proof.
  intros Hn. destruct (C84_body_is_json pretty r) as (v & _ & Hr & Hm). inversion Hm as [| | | | | |m sorted m' Hp Hs Hf Em Ev]. subst. exists m'. split; [exact Hr|].
  assert (forall k j, map_get (resp_body r) k = Some j <-> In (k, j) (resp_body r)) as Hg.
  { clear - Hn. induction (resp_body r) as [|(k' & j') m IH]; intros k j; cbn [map_get In]; [split; [discriminate|intros []]|]. inversion Hn as [|? ? Hx Hm]; subst. destruct (String.eqb k' k) eqn:E.
    - apply String.eqb_eq in E as ->. split; [intros [= ->]; auto|]. intros [[= ->]|Hi]; [reflexivity|]. exfalso. apply Hx. apply (in_map fst) in Hi. exact Hi.
    - rewrite (IH Hm k j). split; [auto|]. intros [[= -> ->]|Hi]; [rewrite String.eqb_refl in E; discriminate|exact Hi]. }
  split; [|split].
  - intros k j Hk. apply Hg in Hk. apply (Permutation_in _ Hp) in Hk. clear - Hk Hf. induction Hf as [|kv (c & v) s m' (Hc & Hv) Hf IH]; [destruct Hk|]. destruct Hk as [->|Hk].
    + cbn [fst snd] in *. subst c. exists v. split; [exact Hv|left; reflexivity].
    + destruct (IH Hk) as (v' & Hv' & Hi). exists v'. split; [exact Hv'|right; exact Hi].
  - intros c v Hi. assert (exists k j, c = characters k /\ In (k, j) sorted /\ means j v) as (k & j & -> & Hk & Hv).
    { clear - Hi Hf. induction Hf as [|(k & j) kv s m' (Hc & Hv) Hf IH]; [destruct Hi|]. destruct Hi as [->|Hi].
      - cbn [fst snd] in *. exists k, j. split; [exact Hc|]. split; [left; reflexivity|exact Hv].
      - destruct (IH Hi) as (k' & j' & E & Hk & Hv'). exists k', j'. split; [exact E|]. split; [right; exact Hk|exact Hv']. }
    exists k, j. split; [reflexivity|]. split; [apply Hg, (Permutation_in _ (Permutation_sym Hp)), Hk|exact Hv].
  - rewrite (Permutation_length Hp). clear - Hf. induction Hf; cbn [length]; congruence.
Qed.
Print Assumptions C84_entries.

(** C84: the text can be put into an HTML page or a script: it has no less-than, greater-than or ampersand sign, no line or paragraph separator (U+2028, U+2029),
    and, without indentation, no control characters (U+0000 to U+001F). *)
Definition harmless (pretty : bool) (c : Z) : Prop := (c >= 32 \/ pretty = true /\ c = 10) /\ ~ In c [38; 60; 62; 8232; 8233].
Definition safe (pretty : bool) (t : string) : Prop := exists cs, writes cs t /\ Forall (harmless pretty) cs.
Lemma safe_app p s t : safe p s -> safe p t -> safe p (s ++ t).
Proof. intros (a & Ha & Fa) (b & Hb & Fb). exists (a ++ b). split; [apply writes_app; assumption|apply Forall_app; auto]. Qed.
Lemma safe_nil p : safe p "".
Proof. exists []. split; constructor. Qed.
Lemma safe_ascii p s : Forall (fun a => 32 <= byte_val a < 128 /\ byte_val a <> 38 /\ byte_val a <> 60 /\ byte_val a <> 62) (list_ascii_of_string s) -> safe p s.
Proof.
  intros H. exists (bytes s). split; [apply writes_ascii; eapply Forall_impl; [|exact H]; cbn beta; intros; lia|]. apply Forall_map. eapply Forall_impl; [|exact H]. cbn beta. intros a Ha. unfold harmless. cbn [In]. lia.
Qed.
Ltac safe_tac := apply safe_ascii; unfold quote_mark; cbn [list_ascii_of_string]; repeat (apply Forall_cons; [vm_compute; repeat split; discriminate|]); apply Forall_nil.
Lemma safe_join p sep l : safe p sep -> Forall (safe p) l -> safe p (join sep l).
Proof. intros Hs. induction 1 as [|t l Ht H IH]; [apply safe_nil|]. destruct l as [|t' l]; [exact Ht|]. change (join sep (t :: t' :: l)) with (t ++ sep ++ join sep (t' :: l))%string. repeat apply safe_app; assumption. Qed.
Lemma safe_break p d : safe p (line_break p d).
Proof.
  unfold line_break. destruct p; [|apply safe_nil]. apply safe_app.
  - exists [10]. split; [unfold line_feed; ascii_text_tac|]. apply Forall_cons; [|apply Forall_nil]. unfold harmless. cbn [In]. lia.
  - induction d as [|d IH]; [apply safe_nil|]. cbn [indentation]. apply (safe_app true "  "); [safe_tac|exact IH].
Qed.
Lemma safe_hex p w r : safe p (hex w r).
Proof.
  revert r. induction w as [|w IH]; intros r; [apply safe_nil|]. cbn [hex]. apply safe_app; [apply IH|]. apply safe_ascii. cbn [list_ascii_of_string]. apply Forall_cons; [|apply Forall_nil].
  pose proof (Z.mod_pos_bound r 16 ltac:(lia)). rewrite hex_digit_val by assumption. destruct (r mod 16 <? 10) eqn:E; lia.
Qed.
Lemma safe_string p s : safe p (json_string s).
Proof.
  unfold json_string. apply safe_app; [safe_tac|]. apply safe_app; [|safe_tac]. induction (decode_decoded s) as [|c l Hd _ IH]; [apply safe_nil|]. cbn [json_chars]. apply safe_app; [|exact IH].
  unfold json_char. cbv zeta. destruct (gc_bad c) eqn:Eb; [safe_tac|]. pose proof (good_character c Hd Eb) as Hc.
  assert (harmless p (gc_rune c) -> safe p (gc_raw c)) as Hh. { intros H. exists [gc_rune c]. split; [apply writes_one, Hc|]. apply Forall_cons; [exact H|apply Forall_nil]. }
  destruct ((gc_rune c =? 34) || (gc_rune c =? 92)) eqn:E1.
  { change (String "\" (gc_raw c)) with ("\" ++ gc_raw c)%string. apply safe_app; [safe_tac|]. apply Hh. unfold harmless. cbn [In]. lia. }
  destruct (gc_rune c =? 10); [safe_tac|]. destruct (gc_rune c =? 13); [safe_tac|]. destruct (gc_rune c =? 9); [safe_tac|].
  destruct ((gc_rune c <? 32) || _ || _ || _ || _ || _) eqn:E2; [apply safe_app; [safe_tac|apply safe_hex]|]. apply Hh. unfold harmless. cbn [In]. lia.
Qed.
Lemma safe_int p z : safe p (itoa z).
Proof.
  assert (forall v, 0 <= v -> safe p (itoa v)) as H. { intros v Hv. apply safe_ascii. eapply Forall_impl; [|apply (itoa_digits v Hv)]. unfold digit. intros; lia. }
  destruct (Z_lt_le_dec z 0) as [Hz|Hz]; [|apply H, Hz]. rewrite itoa_minus by exact Hz. change (String "-" (itoa (- z))) with ("-" ++ itoa (- z))%string. apply safe_app; [safe_tac|apply H; lia].
Qed.
Lemma safe_brackets p d op cl items : safe p op -> safe p cl -> Forall (safe p) items -> safe p (in_brackets p d op cl items).
Proof.
  intros H1 H2 H. unfold in_brackets. destruct items as [|t items]; [apply safe_app; assumption|]. repeat apply safe_app; try assumption; try apply safe_break. apply safe_join; [|exact H]. apply (safe_app p ","); [safe_tac|apply safe_break].
Qed.
Lemma safe_member p k t : safe p t -> safe p (member p (k, t)).
Proof. intros H. unfold member. cbn [fst snd]. apply safe_app; [apply safe_string|]. apply safe_app; [|exact H]. destruct p; cbn [colon]; safe_tac. Qed.
Lemma safe_text p j : forall d, safe p (json_text p d j).
Proof.
  induction j as [|b|z|s|l IH|m IH|m IH] using json_ind2; intros d; cbn [json_text].
  - safe_tac.
  - destruct b; safe_tac.
  - apply safe_int.
  - apply safe_string.
  - apply safe_brackets; [safe_tac|safe_tac|]. apply Forall_map. eapply Forall_impl; [|exact IH]. intros a Ha. apply Ha.
  - apply safe_brackets; [safe_tac|safe_tac|]. fold (on_values (json_text p (S d)) m). rewrite sort_keys_map. unfold on_values. rewrite map_map. apply Forall_map. apply (Permutation_Forall (sort_keys_perm m)).
    eapply Forall_impl; [|exact IH]. intros (k & j) Hj. apply safe_member, Hj.
  - apply safe_brackets; [safe_tac|safe_tac|]. rewrite map_map. apply Forall_map. eapply Forall_impl; [|exact IH]. intros (k & j) Hj. apply safe_member, Hj.
Qed.
Theorem C84_harmless pretty r : Forall (harmless pretty) (characters (body_text pretty r)).
Proof. destruct (safe_text pretty (JMap (resp_body r)) 0) as (cs & Hw & Hf). unfold body_text. rewrite (writes_characters _ _ Hw). exact Hf. Qed.
Print Assumptions C84_harmless.

Example C84_example :
  body_text false (json_response_error 404 ("no <b>" ++ String """" (String "010" "サイコロ"))) = "{""message"":""no \u003cb\u003e\""\nサイコロ"",""ok"":false}"%string /\
  (exists r, route_in [] "0.1" "2.0" "/v1/version" = Some r /\ body_text false r = "{""api"":""0.1"",""bcdice"":""2.0"",""ok"":true}"%string) /\
  read_json (bytes "{""a"" : [1, -20, null,{}, []], ""b"": ""x\ud83d\ude00\u00e9\/""}") =
    Some (VObject [([97], VArray [VInt 1; VInt (-20); VNull; VObject []; VArray []]); ([98], VString [120; 128512; 233; 47])]) /\
  read_json (bytes "[1,]") = None /\ read_json (bytes "{""a"":01}") = None /\ read_json (bytes "[1] x") = None.
Proof. split; [vm_compute; reflexivity|]. split; [eexists; split; [reflexivity|vm_compute; reflexivity]|]. repeat (split; [vm_compute; reflexivity|]). vm_compute. reflexivity. Qed.
(** The hypothesis of C84_entries holds for the responses of the routes. *)
Example C84_hypothesis reg api bcdice path r : route_in reg api bcdice path = Some r -> NoDup (map fst (resp_body r)).
Proof.
  unfold route_in. repeat match goal with |- context [if ?b then _ else _] => destruct b end; intros [= <-]; cbn [resp_body json_response get_root get_version get_systems get_names map_set map fst]; vm_compute;
    repeat (apply NoDup_cons; [cbn [In]; intuition discriminate|]); apply NoDup_nil.
Qed.
