(** The regular expressions of the code, matched by hand: the longest runs of bytes decide. *)
From Verif Require Import ProofBase Regex BCDice TestCase Repl SpecText SpecSyntax DecodeProofs RegexProofs.
Open Scope list_scope.
Open Scope Z_scope.

Definition is_re_space (a : ascii) : bool :=
  let b := byte_val a in (b =? 9) || (b =? 10) || (b =? 12) || (b =? 13) || (b =? 32).

Fixpoint hand_first_part (s : string) : string :=
  match s with
  | EmptyString => EmptyString
  | String a s' => if is_re_space a then EmptyString else String a (hand_first_part s')
  end.
Definition is_digit (a : ascii) : bool := let b := byte_val a in (48 <=? b) && (b <=? 57).

Fixpoint skip_spaces (s : string) : string :=
  match s with
  | String a s' => if is_re_space a then skip_spaces s' else s
  | EmptyString => s
  end.
Fixpoint take_digits (s : string) : string * string :=
  match s with
  | String a s' => if is_digit a then let '(d, r) := take_digits s' in (String a d, r) else (EmptyString, s)
  | EmptyString => (EmptyString, EmptyString)
  end.
Definition hand_die (s : string) : option (string * string) :=
  let '(v, r1) := take_digits (skip_spaces s) in
  if is_empty v then None
  else match r1 with
       | String a r2 =>
           if Ascii.eqb a "/" then
             let '(d, r3) := take_digits r2 in
             if is_empty d then None
             else if is_empty (skip_spaces r3) then Some (v, d) else None
           else None
       | EmptyString => None
       end.
Fixpoint last_such {A} (pat : string) (ok : string -> option A) (s : string) : option (string * A) :=
  let here :=
    match strip_prefix pat s with
    | Some r => match ok r with Some a => Some (EmptyString, a) | None => None end
    | None => None
    end in
  match s with
  | EmptyString => here
  | String c s' =>
      match last_such pat ok s' with
      | Some (b, a) => Some (String c b, a)
      | None => here
      end
  end.
Definition hand_source (s : string) : option (string * (string * string)) :=
  match strip_prefix ("input:" ++ nl) s with
  | Some (String c s') =>
      match last_such (nl ++ "output:") (last_such (nl ++ "rand:") (fun r => Some r)) s' with
      | Some (i, x) => Some (String c i, x)
      | None => None
      end
  | _ => None
  end.
Definition hand_roll (s : string) : option (string * string) :=
  let '(a, r1) := take_digits s in
  if is_empty a then None
  else
    let r2 := skip_spaces r1 in
    if Nat.eqb (String.length r1) (String.length r2) then None
    else
      let '(b, r3) := take_digits r2 in
      if is_empty b then None else if is_empty r3 then Some (a, b) else None.
Definition is_name_char (a : ascii) : bool :=
  let b := byte_val a in (b =? 45) || ((97 <=? b) && (b <=? 122)).
Fixpoint take_name (s : string) : string * string :=
  match s with
  | String a s' => if is_name_char a then let '(n, r) := take_name s' in (String a n, r) else (EmptyString, s)
  | EmptyString => (EmptyString, EmptyString)
  end.
Definition hand_command (s : string) : option (string * string) :=
  match s with
  | String a s' =>
      if Ascii.eqb a "." then
        let '(n, r) := take_name s' in
        if is_empty n then None
        else
          let args := skip_spaces r in
          Some (n, if Nat.eqb (String.length args) (String.length r) then EmptyString else args)
      else None
  | EmptyString => None
  end.
Fixpoint hand_trim (s : string) : string :=
  match s with
  | String a s' =>
      match hand_trim s' with
      | EmptyString => if is_re_space a then EmptyString else String a EmptyString
      | t => String a t
      end
  | EmptyString => EmptyString
  end.

(** ** Unfolding *)
Lemma bt_seq {A} a b i t cs (k : nat -> list gochar -> captures -> option A) : backtrack (RSeq a b) i t cs k = backtrack a i t cs (fun i t cs => backtrack b i t cs k).
Proof. reflexivity. Qed.
Lemma bt_group {A} n a i t cs (k : nat -> list gochar -> captures -> option A) : backtrack (RGroup n a) i t cs k = backtrack a i t cs (fun i' t' cs' => k i' t' ((n, raw_text (slice_from t t')) :: cs')).
Proof. reflexivity. Qed.
Lemma bt_opt {A} a i t cs (k : nat -> list gochar -> captures -> option A) : backtrack (ROpt a) i t cs k = match backtrack a i t cs k with Some x => Some x | None => k i t cs end.
Proof. reflexivity. Qed.
Lemma bt_char {A} p i t cs (k : nat -> list gochar -> captures -> option A) : backtrack (RChar p) i t cs k = match t with c :: t' => if p (gc_rune c) then k (S i) t' cs else None | [] => None end.
Proof. reflexivity. Qed.
Lemma bt_eps {A} i t cs (k : nat -> list gochar -> captures -> option A) : backtrack REps i t cs k = k i t cs.
Proof. reflexivity. Qed.
Lemma bt_end {A} i t cs (k : nat -> list gochar -> captures -> option A) : backtrack REnd i t cs k = match t with [] => k i t cs | _ => None end.
Proof. reflexivity. Qed.

(** ** The first word *)
Lemma agree_space : agree re_space is_re_space.
Proof. split; [reflexivity|]. exists false. split; intros; unfold re_space, is_re_space; lia. Qed.
Lemma agree_not p q : agree p q -> agree (fun r => negb (p r)) (fun a => negb (q a)).
Proof. intros (H & v & H1 & H2). split; [intros; rewrite H by assumption; reflexivity|]. exists (negb v). split; intros; [rewrite H1 by assumption|rewrite H2 by assumption]; reflexivity. Qed.
Lemma agree_digit : agree re_digit is_digit.
Proof. split; [reflexivity|]. exists false. split; intros; unfold re_digit, is_digit; lia. Qed.
Lemma agree_name : agree re_name is_name_char.
Proof. split; [reflexivity|]. exists false. split; intros; unfold re_name, is_name_char; lia. Qed.
Lemma take_digits_span s : take_digits s = span_bytes is_digit s.
Proof. induction s as [|a s IH]; [reflexivity|]. cbn. rewrite IH. reflexivity. Qed.
Lemma take_name_span s : take_name s = span_bytes is_name_char s.
Proof. induction s as [|a s IH]; [reflexivity|]. cbn. rewrite IH. reflexivity. Qed.
Lemma skip_spaces_span s : skip_spaces s = snd (span_bytes is_re_space s).
Proof. induction s as [|a s IH]; [reflexivity|]. cbn. rewrite IH. destruct (is_re_space a); [|reflexivity]. destruct (span_bytes is_re_space s). reflexivity. Qed.
Lemma hand_first_span s : hand_first_part s = fst (span_bytes (fun a => negb (is_re_space a)) s).
Proof. induction s as [|a s IH]; [reflexivity|]. cbn. destruct (is_re_space a); [reflexivity|]. cbn. rewrite IH. destruct (span_bytes _ s). reflexivity. Qed.
Lemma first_part_eq s : first_part s = hand_first_part s.
Proof.
  unfold first_part, command_first_part_re. cbn [RSeqs]. rewrite find_begin, bt_seq, bt_group, star_class.
  destruct (span_decode _ _ s (agree_not _ _ agree_space)) as (t & E1 & E2 & E3 & E4). set (p := fun r => negb (re_space r)) in *.
  assert (exists cs, star_try p 0 (decode s) (fun i t0 => backtrack (ROpt (RGroup 2 (RSeq (RChar re_space) (RStar (RChar re_dot))))) i t0 [(1%nat, raw_text (slice_from (decode s) t0))] (fun _ _ cs => Some cs)) = Some cs
    /\ group cs 1 = raw_text (fst (span p (decode s)))) as (cs & -> & Ecs).
  { rewrite <- (slice_span p (decode s)). set (c1 := raw_text _).
    assert (exists cs, backtrack (ROpt (RGroup 2 (RSeq (RChar re_space) (RStar (RChar re_dot))))) (0 + length (fst (span p (decode s)))) (snd (span p (decode s))) [(1%nat, c1)] (fun _ _ cs => Some cs) = Some cs /\ group cs 1 = c1) as (cs & H1 & H2).
    { rewrite bt_opt, bt_group, bt_seq, bt_char. destruct (snd (span p (decode s))) as [|c t0]; [eexists; split; reflexivity|]. destruct (re_space (gc_rune c)); [|eexists; split; reflexivity].
      rewrite star_class. erewrite star_wins by reflexivity. eexists. split; reflexivity. }
    exists cs. split; [|exact H2]. apply star_wins. exact H1. }
  rewrite Ecs, hand_first_span, E4. reflexivity.
Qed.

(** ** Runs of bytes *)
Lemma star_bytes {A} p q i s cs (k : nat -> list gochar -> captures -> option A) : agree p q -> (forall i c t, p (gc_rune c) = true -> k i (c :: t) cs = None) ->
  exists n, backtrack (RStar (RChar p)) i (decode s) cs k = k n (decode (snd (span_bytes q s))) cs.
Proof.
  intros Ha Hk. destruct (span_decode p q s Ha) as (t & E1 & E2 & E3 & E4). rewrite E4. cbn [snd]. rewrite E3, star_class, star_longest by exact Hk. rewrite E2. eexists. reflexivity.
Qed.
Lemma plus_bytes {A} p q i s cs (k : nat -> list gochar -> captures -> option A) : agree p q -> (forall i c t, p (gc_rune c) = true -> k i (c :: t) cs = None) ->
  exists n, backtrack (RPlus (RChar p)) i (decode s) cs k = if is_empty (fst (span_bytes q s)) then None else k n (decode (snd (span_bytes q s))) cs.
Proof.
  intros Ha Hk. destruct (span_decode p q s Ha) as (t & E1 & E2 & E3 & E4). rewrite E4. cbn [fst snd]. rewrite E3, plus_longest by exact Hk. rewrite E2.
  exists (i + length (fst (span p (decode s))))%nat. destruct (fst (span p (decode s))) as [|c l] eqn:E; [reflexivity|]. cbn [raw_text]. pose proof (decode_decoded s) as D. rewrite E1 in D. inversion D as [|? ? Hc _]. subst.
  apply raw_nonempty in Hc. destruct (gc_raw c); [congruence|]. reflexivity.
Qed.
Lemma slice_bytes p q s : agree p q -> raw_text (slice_from (decode s) (decode (snd (span_bytes q s)))) = fst (span_bytes q s).
Proof. intros Ha. destruct (span_decode p q s Ha) as (t & E1 & E2 & E3 & E4). rewrite E4. cbn [fst snd]. rewrite E3, E1, slice_app, <- E1. reflexivity. Qed.
Lemma decode_cons a s : byte_val a < 128 -> decode (String a s) = ascii_char a :: decode s.
Proof. intros H. rewrite decode_first. cbn [first_char]. cbv zeta. rewrite (proj2 (Z.ltb_lt _ _) H). reflexivity. Qed.
Lemma decode_other a s : 128 <= byte_val a -> exists c t, decode (String a s) = c :: t /\ 128 <= gc_rune c.
Proof.
  intros H. rewrite decode_first. destruct (first_char (String a s)) as [(c, s')|] eqn:E; [|discriminate E]. exists c, (decode s'). split; [reflexivity|]. assert (decoded c) as Hc by (eexists; eexists; exact E).
  destruct (decoded_bytes c Hc) as [(E1 & E2)|(E1 & _)]; [|exact E1]. exfalso. apply first_raw in E. destruct (gc_raw c) as [|b [|b' r]]; cbn in E1; try discriminate E1. injection E1 as E1. cbn in E. injection E as <- _. lia.
Qed.
Lemma byte_inj a b : byte_val a = byte_val b -> a = b.
Proof. intros H. rewrite <- (byte_of_val a), <- (byte_of_val b), H. reflexivity. Qed.
Lemma char_bytes {A} a i s cs (k : nat -> list gochar -> captures -> option A) : byte_val a < 128 ->
  backtrack (RChar (fun r => r =? byte_val a)) i (decode s) cs k = match s with String b s' => if Ascii.eqb a b then k (S i) (decode s') cs else None | EmptyString => None end.
Proof.
  intros Ha. rewrite bt_char. destruct s as [|b s]; [reflexivity|]. destruct (Z.lt_ge_cases (byte_val b) 128) as [Hb|Hb].
  - rewrite decode_cons by exact Hb. cbn [gc_rune ascii_char]. destruct (Ascii.eqb_spec a b) as [<-|N]; [rewrite Z.eqb_refl; reflexivity|]. rewrite (proj2 (Z.eqb_neq _ _)); [reflexivity|]. intros E. apply byte_inj in E. congruence.
  - destruct (decode_other b s Hb) as (c & t & -> & Hc). rewrite (proj2 (Z.eqb_neq _ _)) by lia. destruct (Ascii.eqb_spec a b) as [<-|N]; [lia|reflexivity].
Qed.
Lemma text_bytes {A} p i s cs (k : nat -> list gochar -> captures -> option A) : ascii_text p ->
  exists n, backtrack (RText p) i (decode s) cs k = match strip_prefix p s with Some s' => k n (decode s') cs | None => None end.
Proof.
  revert i s. induction p as [|a p IH]; intros i s Hp; [exists i; reflexivity|]. inversion Hp. subst. cbn [RText]. rewrite bt_seq, char_bytes by assumption. cbn [strip_prefix].
  destruct s as [|b s]; [exists i; reflexivity|]. destruct (Ascii.eqb a b); [|exists i; reflexivity]. apply IH. assumption.
Qed.
Lemma decode_nil s : decode s = [] <-> s = EmptyString.
Proof. split; [|intros ->; reflexivity]. intros H. rewrite <- (raw_decode s), H. reflexivity. Qed.
Lemma end_bytes {A} i s cs (k : nat -> list gochar -> captures -> option A) : backtrack REnd i (decode s) cs k = if is_empty s then k i [] cs else None.
Proof. rewrite bt_end. destruct s as [|a s]; [reflexivity|]. destruct (decode (String a s)) as [|c t] eqn:E; [apply decode_nil in E; discriminate|reflexivity]. Qed.
Lemma digit_space r : re_digit r = true -> re_space r = false.
Proof. unfold re_digit, re_space. lia. Qed.
Lemma space_digit r : re_space r = true -> re_digit r = false.
Proof. unfold re_digit, re_space. lia. Qed.

(** ** A die *)
Lemma match_die_eq s : match_die s = hand_die s.
Proof.
  unfold match_die, dice_re, hand_die. cbn [RSeqs]. rewrite find_begin, bt_seq.
  match goal with |- context [backtrack (RStar (RChar re_space)) ?i ?t ?cs ?k] => destruct (star_bytes re_space is_re_space i s cs k agree_space) as (n1 & E1) end.
  { intros i c t Hc. rewrite bt_seq, bt_group, plus_class, (space_digit _ Hc). reflexivity. }
  rewrite E1. clear E1. rewrite skip_spaces_span, !take_digits_span. set (s1 := snd (span_bytes is_re_space s)). rewrite bt_seq, bt_group.
  match goal with |- context [backtrack (RPlus (RChar re_digit)) ?i ?t ?cs ?k] => destruct (plus_bytes re_digit is_digit i s1 cs k agree_digit) as (n2 & E2) end.
  { intros i c t Hc. cbn [RText]. rewrite !bt_seq, bt_char. replace (gc_rune c =? byte_val "/") with false; [reflexivity|]. unfold re_digit in Hc. change (byte_val "/") with 47. lia. }
  rewrite E2. clear E2. pose proof (slice_bytes re_digit is_digit s1 agree_digit) as S1. destruct (span_bytes is_digit s1) as (v, r1). cbn [fst snd] in *. destruct (is_empty v); [reflexivity|]. rewrite S1. cbn [RText]. rewrite !bt_seq, char_bytes by reflexivity.
  destruct r1 as [|a r2]; [reflexivity|]. rewrite Ascii.eqb_sym. destruct (Ascii.eqb a "/"); [|reflexivity]. rewrite bt_eps, bt_seq, bt_group.
  match goal with |- context [backtrack (RPlus (RChar re_digit)) ?i ?t ?cs ?k] => destruct (plus_bytes re_digit is_digit i r2 cs k agree_digit) as (n3 & E3) end.
  { intros i c t Hc. rewrite bt_seq, star_class. cbn [star_try]. rewrite (digit_space _ Hc), bt_end. reflexivity. }
  rewrite E3. clear E3. pose proof (slice_bytes re_digit is_digit r2 agree_digit) as S2. rewrite take_digits_span. destruct (span_bytes is_digit r2) as (d, r3). cbn [fst snd] in *. destruct (is_empty d); [reflexivity|]. rewrite S2, bt_seq.
  match goal with |- context [backtrack (RStar (RChar re_space)) ?i ?t ?cs ?k] => destruct (star_bytes re_space is_re_space i r3 cs k agree_space) as (n4 & E4) end.
  { intros i c t Hc. rewrite bt_end. reflexivity. }
  rewrite E4, end_bytes, skip_spaces_span. destruct (is_empty _); reflexivity.
Qed.

Lemma span_bytes_length q s : String.length s = (String.length (fst (span_bytes q s)) + String.length (snd (span_bytes q s)))%nat.
Proof. induction s as [|a s IH]; [reflexivity|]. cbn. destruct (q a); [|reflexivity]. destruct (span_bytes q s). cbn in *. lia. Qed.
(** ** .roll *)
Lemma match_roll_eq s : match_roll s = hand_roll s.
Proof.
  unfold match_roll, roll_dice_re, hand_roll. cbn [RSeqs]. rewrite find_begin, bt_seq, bt_group, take_digits_span.
  match goal with |- context [backtrack (RPlus (RChar re_digit)) ?i ?t ?cs ?k] => destruct (plus_bytes re_digit is_digit i s cs k agree_digit) as (n2 & E2) end.
  { intros i c t Hc. rewrite bt_seq, plus_class, (digit_space _ Hc). reflexivity. }
  rewrite E2. clear E2. pose proof (slice_bytes re_digit is_digit s agree_digit) as S1. destruct (span_bytes is_digit s) as (a, r1). cbn [fst snd] in *. destruct (is_empty a); [reflexivity|]. rewrite S1, bt_seq.
  match goal with |- context [backtrack (RPlus (RChar re_space)) ?i ?t ?cs ?k] => destruct (plus_bytes re_space is_re_space i r1 cs k agree_space) as (n3 & E3) end.
  { intros i c t Hc. rewrite bt_seq, bt_group, plus_class, (space_digit _ Hc). reflexivity. }
  rewrite E3. clear E3. cbv zeta. rewrite skip_spaces_span. pose proof (span_bytes_length is_re_space r1) as L. destruct (span_bytes is_re_space r1) as (x, r2). cbn [fst snd] in *.
  replace (Nat.eqb (String.length r1) (String.length r2)) with (is_empty x) by (destruct x; cbn in *; symmetry; [apply Nat.eqb_eq|apply Nat.eqb_neq]; lia). destruct (is_empty x); [reflexivity|].
  rewrite bt_seq, bt_group, take_digits_span.
  match goal with |- context [backtrack (RPlus (RChar re_digit)) ?i ?t ?cs ?k] => destruct (plus_bytes re_digit is_digit i r2 cs k agree_digit) as (n4 & E4) end.
  { intros i c t Hc. rewrite bt_end. reflexivity. }
  rewrite E4. clear E4. pose proof (slice_bytes re_digit is_digit r2 agree_digit) as S2. destruct (span_bytes is_digit r2) as (b, r3). cbn [fst snd] in *. destruct (is_empty b); [reflexivity|]. rewrite end_bytes, S2. destruct (is_empty r3); reflexivity.
Qed.

(** ** The source of a test case *)
Lemma strip_high a p x s : byte_val a < 128 -> 128 <= byte_val x -> strip_prefix (String a p) (String x s) = None.
Proof. intros Ha Hx. cbn [strip_prefix]. destruct (Ascii.eqb_spec a x) as [<-|N]; [lia|reflexivity]. Qed.
Lemma last_such_high {A} a p (ok : string -> option A) x s : byte_val a < 128 -> Forall (fun b => 128 <= b) (bytes x) ->
  last_such (String a p) ok (x ++ s) = match last_such (String a p) ok s with Some (b, r) => Some ((x ++ b)%string, r) | None => None end.
Proof.
  intros Ha. induction x as [|y x IH]; intros Hx; [cbn; destruct (last_such _ ok s) as [(b, r)|]; reflexivity|]. inversion Hx. subst. cbn [append]. cbn [last_such]. rewrite IH by assumption.
  rewrite (strip_high a p y (x ++ s)) by assumption. destruct (last_such _ ok s) as [(b, r)|]; reflexivity.
Qed.
Lemma app_assoc_r (a b c : string) : ((a ++ b) ++ c = a ++ (b ++ c))%string.
Proof. induction a as [|x a IH]; [reflexivity|]. cbn [append]. f_equal. exact IH. Qed.
Lemma any_last {A B} a p (ok : string -> option A) (G : string -> A -> B) i s K : byte_val a < 128 ->
  (forall n m s', decode s = m ++ decode s' -> s = (raw_text m ++ s')%string -> K n (decode s') = match strip_prefix (String a p) s' with Some r => match ok r with Some x => Some (G (raw_text m) x) | None => None end | None => None end) ->
  star_try re_any i (decode s) K = match last_such (String a p) ok s with Some (b, x) => Some (G b x) | None => None end.
Proof.
  intros Ha. revert i G. induction s as [|s c s' E IH] using decode_ind; intros i G HK.
  - pose proof (HK i [] EmptyString eq_refl eq_refl) as H. cbn [decode star_try] in *. rewrite H. reflexivity.
  - pose proof (HK i [] s eq_refl eq_refl) as H0. rewrite decode_first, E in H0. rewrite decode_first, E. cbn [star_try]. change (re_any (gc_rune c)) with true. cbv iota.
    pose proof (first_raw _ _ _ E) as Er. rewrite (IH (S i) (fun b x => G (gc_raw c ++ b)%string x)).
    + rewrite H0, Er. assert (decoded c) as Hc by (eexists; eexists; exact E). destruct (decoded_bytes c Hc) as [(Eb & Hr)|(Hr & Hb)].
      * destruct (gc_raw c) as [|y [|z r]]; cbn in Eb; try discriminate Eb. cbn [append last_such raw_text]. destruct (last_such (String a p) ok s') as [(b, x)|]; [reflexivity|].
        destruct (strip_prefix (String a p) (String y s')) as [r|]; [|reflexivity]. destruct (ok r); reflexivity.
      * rewrite last_such_high by assumption. destruct (last_such (String a p) ok s') as [(b, x)|]; [reflexivity|]. pose proof (raw_nonempty c Hc) as Hn. destruct (gc_raw c) as [|y r]; [congruence|]. inversion Hb. subst. cbn [append].
        rewrite strip_high by assumption. reflexivity.
    + intros n m s'' E1 E2. rewrite (HK n (c :: m) s''); [reflexivity| |].
      * rewrite decode_first, E, E1. reflexivity.
      * cbn [raw_text]. rewrite Er, E2, app_assoc_r. reflexivity.
Qed.
Lemma slice_split m s s' : decode s = m ++ decode s' -> raw_text (slice_from (decode s) (decode s')) = raw_text m.
Proof. intros ->. rewrite slice_app. reflexivity. Qed.
Lemma match_source_eq s : match_source s = hand_source s.
Proof.
  unfold match_source, source_re, hand_source. cbn [RSeqs]. rewrite find_begin, bt_seq.
  match goal with |- context [backtrack (RText ?p) ?i ?t ?cs ?k] => destruct (text_bytes p i s cs k) as (n1 & E1) end; [repeat constructor|]. rewrite E1. clear E1.
  destruct (strip_prefix ("input:" ++ nl) s) as [[|c0 s1]|]; [rewrite bt_seq, bt_group, plus_class; reflexivity| |reflexivity]. rewrite bt_seq, bt_group, plus_class.
  destruct (first_char (String c0 s1)) as [(c, s2)|] eqn:E; [|discriminate E]. pose proof (first_raw _ _ _ E) as Er. rewrite decode_first at 1. rewrite E at 1. change (re_any (gc_rune c)) with true. cbv iota.
  assert (decoded c) as Hc by (eexists; eexists; exact E).
  erewrite (any_last "010"%char "output:" (last_such (nl ++ "rand:") (fun r => Some r)) (fun b x => [(3%nat, snd x); (2%nat, fst x); (1%nat, (gc_raw c ++ b)%string)])); [|reflexivity|].
  - change (String "010" "output:") with (nl ++ "output:")%string. assert (exists x, gc_raw c = String c0 x /\ s1 = (x ++ s2)%string /\ Forall (fun b => 128 <= b) (bytes x)) as (x & Ex & -> & Hx).
    { pose proof (raw_nonempty c Hc) as Hn. destruct (decoded_bytes c Hc) as [(Eb & Hr)|(Hr & Hb)]; destruct (gc_raw c) as [|y x]; try congruence; cbn [append] in Er; injection Er as -> ->; exists x; split; try reflexivity; split; try reflexivity.
      - destruct x; [constructor|discriminate Eb].
      - inversion Hb. assumption. }
    rewrite (last_such_high "010"%char "output:" _ x s2) by (reflexivity || exact Hx). change (String "010" "output:") with (nl ++ "output:")%string.
    destruct (last_such (nl ++ "output:") _ s2) as [(b, (o, r))|]; [|reflexivity]. cbn [group Nat.eqb fst snd]. rewrite Ex. reflexivity.
  - intros n m s3 E1 E2. rewrite bt_seq.
    match goal with |- context [backtrack (RText ?p) ?i ?t ?cs ?k] => destruct (text_bytes p i s3 cs k) as (n2 & E3) end; [repeat constructor|]. rewrite E3. clear E3.
    change (String "010" "output:") with (nl ++ "output:")%string. destruct (strip_prefix (nl ++ "output:") s3) as [r|]; [|reflexivity]. rewrite bt_seq, bt_group, star_class.
    erewrite (any_last "010"%char "rand:" (fun r => Some r) (fun b x => [(3%nat, x); (2%nat, b); (1%nat, (gc_raw c ++ raw_text m)%string)])); [|reflexivity|].
    + change (String "010" "rand:") with (nl ++ "rand:")%string. destruct (last_such (nl ++ "rand:") _ r) as [(b, x)|]; reflexivity.
    + intros n' m' s4 F1 F2. rewrite bt_seq.
      match goal with |- context [backtrack (RText ?p) ?i ?t ?cs ?k] => destruct (text_bytes p i s4 cs k) as (n3 & E3) end; [repeat constructor|]. rewrite E3. clear E3.
      change (String "010" "rand:") with (nl ++ "rand:")%string. destruct (strip_prefix (nl ++ "rand:") s4) as [q|]; [|reflexivity]. rewrite bt_group, star_class.
      assert (forall t, span re_any t = (t, [])) as Sa by (induction t as [|? ? IHt]; [reflexivity|]; cbn [span]; change (re_any _) with true; rewrite IHt; reflexivity).
      erewrite star_wins; [|rewrite Sa; reflexivity]. cbn [snd]. rewrite (slice_split m' r s4 F1).
      rewrite (slice_split (c :: m) (String c0 s1) s3) by (rewrite decode_first, E, E1; reflexivity). pose proof (slice_app (decode q) []) as Q. rewrite app_nil_r in Q. rewrite Q, raw_decode. reflexivity.
Qed.

(** ** REPL commands *)
(** What the second group holds after the name *)
Definition raw_args (rest : string) : string :=
  match backtrack (RStar (RSeq (RPlus (RChar re_space)) (RGroup 2 (RPlus (RChar re_dot))))) 0 (decode rest) [] (fun _ _ cs => Some cs) with Some cs => group cs 2 | None => EmptyString end.
Definition hand_name (s : string) : option (string * string) :=
  match s with
  | String a s' => if Ascii.eqb a "." then let '(n, r) := take_name s' in if is_empty n then None else Some (n, r) else None
  | EmptyString => None
  end.
(** Earlier groups do not matter, nor does the place. *)
Fixpoint only_two (r : re) : Prop :=
  match r with RSeq a b => only_two a /\ only_two b | RStar a | ROpt a => only_two a | RGroup n a => n = 2%nat /\ only_two a | RBegin => False | _ => True end.
Definition two (cs : captures) : Prop := Forall (fun x => fst x = 2%nat) cs.
Lemma bt_shift d e r : only_two r -> forall i t cs (k k' : nat -> list gochar -> captures -> option captures), two cs ->
  (forall j t cs, two cs -> match k j t cs with Some x => k' (j + d)%nat t (cs ++ e) = Some (x ++ e) /\ two x | None => k' (j + d)%nat t (cs ++ e) = None end) ->
  match backtrack r i t cs k with Some x => backtrack r (i + d)%nat t (cs ++ e) k' = Some (x ++ e) /\ two x | None => backtrack r (i + d)%nat t (cs ++ e) k' = None end.
Proof.
  induction r as [p| |a IHa b IHb|a IH|a IH|n a IH| |]; intros Hr i t cs k k' Hcs Hk; cbn [backtrack only_two] in *.
  - destruct t as [|c t]; [reflexivity|]. destruct (p _); [apply (Hk (S i)), Hcs|reflexivity].
  - apply Hk, Hcs.
  - destruct Hr as (Ha & Hb). apply (IHa Ha); [exact Hcs|]. intros j t0 cs0 H0. apply (IHb Hb); assumption.
  - generalize (length t). intros n. revert i t cs Hcs. induction n as [|n IHn]; intros i t cs Hcs; [apply Hk, Hcs|].
    match goal with |- match match backtrack a i t cs ?f with _ => _ end with _ => _ end => match goal with |- context [backtrack a (i + d)%nat t (cs ++ e) ?f'] => pose proof (IH Hr i t cs f f' Hcs) as H end end.
    match type of H with ?P -> _ => assert P as HP end.
    { intros j t0 cs0 H0. replace (Nat.eqb (j + d) (i + d)) with (Nat.eqb j i); [destruct (Nat.eqb j i); [reflexivity|apply IHn, H0]|]. destruct (Nat.eqb_spec j i) as [->|N]; symmetry; [apply Nat.eqb_refl|apply Nat.eqb_neq; lia]. }
    specialize (H HP). destruct (backtrack a i t cs _) as [x|].
    + destruct H as (-> & H). split; [reflexivity|exact H].
    + rewrite H. apply Hk, Hcs.
  - pose proof (IH Hr i t cs k k' Hcs Hk) as H. destruct (backtrack a i t cs k) as [x|]; [destruct H as (-> & H); split; [reflexivity|exact H]|]. rewrite H. apply Hk, Hcs.
  - destruct Hr as (-> & Hr). apply (IH Hr); [exact Hcs|]. intros j t0 cs0 H0. apply (Hk j t0 ((2%nat, _) :: cs0)). constructor; [reflexivity|exact H0].
  - destruct Hr.
  - destruct t; [apply Hk, Hcs|reflexivity].
Qed.
Lemma star_some {A} a i t cs (k : nat -> list gochar -> captures -> option A) : (forall i t cs, k i t cs <> None) -> backtrack (RStar a) i t cs k <> None.
Proof.
  intros H. cbn [backtrack]. generalize (length t). intros n. destruct n as [|n]; [apply H|]. match goal with |- match ?b with _ => _ end <> None => destruct b; [discriminate|apply H] end.
Qed.
Lemma group_app_other cs e n : two cs -> n <> 2%nat -> group (cs ++ e) n = group e n.
Proof. induction 1 as [|(m, x) cs Hm _ IH]; intros Hn; [reflexivity|]. cbn in Hm. subst m. cbn [app group]. destruct (Nat.eqb_spec 2 n) as [<-|_]; [congruence|apply IH, Hn]. Qed.
Lemma group_app_two cs n v : n <> 2%nat -> group (cs ++ [(n, v)]) 2 = group cs 2.
Proof. intros Hn. induction cs as [|(m, x) cs IH]; cbn [app group]; [destruct (Nat.eqb_spec n 2); [congruence|reflexivity]|]. destruct (Nat.eqb m 2); [reflexivity|exact IH]. Qed.
Lemma match_command_eq s : match_command s = match hand_name s with Some (n, r) => Some (n, raw_args r) | None => None end.
Proof.
  unfold match_command, command_re, hand_name. cbn [RSeqs]. rewrite find_begin, bt_seq.
  match goal with |- context [backtrack (RText ?p) ?i ?t ?cs ?k] => destruct (text_bytes p i s cs k) as (n1 & E1) end; [repeat constructor|]. rewrite E1. clear E1.
  destruct s as [|a s]; [reflexivity|]. cbn [strip_prefix]. rewrite Ascii.eqb_sym. destruct (Ascii.eqb a "."); [|reflexivity]. rewrite bt_seq, bt_group, take_name_span.
  destruct (span_decode re_name is_name_char s agree_name) as (t & E1 & E2 & E3 & E4). rewrite E4. set (name := raw_text (fst (span re_name (decode s)))) in *.
  assert (is_empty name = match fst (span re_name (decode s)) with [] => true | _ => false end) as En.
  { subst name. destruct (fst (span re_name (decode s))) as [|c l] eqn:E; [reflexivity|]. cbn [raw_text]. pose proof (decode_decoded s) as D. rewrite E1 in D. inversion D as [|? ? Hc _]. subst. apply raw_nonempty in Hc. destruct (gc_raw c); [congruence|reflexivity]. }
  rewrite En. destruct (fst (span re_name (decode s))) as [|c l] eqn:El.
  { rewrite plus_class. destruct (decode s) as [|c0 t0]; [reflexivity|]. cbn [span] in El. destruct (re_name (gc_rune c0)); [destruct (span re_name t0); discriminate El|reflexivity]. }
  set (star := RStar _). unfold raw_args. fold star. rewrite E3.
  destruct (backtrack star 0 t [] (fun _ _ cs => Some cs)) as [x|] eqn:Ex; [|exfalso; revert Ex; apply star_some; discriminate].
  assert (forall d, backtrack star d t [(1%nat, name)] (fun _ _ cs => Some cs) = Some (x ++ [(1%nat, name)]) /\ two x) as Hs.
  { intros d. assert (only_two star) as Ho by (subst star; cbn [only_two RPlus]; repeat split). pose proof (bt_shift d [(1%nat, name)] star Ho) as H. specialize (H 0%nat t [] (fun _ _ cs => Some cs) (fun _ _ cs => Some cs)). rewrite Ex in H. apply H; [constructor|]. intros j t0 cs0 H0. split; [reflexivity|exact H0]. }
  erewrite plus_wins; [|rewrite El; discriminate|].
  2: { rewrite E2, El. replace (raw_text (slice_from (decode s) t)) with name; [apply (proj1 (Hs _))|]. subst name. rewrite <- E2, slice_span, El. reflexivity. }
  cbv beta iota. rewrite (group_app_other x [(1%nat, name)] 1 (proj2 (Hs 0%nat))) by discriminate. rewrite group_app_two by discriminate. reflexivity.
Qed.

(** ** White space at the end *)
Fixpoint trim_chars (t : list gochar) : list gochar :=
  match t with
  | c :: t' => match trim_chars t' with [] => if re_space (gc_rune c) then [] else [c] | x => c :: x end
  | [] => []
  end.
Lemma trim_span t : fst (span re_space t) <> [] -> snd (span re_space t) = [] -> trim_chars t = [].
Proof.
  induction t as [|c t IH]; [reflexivity|]. cbn [span trim_chars]. destruct (re_space (gc_rune c)) eqn:E; [|intros H; destruct (H eq_refl)]. intros _ H. destruct (span re_space t) as (a, b) eqn:Es. cbn [fst snd] in *. subst b.
  destruct a as [|c' a]; [|rewrite IH; [rewrite ?E; reflexivity|discriminate|reflexivity]]. pose proof (span_app re_space t) as H. rewrite Es in H. cbn in H. subst t. cbn [trim_chars]. rewrite ?E. reflexivity.
Qed.
Lemma tail_here i t : backtrack tail_spaces_re i t [] (fun j t' cs => Some (j, t', cs)) =
  match fst (span re_space t) with [] => None | _ => match snd (span re_space t) with [] => Some ((i + length (fst (span re_space t)))%nat, [], []) | _ => None end end.
Proof. unfold tail_spaces_re. rewrite bt_seq, plus_longest by (intros; rewrite bt_end; reflexivity). destruct (fst (span re_space t)); [reflexivity|]. rewrite bt_end. destruct (snd (span re_space t)); reflexivity. Qed.
Lemma trim_leftmost i t : match leftmost tail_spaces_re i t with Some (b, (_, t', _)) => trim_chars t = b /\ t' = [] | None => trim_chars t = t end.
Proof.
  revert i. induction t as [|c t IH]; intros i; [reflexivity|]. cbn [leftmost]. rewrite tail_here.
  destruct (fst (span re_space (c :: t))) as [|x l] eqn:Ef; [|destruct (snd (span re_space (c :: t))) as [|y r] eqn:Es].
  2: { split; [apply trim_span; [rewrite Ef; discriminate|exact Es]|reflexivity]. }
  - specialize (IH (S i)). cbn [span] in Ef. destruct (re_space (gc_rune c)) eqn:Ec; [destruct (span re_space t); discriminate Ef|]. destruct (leftmost tail_spaces_re (S i) t) as [(b, ((j, t'), cs))|]; cbn [trim_chars].
    + destruct IH as (<- & ->). rewrite Ec. destruct (trim_chars t); split; reflexivity.
    + rewrite Ec, IH. destruct t; reflexivity.
  - specialize (IH (S i)). assert (trim_chars t <> []) as Hn.
    { clear - Es Ef. cbn [span] in Es, Ef. destruct (re_space (gc_rune c)); [|discriminate Ef]. clear Ef.
      assert (forall t, snd (span re_space t) <> [] -> trim_chars t <> []) as H; [|destruct (span re_space t) as (a, b) eqn:E; cbn in Es; apply H; rewrite E; cbn; congruence].
        clear. induction t as [|c t IH]; [trivial|]. cbn [span trim_chars]. destruct (re_space (gc_rune c)) eqn:E; [|intros _; destruct (trim_chars t); discriminate]. destruct (span re_space t) as (a, b). cbn in *. intros H. specialize (IH H). destruct (trim_chars t); [congruence|discriminate].
      }
    destruct (leftmost tail_spaces_re (S i) t) as [(b, ((j, t'), cs))|]; cbn [trim_chars].
    + destruct IH as (IH & ->). split; [|reflexivity]. rewrite IH. rewrite IH in Hn. destruct b; [congruence|reflexivity].
    + rewrite IH. destruct t; [congruence|reflexivity].
Qed.
Lemma remove_trim s : trim_right_spaces s = raw_text (trim_chars (decode s)).
Proof.
  unfold trim_right_spaces, remove_all. f_equal. cbn [remove_all_loop]. pose proof (trim_leftmost 0 (decode s)) as H. destruct (leftmost tail_spaces_re 0 (decode s)) as [(b, ((j, t'), cs))|]; [|symmetry; exact H].
  destruct H as (-> & ->). assert (forall f, remove_all_loop f tail_spaces_re j [] = []) as -> by (intros [|f]; reflexivity). apply app_nil_r.
Qed.
Lemma trim_right_eq s : trim_right_spaces s = hand_trim s.
Proof.
  rewrite remove_trim. induction s as [|s c s' E IH] using decode_ind; [reflexivity|]. rewrite decode_first, E. pose proof (first_raw _ _ _ E) as ->. cbn [trim_chars].
  assert (decoded c) as Hc by (eexists; eexists; exact E). pose proof (raw_nonempty c Hc) as Hn.
  assert (raw_text (match trim_chars (decode s') with [] => if re_space (gc_rune c) then [] else [c] | x => c :: x end) =
    match raw_text (trim_chars (decode s')) with EmptyString => if re_space (gc_rune c) then EmptyString else gc_raw c | x => (gc_raw c ++ x)%string end) as ->.
  { destruct (trim_chars (decode s')) as [|c' t] eqn:Et; [destruct (re_space (gc_rune c)); [reflexivity|]; cbn; rewrite append_nil_r; reflexivity|]. cbn [raw_text].
    assert (decoded c') as Hc'. { assert (forall t x, In x (trim_chars t) -> In x t) as Hi. { induction t0 as [|y t0 IHt]; intros x; [trivial|]. cbn [trim_chars]. destruct (trim_chars t0) as [|z u]; [destruct (re_space _); intros []; [left; assumption|contradiction]|]. intros [->|Hx]; [left; reflexivity|right; apply IHt, Hx]. }
      apply (proj1 (Forall_forall _ _) (decode_decoded s')), Hi. rewrite Et. left. reflexivity. }
    pose proof (raw_nonempty c' Hc') as Hn'. destruct (gc_raw c'); [congruence|]. reflexivity. }
  rewrite IH. destruct (decoded_bytes c Hc) as [(Eb & Hr)|(Hr & Hb)].
  - destruct (gc_raw c) as [|a [|b r]]; cbn in Eb; try discriminate Eb. injection Eb as Eb. cbn [append hand_trim]. rewrite <- Eb. change (re_space (byte_val a)) with (is_re_space a). destruct (hand_trim s'); [destruct (is_re_space a)|]; reflexivity.
  - replace (re_space (gc_rune c)) with false by (unfold re_space; lia). clear - Hb Hn. assert (forall x, Forall (fun b => 128 <= b) (bytes x) -> x <> EmptyString -> hand_trim (x ++ s') = (x ++ hand_trim s')%string) as H.
    { induction x as [|a x IHx]; intros Hx Hxn; [congruence|]. inversion Hx. subst. cbn [append hand_trim]. replace (is_re_space a) with false by (unfold is_re_space; lia). destruct x as [|b x].
      - cbn [append]. destruct (hand_trim s'); reflexivity.
      - rewrite IHx by (assumption || discriminate). reflexivity. }
    rewrite H by assumption. destruct (hand_trim s'); [rewrite append_nil_r|]; reflexivity.
Qed.

(** ** Arguments *)
Definition hand_args (rest : string) : string := let a := skip_spaces rest in if Nat.eqb (String.length a) (String.length rest) then EmptyString else a.
Lemma star_last {A} p i c t0 (k : nat -> list gochar -> option A) x : Forall (fun c => p (gc_rune c) = true) (t0 ++ [c]) -> (forall j, k j [] = None) -> (forall j, (i <= j)%nat -> k j [c] = Some x) ->
  star_try p i (t0 ++ [c]) k = Some x.
Proof.
  intros H H0 H1. revert i H1. induction t0 as [|y t0 IH]; intros i H1; cbn [app star_try] in *; inversion H as [|? ? Hy Ht]; subst; rewrite Hy.
  - rewrite H0. apply H1. lia.
  - rewrite (IH Ht (S i)); [reflexivity|]. intros j Hj. apply H1. lia.
Qed.
Lemma no_newline_chars s : ~ In "010"%char (list_ascii_of_string s) -> Forall (fun c => re_dot (gc_rune c) = true) (decode s).
Proof.
  induction s as [|s c s' E IH] using decode_ind; intros H; [constructor|]. rewrite decode_first, E. pose proof (first_raw _ _ _ E) as Er. subst s.
  assert (forall a b, In "010"%char (list_ascii_of_string a) \/ In "010"%char (list_ascii_of_string b) -> In "010"%char (list_ascii_of_string (a ++ b))) as Hi.
  { clear. induction a as [|x a IH]; intros b [H|H]; cbn in *; try contradiction; [exact H| |]; [destruct H as [H|H]; [left; exact H|right; apply IH; left; exact H]|right; apply IH; right; exact H]. }
  constructor; [|apply IH; intros K; apply H, Hi; right; exact K]. assert (decoded c) as Hc by (eexists; eexists; exact E). unfold re_dot. destruct (Z.eqb_spec (gc_rune c) 10) as [Ec|]; [|reflexivity]. exfalso. apply H, Hi. left.
  destruct (decoded_bytes c Hc) as [(Eb & _)|(Hr & _)]; [|lia]. destruct (gc_raw c) as [|a [|b r]]; cbn in Eb; try discriminate Eb. injection Eb as Eb. left. apply byte_inj. rewrite Eb. exact Ec.
Qed.
Lemma span_all p t : Forall (fun c => p (gc_rune c) = true) t -> span p t = (t, []).
Proof. induction 1 as [|c t H _ IH]; [reflexivity|]. cbn [span]. rewrite H, IH. reflexivity. Qed.
Lemma raw_args_eq rest : ~ In "010"%char (list_ascii_of_string rest) -> hand_trim (raw_args rest) = hand_trim (hand_args rest).
Proof.
  intros Hn. apply no_newline_chars in Hn. unfold raw_args, hand_args. cbv zeta. rewrite skip_spaces_span. pose proof (span_bytes_length is_re_space rest) as Hl.
  destruct (span_decode re_space is_re_space rest agree_space) as (b & E1 & E2 & E3 & E4). rewrite E4 in Hl |- *. cbn [fst snd] in *.
  cbn [backtrack]. pose proof (span_head re_space (decode rest)) as Hh. rewrite E2 in Hh.
  set (loop := fix loop (n : nat) (i : nat) (t : list gochar) (cs : captures) : option captures := match n with O => Some cs | S n' => match backtrack (RPlus (RChar re_space)) i t cs (fun i0 t0 cs0 => backtrack (RPlus (RChar re_dot)) i0 t0 cs0 (fun i' t' cs' => if Nat.eqb i' i then None else loop n' i' t' ((2%nat, raw_text (slice_from t0 t')) :: cs'))) with Some x => Some x | None => Some cs end end).
  change (hand_trim match loop (length (decode rest)) 0%nat (decode rest) [] with Some cs => group cs 2 | None => EmptyString end = hand_trim (if Nat.eqb (String.length (raw_text b)) (String.length rest) then EmptyString else raw_text b)).
  assert (forall n i cs, loop n i [] cs = Some cs) as L0 by (intros [|n] i cs; reflexivity).
  assert (Forall (fun c => re_dot (gc_rune c) = true) b /\ Forall (fun c => re_dot (gc_rune c) = true) (fst (span re_space (decode rest)))) as (Hb & Ha). { rewrite E1 in Hn. apply Forall_app in Hn. tauto. }
  assert (Forall (fun c => re_space (gc_rune c) = true) (fst (span re_space (decode rest)))) as Hs. { clear. induction (decode rest) as [|c t IH]; [constructor|]. cbn [span]. destruct (re_space (gc_rune c)) eqn:E; [|constructor]. destruct (span re_space t). constructor; [exact E|exact IH]. }
  destruct (fst (span re_space (decode rest))) as [|c a] eqn:Ea.
  - cbn [raw_text String.length Nat.add] in Hl. rewrite Hl, Nat.eqb_refl. destruct (decode rest) as [|c t] eqn:Ed; [reflexivity|]. cbn [length]. cbn [loop]. rewrite plus_class. cbn in E1. rewrite <- E1 in Hh. rewrite Hh. reflexivity.
  - assert (decoded c) as Hc. { pose proof (decode_decoded rest) as D. rewrite E1 in D. inversion D. assumption. }
    assert (Nat.eqb (String.length (raw_text b)) (String.length rest) = false) as ->. { apply Nat.eqb_neq. cbn [raw_text] in Hl. pose proof (raw_nonempty c Hc). destruct (gc_raw c); [congruence|]. cbn in Hl. lia. }
    rewrite E1 at 1 2. cbn [app length]. destruct b as [|d b].
    + (* only white space *)
      rewrite app_nil_r. cbn [raw_text]. cbn [loop]. rewrite plus_class. inversion Hs as [|? ? Hsc Hsa]. subst. rewrite Hsc. destruct (rev a) as [|x r] eqn:Er; [apply (f_equal (@rev _)) in Er; rewrite rev_involutive in Er; cbn in Er|apply (f_equal (@rev _)) in Er; rewrite rev_involutive in Er; cbn in Er; set (a0 := rev r) in *]; subst a.
      * cbn [star_try]. rewrite plus_class. reflexivity.
      * rewrite (star_last re_space 1 x a0 _ [(2%nat, gc_raw x)]); [|exact Hsa|intros j; rewrite plus_class; reflexivity|].
        -- cbn [group Nat.eqb]. apply Forall_app in Hsa as (_ & Hx). inversion Hx as [|? ? Hx' _]. subst. assert (decoded x) as Hdx. { pose proof (decode_decoded rest) as D. rewrite E1 in D. apply Forall_app in D as (D & _). inversion D as [|? ? _ D']. apply Forall_app in D' as (_ & D'). inversion D'. assumption. }
           destruct (decoded_bytes x Hdx) as [(Eb & _)|(Hr & _)]; [|unfold re_space in Hx'; lia]. destruct (gc_raw x) as [|y [|z r0]]; cbn in Eb; try discriminate Eb. injection Eb as Eb. cbn [hand_trim]. change (is_re_space y) with (re_space (byte_val y)). rewrite Eb, Hx'. reflexivity.
        -- intros j Hj. inversion Ha as [|? ? _ Ha']. subst. apply Forall_app in Ha' as (_ & Hx). inversion Hx as [|? ? Hdx _]. subst. rewrite plus_class, Hdx. cbn [star_try]. replace (Nat.eqb (S j) 0) with false by reflexivity. rewrite L0. cbn. rewrite append_nil_r. reflexivity.
    + cbn [loop]. rewrite (plus_wins re_space 0 (c :: a ++ d :: b) [] _ [(2%nat, raw_text (d :: b))]); [reflexivity| |].
      * cbn [span]. inversion Hs as [|? ? Hsc _]. rewrite Hsc. destruct (span re_space (a ++ d :: b)). discriminate.
      * change (c :: a ++ d :: b) with ((c :: a) ++ d :: b). rewrite <- E1, E2, Ea. rewrite (plus_wins re_dot _ (d :: b) [] _ [(2%nat, raw_text (d :: b))]); [reflexivity| |].
        -- rewrite span_all by exact Hb. discriminate.
        -- rewrite span_all by exact Hb. cbn [fst snd]. rewrite L0. cbn [length Nat.add Nat.eqb]. pose proof (slice_app (d :: b) []) as Q. rewrite app_nil_r in Q. rewrite Q. reflexivity.
Qed.
