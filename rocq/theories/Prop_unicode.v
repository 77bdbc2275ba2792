(** Property C78: how the bytes of a text are read as characters. *)
From Verif Require Import ProofBase Utf8 SpecText SpecSyntax SpecGrammar SpecUnicode SpecBroken PegProofs ParseSound DecodeProofs.
Open Scope list_scope.
Open Scope Z_scope.

Lemma bytes_cons a s : bytes (String a s) = byte_val a :: bytes s.
Proof. reflexivity. Qed.
Lemma bytes_one e b : bytes e = [b] -> exists a, e = String a "" /\ byte_val a = b.
Proof. destruct e as [|a [|a2 e]]; cbn; try discriminate. intros [= H]. eauto. Qed.
Lemma bytes_two e b c : bytes e = [b; c] -> exists a a', e = bytes2 a a' /\ byte_val a = b /\ byte_val a' = c.
Proof. destruct e as [|a [|a2 [|a3 e]]]; cbn; try discriminate. intros [= H H']. exists a, a2. auto. Qed.
Lemma bytes_three e b c d : bytes e = [b; c; d] -> exists a a' a'', e = bytes3 a a' a'' /\ byte_val a = b /\ byte_val a' = c /\ byte_val a'' = d.
Proof. destruct e as [|a [|a2 [|a3 [|a4 e]]]]; cbn; try discriminate. intros [= H H' H'']. exists a, a2, a3. auto. Qed.
Lemma bytes_four e b c d f : bytes e = [b; c; d; f] -> exists a a' a'' a3, e = bytes4 a a' a'' a3 /\ byte_val a = b /\ byte_val a' = c /\ byte_val a'' = d /\ byte_val a3 = f.
Proof. destruct e as [|a [|a2 [|a3 [|a4 [|a5 e]]]]]; cbn; try discriminate. intros [= H H' H'' H3]. exists a, a2, a3, a4. auto. Qed.

Ltac ifs := repeat match goal with |- context [if ?b then _ else _] => let E := fresh "E" in destruct b eqn:E; try (exfalso; lia) end.
Lemma read_character r e s : character r e -> first_char (e ++ s) = Some (GoChar r e, s).
Proof.
  intros (Hs & He). unfold scalar in Hs. inversion He as [Hr Hb|x y Hr Hy Hv Hb|x y z Hr Hy Hz Hv Hb|x y z w Hr Hy Hz Hw Hv Hb]; symmetry in Hb.
  - apply bytes_one in Hb as (a & -> & Ha). cbn [append first_char]. cbv zeta. replace (byte_val a <? 128) with true by lia. rewrite Ha. reflexivity.
  - apply bytes_two in Hb as (a & a' & -> & Ha & Ha'). unfold bytes2. cbn [append first_char]. cbv zeta. unfold cont_ok, in_range. replace (byte_val a <? 128) with false by lia.
    replace ((194 <=? byte_val a) && (byte_val a <=? 223)) with true by lia. replace ((128 <=? byte_val a') && (byte_val a' <=? 191)) with true by lia. do 3 f_equal. lia.
  - apply bytes_three in Hb as (a & a' & a'' & -> & Ha & Ha' & Ha''). unfold bytes3, bytes2. cbn [append first_char]. cbv zeta. assert (second_ok (byte_val a) (byte_val a') = true) as -> by (unfold second_ok, in_range; ifs; lia). unfold cont_ok, in_range. replace (byte_val a <? 128) with false by lia.
    replace ((194 <=? byte_val a) && (byte_val a <=? 223)) with false by lia. replace ((224 <=? byte_val a) && (byte_val a <=? 239)) with true by lia.
    replace ((128 <=? byte_val a'') && (byte_val a'' <=? 191)) with true by lia. cbn [andb]. do 3 f_equal. lia.
  - apply bytes_four in Hb as (a & a' & a'' & a3 & -> & Ha & Ha' & Ha'' & Ha3). unfold bytes4, bytes3, bytes2. cbn [append first_char]. cbv zeta. assert (second_ok (byte_val a) (byte_val a') = true) as -> by (unfold second_ok, in_range; ifs; lia). unfold cont_ok, in_range. replace (byte_val a <? 128) with false by lia.
    replace ((194 <=? byte_val a) && (byte_val a <=? 223)) with false by lia. replace ((224 <=? byte_val a) && (byte_val a <=? 239)) with false by lia. replace ((240 <=? byte_val a) && (byte_val a <=? 244)) with true by lia.
    replace ((128 <=? byte_val a'') && (byte_val a'' <=? 191)) with true by lia. replace ((128 <=? byte_val a3) && (byte_val a3 <=? 191)) with true by lia. cbn [andb]. do 3 f_equal. lia.
Qed.
Lemma good_character c : decoded c -> gc_bad c = false -> character (gc_rune c) (gc_raw c).
Proof.
  intros (s & s' & E). destruct s as [|a s]; [discriminate E|]. revert E. cbn [first_char]. cbv zeta. pose proof (byte_nonneg a) as Hn.
  split_chars; intros [= <- <-]; cbn [gc_raw gc_rune bad_char]; try (intros Hb; discriminate Hb); intros _; unfold character, scalar, bytes4, bytes3, bytes2; rewrite ?bytes_cons; change (bytes "") with (@nil Z);
    unfold second_ok, cont_ok, in_range in *; repeat match goal with H : context [if ?b then _ else _] |- _ => let E := fresh "E" in destruct b eqn:E end.
  1: split; [left; lia|constructor; lia].
  1: { split; [left; lia|]. pose proof (two_bytes ((byte_val a - 192) * 64 + (byte_val a0 - 128)) (byte_val a - 192) (byte_val a0 - 128)) as H.
       replace (192 + (byte_val a - 192)) with (byte_val a) in H by lia. replace (128 + (byte_val a0 - 128)) with (byte_val a0) in H by lia. apply H; lia. }
  all: split; [lia|]; match goal with
  | |- encodes _ [byte_val ?a; byte_val ?b; byte_val ?c] =>
      let H := fresh in pose proof (three_bytes ((byte_val a - 224) * 4096 + (byte_val b - 128) * 64 + (byte_val c - 128)) (byte_val a - 224) (byte_val b - 128) (byte_val c - 128)) as H;
      replace (224 + (byte_val a - 224)) with (byte_val a) in H by lia; replace (128 + (byte_val b - 128)) with (byte_val b) in H by lia; replace (128 + (byte_val c - 128)) with (byte_val c) in H by lia; apply H; lia
  | |- encodes _ [byte_val ?a; byte_val ?b; byte_val ?c; byte_val ?d] =>
      let H := fresh in pose proof (four_bytes ((byte_val a - 240) * 262144 + (byte_val b - 128) * 4096 + (byte_val c - 128) * 64 + (byte_val d - 128)) (byte_val a - 240) (byte_val b - 128) (byte_val c - 128) (byte_val d - 128)) as H;
      replace (240 + (byte_val a - 240)) with (byte_val a) in H by lia; replace (128 + (byte_val b - 128)) with (byte_val b) in H by lia; replace (128 + (byte_val c - 128)) with (byte_val c) in H by lia; replace (128 + (byte_val d - 128)) with (byte_val d) in H by lia; apply H; lia
  end.
Qed.
Lemma bad_decoded c : decoded c -> gc_bad c = true -> exists a, c = bad_char a.
Proof.
  intros (s & s' & E). destruct s as [|a s]; [discriminate E|]. revert E. cbn [first_char]. cbv zeta.
  split_chars; intros [= <- <-]; intros Hb; try (eexists; reflexivity); exfalso; unfold gc_bad in Hb; cbn [gc_rune gc_raw bytes2 bytes3 bytes4 String.length Nat.eqb] in Hb;
    rewrite ?Bool.andb_false_r in Hb; try discriminate. unfold rune_error in Hb. lia.
Qed.
Lemma character_good r e : character r e -> gc_bad (GoChar r e) = false.
Proof.
  intros (Hs & He). unfold gc_bad, rune_error. cbn [gc_rune gc_raw]. inversion He as [Hr Hb|x y Hr Hy Hv Hb|x y z Hr Hy Hz Hv Hb|x y z w Hr Hy Hz Hw Hv Hb]; symmetry in Hb.
  - replace (r =? 65533) with false by lia. reflexivity.
  - apply bytes_two in Hb as (a & a' & -> & _). apply Bool.andb_false_r.
  - apply bytes_three in Hb as (a & a' & a'' & -> & _). apply Bool.andb_false_r.
  - apply bytes_four in Hb as (a & a' & a'' & a3 & -> & _). apply Bool.andb_false_r.
Qed.

(** C78: where a text goes on with a scalar value written in UTF-8, that character is read, and the rest goes on after it. *)
Theorem C78_character r e s : character r e -> decode (e ++ s) = GoChar r e :: decode s.
Proof. intros H. rewrite decode_first, (read_character r e s H). reflexivity. Qed.
Print Assumptions C78_character.
(** C78: where it does not, one byte is read as the broken character U+FFFD. *)
Theorem C78_broken a s : (forall r e s', character r e -> String a s <> (e ++ s')%string) -> decode (String a s) = bad_char a :: decode s.
Proof.
  intros H. rewrite decode_first. destruct (first_char (String a s)) as [[c s']|] eqn:E; [|discriminate E]. pose proof (first_raw _ _ _ E) as Hr.
  destruct (gc_bad c) eqn:Eb.
  - destruct (bad_decoded c) as (a' & ->); [exists (String a s), s'; exact E|exact Eb|]. cbn [gc_raw bad_char append] in Hr. injection Hr as <- <-. reflexivity.
  - exfalso. apply (H (gc_rune c) (gc_raw c) s'); [|exact Hr]. apply good_character; [exists (String a s), s'; exact E|exact Eb].
Qed.
Print Assumptions C78_broken.
(** C78: a text has no broken character exactly if it is a list of scalar values written in UTF-8, and then these are the characters read. *)
Theorem C78_valid s rs : valid_utf8 s /\ map gc_rune (decode s) = rs <-> writes rs s.
Proof.
  split.
  - intros (Hv & <-). unfold valid_utf8 in Hv. pose proof (decode_decoded s) as Hd. pose proof (raw_decode s) as Hr. revert Hr Hv Hd. generalize (decode s). intros t. revert s.
    induction t as [|c t IH]; intros s <- Hv Hd; cbn [raw_text map]; [constructor|]. inversion Hv; inversion Hd; subst. constructor; [apply good_character; assumption|apply (IH (raw_text t)); auto].
  - induction 1 as [|r rs e s Hc _ (Hv & IH)]; [split; [constructor|reflexivity]|]. unfold valid_utf8. rewrite (C78_character r e s Hc). split.
    + constructor; [apply character_good, Hc|exact Hv].
    + cbn [map gc_rune]. rewrite IH. reflexivity.
Qed.
Print Assumptions C78_valid.
(** C78: no character is the beginning of another, and no two characters have the same bytes. *)
Theorem C78_unambiguous r e s r' e' s' : character r e -> character r' e' -> (e ++ s = e' ++ s')%string -> r = r' /\ e = e' /\ s = s'.
Proof. intros H H' E. pose proof (read_character r e s H) as H1. rewrite E, (read_character r' e' s' H') in H1. injection H1 as -> -> ->. auto. Qed.
Print Assumptions C78_unambiguous.
(** C78: string(runes), which the secret mark is cut off with, writes UTF-8. *)
Lemma byte_val_of z : 0 <= z <= 255 -> byte_val (byte_of z) = z.
Proof. intros H. unfold byte_val, byte_of. rewrite N_ascii_embedding by lia. lia. Qed.
Theorem C78_encode r : scalar r -> character r (encode_rune r).
Proof.
  intros Hs. split; [exact Hs|]. unfold scalar in Hs. unfold encode_rune, bytes4, bytes3, bytes2. ifs; rewrite !bytes_cons, !byte_val_of by lia; change (bytes "") with (@nil Z).
  - constructor. lia.
  - apply two_bytes; lia.
  - apply (three_bytes r (r / 4096) ((r / 64) mod 64) (r mod 64)); lia.
  - apply (four_bytes r (r / 262144) ((r / 4096) mod 64) ((r / 64) mod 64) (r mod 64)); lia.
Qed.
Print Assumptions C78_encode.
(** "é" is C3 A9; the bytes of a surrogate (ED A0 80), of an overlong "/" (C0 AF) and a lonely C3 are broken. *)
Definition of_bytes (l : list Z) : string := fold_right (fun b s => String (byte_of b) s) EmptyString l.
Example C78_example : character 233 (of_bytes [195; 169]) /\ writes [68; 233; 128512] (of_bytes [68; 195; 169; 240; 159; 152; 128]) /\
  map gc_rune (decode (of_bytes [237; 160; 128])) = [65533; 65533; 65533] /\ map gc_rune (decode (of_bytes [192; 175])) = [65533; 65533] /\ map gc_rune (decode (of_bytes [195; 68])) = [65533; 68].
Proof.
  split; [apply (C78_encode 233); unfold scalar; lia|]. split; [|repeat split; vm_compute; reflexivity].
  apply C78_valid. split; [|vm_compute; reflexivity]. unfold valid_utf8. replace (decode _) with [GoChar 68 "D"; GoChar 233 (of_bytes [195; 169]); GoChar 128512 (of_bytes [240; 159; 152; 128])] by (vm_compute; reflexivity).
  repeat (apply Forall_cons; [vm_compute; reflexivity|]). apply Forall_nil.
Qed.
