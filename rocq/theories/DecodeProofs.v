(** Facts about UTF-8 decoding. *)
From Verif Require Import ProofBase Utf8 SpecText SpecSyntax SpecGrammar PegProofs ParseSound.
Open Scope list_scope.
Open Scope Z_scope.

(** The first character of a text and the bytes after it *)
Definition first_char (s : string) : option (gochar * string) :=
  match s with
  | EmptyString => None
  | String a0 s1 => Some
      (let b0 := byte_val a0 in
      if b0 <? 128 then (GoChar b0 (String a0 EmptyString), s1)
      else if in_range 194 223 b0 then
        match s1 with
        | String a1 s2 =>
            let b1 := byte_val a1 in
            if cont_ok b1 then (GoChar ((b0 - 192) * 64 + (b1 - 128)) (bytes2 a0 a1), s2)
            else (bad_char a0, s1)
        | EmptyString => (bad_char a0, s1)
        end
      else if in_range 224 239 b0 then
        match s1 with
        | String a1 (String a2 s3) =>
            let b1 := byte_val a1 in
            let b2 := byte_val a2 in
            if second_ok b0 b1 && cont_ok b2
            then (GoChar ((b0 - 224) * 4096 + (b1 - 128) * 64 + (b2 - 128)) (bytes3 a0 a1 a2), s3)
            else (bad_char a0, s1)
        | _ => (bad_char a0, s1)
        end
      else if in_range 240 244 b0 then
        match s1 with
        | String a1 (String a2 (String a3 s4)) =>
            let b1 := byte_val a1 in
            let b2 := byte_val a2 in
            let b3 := byte_val a3 in
            if second_ok b0 b1 && cont_ok b2 && cont_ok b3
            then (GoChar ((b0 - 240) * 262144 + (b1 - 128) * 4096 + (b2 - 128) * 64 + (b3 - 128)) (bytes4 a0 a1 a2 a3), s4)
            else (bad_char a0, s1)
        | _ => (bad_char a0, s1)
        end
      else (bad_char a0, s1))
  end.

Ltac split_chars :=
  repeat match goal with
  | |- context [if ?b then _ else _] => let E := fresh "E" in destruct b eqn:E
  | |- context [match ?y with EmptyString => _ | String _ _ => _ end] => is_var y; destruct y
  end.

Lemma decode_first s : decode s = match first_char s with None => [] | Some (c, s') => c :: decode s' end.
Proof.
  destruct s as [|a s]; [reflexivity|]. cbn [decode first_char]. cbv zeta.
  split_chars; reflexivity.
Qed.

Lemma first_raw s c s' : first_char s = Some (c, s') -> s = (gc_raw c ++ s')%string.
Proof.
  destruct s as [|a s]; [discriminate|]. cbn [first_char]. cbv zeta. split_chars; intros [= <- <-]; reflexivity.
Qed.

Lemma bad_char_bad a : gc_bad (bad_char a) = true.
Proof. reflexivity. Qed.

(** A valid character is decoded in the same way whatever follows it. *)
Lemma first_valid s c s' x : first_char s = Some (c, s') -> gc_bad c = false -> first_char (gc_raw c ++ x) = Some (c, x).
Proof.
  destruct s as [|a s]; [discriminate|]. cbn [first_char]. cbv zeta.
  split_chars; intros [= <- <-]; cbn [gc_raw bad_char]; try (intros Hb; discriminate Hb); intros _;
  unfold bytes4, bytes3, bytes2; cbn [append first_char]; cbv zeta;
  repeat match goal with H : _ = true |- _ => rewrite H; clear H | H : _ = false |- _ => rewrite H; clear H end; reflexivity.
Qed.

(** Characters produced by [decode] *)
Definition decoded (c : gochar) : Prop := exists s s', first_char s = Some (c, s').

Lemma decode_ind (P : string -> Prop) :
  P EmptyString -> (forall s c s', first_char s = Some (c, s') -> P s' -> P s) -> forall s, P s.
Proof.
  intros H0 H1. assert (forall n s, (String.length s <= n)%nat -> P s) as H.
  { induction n as [|n IH]; intros s Hs; destruct s as [|a s]; cbn [String.length] in *; try exact H0; try lia.
    destruct (first_char (String a s)) as [[c s']|] eqn:E; [|discriminate E]. apply (H1 _ _ _ E). apply IH.
    revert E. cbn [first_char]. cbv zeta. split_chars; cbn [String.length] in *; intros [= <- <-]; cbn [String.length]; lia. }
  intros s. exact (H _ s (Nat.le_refl _)).
Qed.

Lemma decode_decoded s : Forall decoded (decode s).
Proof.
  induction s as [|s c s' E IH] using decode_ind; [constructor|]. rewrite decode_first, E. constructor; [exists s, s'; exact E|exact IH].
Qed.
Lemma raw_text_app a b : raw_text (a ++ b) = (raw_text a ++ raw_text b)%string.
Proof. induction a as [|c a IH]; [reflexivity|]. cbn [app raw_text]. rewrite IH. apply eq_sym. generalize (gc_raw c). intros r. induction r as [|x r IHr]; [reflexivity|]. cbn [append]. f_equal. exact IHr. Qed.
Lemma raw_decode s : raw_text (decode s) = s.
Proof.
  induction s as [|s c s' E IH] using decode_ind; [reflexivity|]. rewrite decode_first, E. cbn [raw_text]. rewrite IH. symmetry. apply first_raw. exact E.
Qed.
Lemma decode_raw t : Forall decoded t -> valid t -> forall x, decode (raw_text t ++ x) = t ++ decode x.
Proof.
  induction t as [|c t IH]; intros Hd Hv x; [reflexivity|]. inversion Hd as [|c' t' (s & s' & E) Ht]. subst. inversion Hv as [|c' t' Hc Hv']. subst.
  cbn [raw_text app]. assert (((gc_raw c ++ raw_text t) ++ x)%string = (gc_raw c ++ (raw_text t ++ x))%string) as ->.
  { generalize (gc_raw c). intros r. induction r as [|y r IHr]; [reflexivity|]. cbn [append]. f_equal. exact IHr. }
  rewrite decode_first, (first_valid _ _ _ _ E Hc). f_equal. apply IH; assumption.
Qed.
Lemma append_nil_r (s : string) : (s ++ "")%string = s.
Proof. induction s as [|a s IH]; [reflexivity|]. cbn [append]. f_equal. exact IH. Qed.
Lemma decode_raw_text t : Forall decoded t -> valid t -> decode (raw_text t) = t.
Proof. intros H1 H2. pose proof (decode_raw t H1 H2 "") as H. rewrite append_nil_r in H. cbn [decode] in H. rewrite app_nil_r in H. exact H. Qed.
Lemma decode_app s x : valid (decode s) -> decode (s ++ x) = decode s ++ decode x.
Proof. intros H. rewrite <- (raw_decode s) at 1. apply decode_raw; [apply decode_decoded|exact H]. Qed.

(** A split of the decoded text is a split of the text. *)
Lemma decode_split s t rest : decode s = t ++ rest -> s = (raw_text t ++ raw_text rest)%string /\ decode (raw_text rest) = rest /\ Forall decoded t.
Proof.
  revert s. induction t as [|c t IH]; intros s H.
  - cbn [app] in H. cbn [raw_text append]. rewrite <- H, raw_decode. repeat split. constructor.
  - cbn [app] in H. rewrite decode_first in H. destruct (first_char s) as [[c' s']|] eqn:E; [|discriminate H]. injection H as -> H.
    destruct (IH _ H) as (H1 & H2 & H3). split; [|split; [exact H2|constructor; [exists s, s'; exact E|exact H3]]].
    rewrite (first_raw _ _ _ E). cbn [raw_text]. rewrite H1. generalize (gc_raw c). intros r. induction r as [|y r IHr]; [reflexivity|].
    cbn [append]. f_equal. exact IHr.
Qed.
Lemma decode_prefix s t rest : decode s = t ++ rest -> valid t -> decode (raw_text t) = t.
Proof. intros H Hv. apply decode_split in H as (_ & _ & H). apply decode_raw_text; assumption. Qed.

(** ASCII text *)
Definition ascii_char (a : ascii) : gochar := GoChar (byte_val a) (String a EmptyString).
Lemma decode_ascii s : ascii_text s -> decode s = map ascii_char (list_ascii_of_string s).
Proof.
  unfold ascii_text. induction s as [|a s IH]; intros H; [reflexivity|]. cbn [list_ascii_of_string] in *. inversion H. subst.
  rewrite decode_first. cbn [first_char]. cbv zeta. apply Z.ltb_lt in H2. rewrite H2. cbn [map]. f_equal. apply IH. assumption.
Qed.
Lemma valid_ascii s : ascii_text s -> valid (decode s).
Proof.
  intros H. rewrite decode_ascii by exact H. unfold ascii_text in H. induction H as [|a l Ha _ IH]; constructor; [|exact IH].
  unfold gc_bad, ascii_char, rune_error. cbn [gc_rune]. destruct (byte_val a =? 65533) eqn:E; [lia|reflexivity].
Qed.

(** The bytes of a multi-byte character, and of an invalid one, are not ASCII. *)
Lemma byte_nonneg a : 0 <= byte_val a.
Proof. unfold byte_val. lia. Qed.
Lemma byte_small a : byte_val a <= 255.
Proof. unfold byte_val. pose proof (N_ascii_bounded a). lia. Qed.
Lemma decoded_bytes c : decoded c -> bytes (gc_raw c) = [gc_rune c] /\ gc_rune c < 128 \/ 128 <= gc_rune c /\ Forall (fun b => 128 <= b) (bytes (gc_raw c)).
Proof.
  intros (s & s' & E). destruct s as [|a s]; [discriminate E|]. revert E. cbn [first_char]. cbv zeta.
  split_chars; intros [= <- <-]; cbn [gc_raw gc_rune bad_char]; unfold in_range, cont_ok, second_ok, rune_error in *;
  [left; split; [reflexivity|lia]|..]; right; unfold bytes, bytes4, bytes3, bytes2; cbn [list_ascii_of_string map].
  all: split; [|repeat constructor].
  all: try lia.
  all: unfold in_range in *; repeat match goal with
  | H : context [if ?b then _ else _] |- _ => let E := fresh "E" in destruct b eqn:E
  end; lia.
Qed.
Lemma bytes_app a b : bytes (a ++ b) = bytes a ++ bytes b.
Proof. unfold bytes. induction a as [|x a IH]; [reflexivity|]. cbn [append list_ascii_of_string map app]. f_equal. exact IH. Qed.
Lemma raw_byte t b : Forall decoded t -> In b (bytes (raw_text t)) -> b < 128 -> exists c, In c t /\ gc_rune c = b.
Proof.
  induction 1 as [|c t Hc _ IH]; intros Hi Hb; [contradiction|]. cbn [raw_text] in Hi. rewrite bytes_app in Hi. apply in_app_or in Hi as [Hi|Hi].
  - exists c. split; [left; reflexivity|]. destruct (decoded_bytes c Hc) as [[E _]|[_ F]].
    + rewrite E in Hi. destruct Hi as [<-|[]]. reflexivity.
    + rewrite Forall_forall in F. apply F in Hi. lia.
  - destruct (IH Hi Hb) as (c' & H1 & H2). exists c'. split; [right; exact H1|exact H2].
Qed.

(** Encoding the rune of a valid character gives its bytes. *)
Lemma byte_of_val a : byte_of (byte_val a) = a.
Proof. unfold byte_of, byte_val. rewrite N2Z.id. apply ascii_N_embedding. Qed.
Lemma encode_decoded c : decoded c -> gc_bad c = false -> encode_rune (gc_rune c) = gc_raw c.
Proof.
  intros (s & s' & E). destruct s as [|a s]; [discriminate E|]. revert E. cbn [first_char]. cbv zeta.
  split_chars; intros [= <- <-]; cbn [gc_raw gc_rune bad_char]; try (intros Hb; discriminate Hb); intros _; unfold encode_rune, bytes4, bytes3, bytes2.
  - rewrite E. rewrite byte_of_val. reflexivity.
  - unfold in_range, cont_ok in *. unfold in_range in *.
    destruct (((byte_val a - 192) * 64 + (byte_val a0 - 128)) <? 128) eqn:F1; [lia|].
    destruct (((byte_val a - 192) * 64 + (byte_val a0 - 128)) <? 2048) eqn:F2; [|lia].
    assert (192 + ((byte_val a - 192) * 64 + (byte_val a0 - 128)) / 64 = byte_val a) as -> by lia.
    assert (128 + ((byte_val a - 192) * 64 + (byte_val a0 - 128)) mod 64 = byte_val a0) as -> by lia.
    rewrite !byte_of_val. reflexivity.
  - set (r := (byte_val a - 224) * 4096 + (byte_val a0 - 128) * 64 + (byte_val a1 - 128)) in *.
    unfold second_ok, cont_ok, in_range in *.
    assert (2048 <= r < 65536 /\ 128 <= byte_val a0 <= 191) as (Hr & H0).
    { subst r. repeat match goal with H : context [if ?b then _ else _] |- _ => let E := fresh "E" in destruct b eqn:E end; lia. }
    assert (128 <= byte_val a1 <= 191) as H1 by lia.
    destruct (r <? 128) eqn:F1; [lia|]. destruct (r <? 2048) eqn:F2; [lia|]. destruct (r <? 65536) eqn:F3; [|lia].
    assert (224 + r / 4096 = byte_val a) as -> by (subst r; lia).
    assert (128 + (r / 64) mod 64 = byte_val a0) as -> by (subst r; lia).
    assert (128 + r mod 64 = byte_val a1) as -> by (subst r; lia).
    rewrite !byte_of_val. reflexivity.
  - set (r := (byte_val a - 240) * 262144 + (byte_val a0 - 128) * 4096 + (byte_val a1 - 128) * 64 + (byte_val a2 - 128)) in *.
    unfold second_ok, cont_ok, in_range in *.
    assert (65536 <= r /\ 128 <= byte_val a0 <= 191) as (Hr & H0).
    { subst r. repeat match goal with H : context [if ?b then _ else _] |- _ => let E := fresh "E" in destruct b eqn:E end; lia. }
    assert (128 <= byte_val a1 <= 191) as H1 by lia. assert (128 <= byte_val a2 <= 191) as H2 by lia.
    destruct (r <? 128) eqn:F1; [lia|]. destruct (r <? 2048) eqn:F2; [lia|]. destruct (r <? 65536) eqn:F3; [lia|].
    assert (240 + r / 262144 = byte_val a) as -> by (subst r; lia).
    assert (128 + (r / 4096) mod 64 = byte_val a0) as -> by (subst r; lia).
    assert (128 + (r / 64) mod 64 = byte_val a1) as -> by (subst r; lia).
    assert (128 + r mod 64 = byte_val a2) as -> by (subst r; lia).
    rewrite !byte_of_val. reflexivity.
Qed.
Lemma encode_valid t : Forall decoded t -> valid t -> encode_runes t = raw_text t.
Proof.
  induction 1 as [|c t Hc _ IH]; intros Hv; [reflexivity|]. inversion Hv. subst. cbn [encode_runes raw_text].
  rewrite encode_decoded by assumption. rewrite IH by assumption. reflexivity.
Qed.
