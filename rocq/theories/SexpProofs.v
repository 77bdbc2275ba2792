(** S-expressions are unambiguous. *)
From Verif Require Import ProofBase SpecText SpecSyntax NumberText Utf8 DecodeProofs SExp FileProofs.
Open Scope list_scope.
Open Scope Z_scope.

(** * Hexadecimal digits *)
Lemma hex_length w r : String.length (hex w r) = w.
Proof. revert r. induction w as [|w IH]; intros r; [reflexivity|]. cbn [hex]. rewrite length_append, IH. cbn. lia. Qed.
Lemma byte_of_inj x y : 0 <= x <= 255 -> 0 <= y <= 255 -> byte_of x = byte_of y -> x = y.
Proof.
  intros Hx Hy H. unfold byte_of in H. apply (f_equal N_of_ascii) in H. rewrite !N_ascii_embedding in H by lia. lia.
Qed.
Lemma hex_digit_inj x y : 0 <= x < 16 -> 0 <= y < 16 -> hex_digit x = hex_digit y -> x = y.
Proof. intros Hx Hy H. unfold hex_digit in H. apply byte_of_inj in H; destruct (x <? 10) eqn:E, (y <? 10) eqn:F; lia. Qed.
Lemma hex_inj w : forall x y, 0 <= x < 16 ^ Z.of_nat w -> 0 <= y < 16 ^ Z.of_nat w -> hex w x = hex w y -> x = y.
Proof.
  induction w as [|w IH]; intros x y Hx Hy H; [cbn in Hx, Hy; lia|]. cbn [hex] in H. rewrite Nat2Z.inj_succ, Z.pow_succ_r in Hx, Hy by lia.
  apply app_same_length in H as (H1 & H2); [|rewrite !hex_length; reflexivity]. injection H2 as H2. apply hex_digit_inj in H2; [|apply Z.mod_pos_bound; lia..].
  apply IH in H1; [|split; [apply Z.div_pos; lia|apply Z.div_lt_upper_bound; lia]..]. rewrite (Z.div_mod x 16), (Z.div_mod y 16) by lia. rewrite H1, H2. reflexivity.
Qed.

(** * Quoted strings *)
Lemma decoded_range c : decoded c -> 0 <= gc_rune c < 16 ^ 8.
Proof.
  intros (s & s' & E). destruct s as [|a s]; [discriminate|]. revert E. cbn [first_char]. cbv zeta.
  pose proof (byte_nonneg a). pose proof (byte_small a).
  split_chars; intros [= <- <-]; cbn [gc_rune bad_char]; change (16 ^ 8) with 4294967296; unfold rune_error, cont_ok, second_ok, in_range in *;
  repeat match goal with a0 : ascii |- _ => lazymatch goal with H : 0 <= byte_val a0 |- _ => fail | _ => pose proof (byte_nonneg a0); pose proof (byte_small a0) end end;
  repeat match goal with H : (_ && _)%bool = true |- _ => apply andb_prop in H as (? & ?) end;
  repeat match goal with H : context [if ?b then _ else _] |- _ => destruct b end; lia.
Qed.
Lemma decoded_bad c : decoded c -> gc_bad c = true -> exists a, gc_raw c = String a EmptyString /\ 128 <= byte_val a.
Proof.
  intros Hd Hb. unfold gc_bad in Hb. apply andb_prop in Hb as (H1 & H2). apply Z.eqb_eq in H1. apply Nat.eqb_eq in H2.
  destruct (decoded_bytes c Hd) as [(H & K)|(_ & H)]; [unfold rune_error in H1; lia|]. destruct (gc_raw c) as [|a [|b t]]; try discriminate H2. exists a. split; [reflexivity|]. inversion H. assumption.
Qed.
Lemma decoded_small c : decoded c -> gc_rune c < 128 -> gc_raw c = String (byte_of (gc_rune c)) EmptyString.
Proof.
  intros Hd Hr. destruct (decoded_bytes c Hd) as [(H & K)|(H & _)]; [|lia]. unfold bytes in H. destruct (gc_raw c) as [|a [|b t]]; try discriminate H. cbn [list_ascii_of_string map] in H. injection H as H. rewrite <- H, byte_of_val. reflexivity.
Qed.

Definition esc_width (k : ascii) : nat := if Ascii.eqb k "x" then 2 else if Ascii.eqb k "u" then 4 else if Ascii.eqb k "U" then 8 else 0.
Definition named (k : ascii) : Z :=
  if Ascii.eqb k "a" then 7 else if Ascii.eqb k "b" then 8 else if Ascii.eqb k "f" then 12 else if Ascii.eqb k "n" then 10
  else if Ascii.eqb k "r" then 13 else if Ascii.eqb k "t" then 9 else if Ascii.eqb k "v" then 11 else byte_val k.
Definition unescape (k : ascii) (v : Z) : string :=
  if Ascii.eqb k "x" then String (byte_of v) EmptyString
  else if Ascii.eqb k "u" then encode_rune v else if Ascii.eqb k "U" then encode_rune v else String (byte_of (named k)) EmptyString.
Section Printable.
  Variable p : Z -> bool.
  Lemma quote_char_cases c : decoded c ->
    (gc_bad c = false /\ quote_char p c = gc_raw c /\ gc_rune c <> 34 /\ gc_rune c <> 92) \/
    exists k v, quote_char p c = String "\" (String k (hex (esc_width k) v)) /\ 0 <= v < 16 ^ Z.of_nat (esc_width k) /\ gc_raw c = unescape k v.
  Proof.
    intros Hd. pose proof (decoded_range c Hd) as Hr. unfold quote_char. cbv zeta. destruct (gc_bad c) eqn:Eb.
    { right. destruct (decoded_bad c Hd Eb) as (a & -> & Ha). exists "x"%char, (byte_val a). split; [reflexivity|]. pose proof (byte_small a). split; [change (16 ^ Z.of_nat (esc_width "x")) with 256; lia|].
      unfold unescape. cbn [Ascii.eqb Bool.eqb]. rewrite byte_of_val. reflexivity. }
    destruct ((gc_rune c =? 34) || (gc_rune c =? 92))%bool eqn:E1.
    { right. assert (gc_rune c = 34 \/ gc_rune c = 92) as H by lia. rewrite (decoded_small c Hd) by lia. destruct H as [-> | ->];
      [exists """"%char, 0|exists "\"%char, 0]; (split; [reflexivity|]); (split; [vm_compute; split; [discriminate|reflexivity]|]); reflexivity. }
    destruct (p (gc_rune c)).
    { left. repeat split; try reflexivity; lia. }
    right.
    repeat match goal with |- context [if (gc_rune c =? ?z) then _ else _] => let E := fresh "E" in destruct (gc_rune c =? z) eqn:E;
      [apply Z.eqb_eq in E; rewrite (decoded_small c Hd) by lia; rewrite E;
       match goal with |- context [String "\" (String ?k _)] => exists k, 0; (split; [reflexivity|]); (split; [vm_compute; split; [discriminate|reflexivity]|]); reflexivity end|] end.
    destruct (gc_rune c <? 32) eqn:E9.
    { exists "x"%char, (gc_rune c). split; [reflexivity|]. split; [change (16 ^ Z.of_nat (esc_width "x")) with 256; lia|]. rewrite (decoded_small c Hd) by lia. reflexivity. }
    destruct (gc_rune c <? 65536) eqn:E10.
    { exists "u"%char, (gc_rune c). split; [reflexivity|]. split; [change (16 ^ Z.of_nat (esc_width "u")) with 65536; lia|]. symmetry. apply (encode_decoded c Hd Eb). }
    exists "U"%char, (gc_rune c). split; [reflexivity|]. split; [exact Hr|]. symmetry. apply (encode_decoded c Hd Eb).
  Qed.
  Lemma decoded_first c a s : decoded c -> gc_raw c = String a s -> byte_val a = gc_rune c \/ 128 <= byte_val a.
  Proof.
    intros Hd E. destruct (decoded_bytes c Hd) as [(H & _)|(_ & H)]; rewrite E in H; cbn [bytes list_ascii_of_string map] in H.
    - injection H as H _. left. exact H.
    - inversion H. right. assumption.
  Qed.
  Lemma raw_nonempty c : decoded c -> gc_raw c <> EmptyString.
  Proof.
    intros (s & s' & E). destruct s as [|a s]; [discriminate|]. revert E. cbn [first_char]. cbv zeta. split_chars; intros [= <- <-]; cbn [gc_raw bad_char]; discriminate.
  Qed.
  Lemma quote_char_code c d r r' : decoded c -> decoded d -> (quote_char p c ++ r = quote_char p d ++ r')%string -> gc_raw c = gc_raw d /\ r = r'.
  Proof.
    assert (forall c d r k h, decoded c -> gc_bad c = false -> gc_rune c <> 34 -> gc_rune c <> 92 -> (gc_raw c ++ r)%string <> (String "\" (String k h) ++ d)%string) as Hx.
    { intros c0 d0 r0 k h Hc Hb H1 H2 E. destruct (gc_raw c0) as [|a s] eqn:Er; [destruct (raw_nonempty c0 Hc Er)|]. cbn in E. injection E as E _. subst a.
      destruct (decoded_first _ _ _ Hc Er) as [K|K]; change (byte_val "\") with 92 in K; lia. }
    intros Hc Hd E. destruct (quote_char_cases c Hc) as [(B1 & Q1 & N1 & N2)|(k & v & E1 & R1 & U1)]; destruct (quote_char_cases d Hd) as [(B2 & Q2 & N3 & N4)|(k' & v' & E2 & R2 & U2)].
    - rewrite Q1, Q2 in E. assert (c = d) as ->.
      { assert (forall x y, decoded x -> gc_bad x = false -> decode (gc_raw x ++ y) = x :: decode y) as K.
        { intros x y Hx' Hbx. pose proof (decode_raw [x] ltac:(constructor; [exact Hx'|constructor]) ltac:(constructor; [exact Hbx|constructor]) y) as K. cbn [raw_text] in K. rewrite append_nil_r in K. exact K. }
        pose proof (K c r Hc B1) as K1. rewrite E, (K d r' Hd B2) in K1. injection K1 as -> _. reflexivity. }
      split; [reflexivity|]. exact (app_inv_s _ _ _ E).
    - rewrite Q1, E2 in E. destruct (Hx _ _ _ _ _ Hc B1 N1 N2 E).
    - rewrite E1, Q2 in E. symmetry in E. destruct (Hx _ _ _ _ _ Hd B2 N3 N4 E).
    - rewrite E1, E2 in E. cbn [append] in E. injection E as <- E. apply app_same_length in E as (E & ->); [|rewrite !hex_length; reflexivity]. apply hex_inj in E; [|assumption..]. subst v'. rewrite U1, U2. split; reflexivity.
  Qed.
  Lemma quote_char_head c : decoded c -> exists a s, quote_char p c = String a s /\ a <> """"%char.
  Proof.
    intros Hc. destruct (quote_char_cases c Hc) as [(B1 & -> & N1 & N2)|(k & v & E1 & _)].
    - destruct (gc_raw c) as [|a s] eqn:Er; [destruct (raw_nonempty c Hc Er)|]. exists a, s. split; [reflexivity|]. intros ->. destruct (decoded_first _ _ _ Hc Er) as [K|K]; change (byte_val """") with 34 in K; lia.
    - rewrite E1. do 2 eexists. split; [reflexivity|]. discriminate.
  Qed.
  Lemma quote_chars_code l : forall l' r r', Forall decoded l -> Forall decoded l' ->
    (quote_chars p l ++ String """" r = quote_chars p l' ++ String """" r')%string -> raw_text l = raw_text l' /\ r = r'.
  Proof.
    induction l as [|c l IH]; intros [|d l'] r r' Hl Hl' E; cbn [quote_chars fold_right] in E; fold (quote_chars p) in E.
    - cbn in E. injection E as ->. split; reflexivity.
    - inversion Hl'. subst. destruct (quote_char_head d) as (a & s & Eq & Ha); [assumption|]. fold (quote_chars p l') in E. rewrite Eq in E. cbn in E. injection E as E _. congruence.
    - inversion Hl. subst. destruct (quote_char_head c) as (a & s & Eq & Ha); [assumption|]. fold (quote_chars p l) in E. rewrite Eq in E. cbn in E. injection E as E _. congruence.
    - inversion Hl. inversion Hl'. subst. fold (quote_chars p l) in E. fold (quote_chars p l') in E. rewrite <- !app_assoc_s in E. apply quote_char_code in E as (E1 & E2); [|assumption..]. apply IH in E2 as (E2 & ->); [|assumption..].
      cbn [raw_text]. rewrite E1, E2. split; reflexivity.
  Qed.
  Lemma quote_code s s' r r' : (quote p s ++ r = quote p s' ++ r')%string -> s = s' /\ r = r'.
  Proof.
    unfold quote. intros E. cbn [append] in E. injection E as E. rewrite <- !app_assoc_s in E. cbn [append] in E. apply quote_chars_code in E as (E1 & E2); [|apply decode_decoded..].
    rewrite !raw_decode in E1. split; assumption.
  Qed.
  Lemma quote_head s : exists t, quote p s = String """" t.
  Proof. eexists. reflexivity. Qed.
End Printable.

(** * Lists of atoms *)
Inductive sx := Bare (s : string) | Quoted (s : string) | SList (l : list sx).
Lemma sx_induction (P : sx -> Prop) : (forall s, P (Bare s)) -> (forall s, P (Quoted s)) -> (forall l, Forall P l -> P (SList l)) -> forall x, P x.
Proof.
  intros HB HQ HL. fix IH 1. intros [s|s|l]; [apply HB|apply HQ|]. apply HL. induction l as [|x l IHl]; constructor; [apply IH|exact IHl].
Qed.
Definition atom_char (a : ascii) : Prop := ~ In a [" "; "("; ")"; """"]%char.
Definition atom (s : string) : Prop := s <> EmptyString /\ Forall atom_char (list_ascii_of_string s).
Fixpoint good_sx (x : sx) : Prop :=
  match x with Bare s => atom s | Quoted _ => True | SList l => l <> [] /\ fold_right (fun y acc => good_sx y /\ acc) True l end.
Definition ends_atom (r : string) : Prop := match r with EmptyString => True | String a _ => a = " "%char \/ a = ")"%char end.
Section Print.
  Variable p : Z -> bool.
  Fixpoint print_sx (x : sx) : string :=
    match x with Bare s => s | Quoted s => quote p s | SList l => ("(" ++ join " " (map print_sx l) ++ ")")%string end.
  Lemma atom_code s : forall s' r r', Forall atom_char (list_ascii_of_string s) -> Forall atom_char (list_ascii_of_string s') -> ends_atom r -> ends_atom r' -> (s ++ r = s' ++ r')%string -> s = s' /\ r = r'.
  Proof.
    assert (forall a s, atom_char a -> ~ ends_atom (String a s)) as Hn by (intros a t Ha [-> | ->]; apply Ha; cbn; tauto).
    induction s as [|a s IH]; intros [|b s'] r r' Hs Hs' Hr Hr' E; cbn [append] in E.
    - split; [reflexivity|exact E].
    - subst r. inversion Hs'. subst. destruct (Hn _ _ ltac:(eassumption) Hr).
    - subst r'. inversion Hs. subst. destruct (Hn _ _ ltac:(eassumption) Hr').
    - injection E as <- E. inversion Hs. inversion Hs'. subst. apply IH in E as (-> & ->); [split; reflexivity|assumption..].
  Qed.
  Lemma atom_first s : atom s -> exists a t, s = String a t /\ atom_char a.
  Proof. intros (H1 & H2). destruct s as [|a t]; [contradiction|]. inversion H2. exists a, t. split; [reflexivity|assumption]. Qed.
  Lemma join_app_cons x l r : (join " " (x :: l) ++ ")" ++ r = x ++ fold_right (fun y acc => " " ++ y ++ acc) (")" ++ r) l)%string.
  Proof.
    revert x. induction l as [|y l IH]; intros x; [cbn [join fold_right]; reflexivity|]. rewrite join_cons by discriminate. cbn [fold_right]. rewrite <- IH, <- !app_assoc_s. reflexivity.
  Qed.
  Lemma print_code x : forall y r r', good_sx x -> good_sx y -> ends_atom r -> ends_atom r' -> (print_sx x ++ r = print_sx y ++ r')%string -> x = y /\ r = r'.
  Proof.
    induction x as [s|s|l IH] using sx_induction; intros y r r' Hx Hy Hr Hr' E.
    - destruct y as [s'|s'|l']; cbn [print_sx good_sx] in *.
      + destruct Hx as (_ & Hx). destruct Hy as (_ & Hy). apply atom_code in E as (-> & ->); [split; reflexivity|assumption..].
      + destruct (atom_first s Hx) as (a & t & -> & Ha). cbn in E. injection E as -> _. destruct Ha. cbn. tauto.
      + destruct (atom_first s Hx) as (a & t & -> & Ha). cbn in E. injection E as -> _. destruct Ha. cbn. tauto.
    - destruct y as [s'|s'|l']; cbn [print_sx good_sx] in *.
      + destruct (atom_first s' Hy) as (a & t & -> & Ha). cbn in E. injection E as <- _. destruct Ha. cbn. tauto.
      + apply quote_code in E as (-> & ->). split; reflexivity.
      + cbn in E. discriminate E.
    - destruct y as [s'|s'|l']; cbn [print_sx good_sx] in *.
      + destruct (atom_first s' Hy) as (a & t & -> & Ha). cbn in E. injection E as <- _. destruct Ha. cbn. tauto.
      + cbn in E. discriminate E.
      + destruct Hx as (Nx & Hx), Hy as (Ny & Hy). rewrite <- !app_assoc_s in E. cbn [append] in E. injection E as E.
        destruct l as [|x l]; [contradiction|]. destruct l' as [|y l']; [contradiction|]. cbn [map fold_right] in E, Hx, Hy.
        change (String ")" r) with (")" ++ r)%string in E. change (String ")" r') with (")" ++ r')%string in E. rewrite !join_app_cons in E. inversion IH as [|? ? IHx IHl]. subst.
        assert (forall q q', ends_atom (fold_right (fun y acc => " " ++ y ++ acc)%string (")" ++ q)%string q')) as He by (intros q [|z q']; [right|left]; reflexivity).
        apply IHx in E as (-> & E); [|apply Hx|apply Hy|apply He..].
        assert (l = l' /\ r = r') as (-> & ->); [|split; reflexivity].
        destruct Hx as (_ & Hx), Hy as (_ & Hy). clear IHx IH Nx Ny. revert l' Hx Hy E. induction IHl as [|z l Hz _ IHl]; intros [|z' l'] Hx Hy E; cbn [map fold_right] in *.
        * cbn in E. injection E as E. split; [reflexivity|exact E].
        * discriminate E.
        * discriminate E.
        * cbn [append] in E. injection E as E. apply Hz in E as (-> & E); [|apply Hx|apply Hy|apply He..]. apply IHl in E as (-> & ->); [split; reflexivity|apply Hx|apply Hy].
  Qed.
  Lemma print_inj x y : good_sx x -> good_sx y -> print_sx x = print_sx y -> x = y.
  Proof. intros Hx Hy E. apply (print_code x y "" ""); [assumption..|exact I|exact I|rewrite E; reflexivity]. Qed.
End Print.

(** * Syntax trees as lists *)
Definition roll_sx (f : node -> sx) (v : vroll) : sx := match v with VRoll k l r => SList [Bare (vkind_type k); f l; f r] end.
Definition die_sx (d : die) : sx := SList [Bare "Die"; Bare (itoa (die_value d)); Bare (itoa (die_sides d))].
Fixpoint to_sx (n : node) : sx :=
  let roll (v : vroll) : sx := match v with VRoll k l r => SList [Bare (vkind_type k); to_sx l; to_sx r] end in
  match n with
  | NNull => Bare "nil"
  | NNil => Bare "nil"
  | NInt v => Bare (itoa v)
  | NString s => Quoted s
  | NSumRoll ds => SList (Bare "SumRollResult" :: map die_sx ds)
  | NNeg r => SList [Bare "-"; to_sx r]
  | NInfix op l r => SList [Bare (op_sexp op); to_sx l; to_sx r]
  | NBRollList rolls => SList (Bare "BRollList" :: map roll rolls)
  | NRRollList rolls th => SList (Bare "RRollList" :: to_sx th :: map roll rolls)
  | NURollExpr rolls th None => SList [Bare "URollExpr"; SList (Bare "RRollList" :: to_sx th :: map roll rolls)]
  | NURollExpr rolls th (Some (Bonus op _ r)) => SList [Bare "URollExpr"; SList [Bare (op_sexp op); SList (Bare "RRollList" :: to_sx th :: map roll rolls); to_sx r]]
  | NChoice items => SList (Bare "Choice" :: map Quoted items)
  | NCommand t e => SList [Bare (cmd_type t); to_sx e]
  end.
(** Trees without nil, with the comparison operators of the language, with no empty list of rolls, and whose bonus has the form left by the parser. *)
Definition known_op (op : infixop) : Prop := match op with OpCmp s => is_compare_op s | _ => True end.
Fixpoint shaped (n : node) : Prop :=
  let roll (v : vroll) : Prop := match v with VRoll _ l r => shaped l /\ shaped r end in
  let rolls_ok (rolls : list vroll) : Prop := rolls <> [] /\ fold_right (fun v acc => roll v /\ acc) True rolls in
  match n with
  | NNull => False
  | NNil | NInt _ | NString _ | NChoice _ => True
  | NSumRoll ds => ds <> []
  | NNeg r => shaped r
  | NInfix op l r => known_op op /\ shaped l /\ shaped r
  | NBRollList rolls => rolls_ok rolls
  | NRRollList rolls th => rolls_ok rolls /\ shaped th
  | NURollExpr rolls th b => rolls_ok rolls /\ shaped th /\ match b with None => True | Some (Bonus op l r) => (op = OpAdd \/ op = OpSub) /\ l = NInt 0 /\ shaped r end
  | NCommand _ e => shaped e
  end.
Definition each_roll (P : node -> Prop) (v : vroll) : Prop := match v with VRoll _ l r => P l /\ P r end.
Lemma node_induction (P : node -> Prop) :
  P NNull -> P NNil -> (forall v, P (NInt v)) -> (forall s, P (NString s)) -> (forall ds, P (NSumRoll ds)) -> (forall r, P r -> P (NNeg r)) ->
  (forall op l r, P l -> P r -> P (NInfix op l r)) -> (forall rolls, Forall (each_roll P) rolls -> P (NBRollList rolls)) ->
  (forall rolls th, Forall (each_roll P) rolls -> P th -> P (NRRollList rolls th)) ->
  (forall rolls th b, Forall (each_roll P) rolls -> P th -> match b with None => True | Some (Bonus _ l r) => P l /\ P r end -> P (NURollExpr rolls th b)) ->
  (forall items, P (NChoice items)) -> (forall t e, P e -> P (NCommand t e)) -> forall n, P n.
Proof.
  intros H1 H2 H3 H4 H5 H6 H7 H8 H9 H10 H11 H12. fix IH 1.
  assert (forall rolls, Forall (each_roll P) rolls -> Forall (each_roll P) rolls) as _ by auto.
  intros [| |v|s|ds|r|op l r|rolls|rolls th|rolls th b|items|t e]; [exact H1|exact H2|apply H3|apply H4|apply H5|apply H6, IH|apply H7; apply IH| | | |apply H11|apply H12, IH].
  - apply H8. induction rolls as [|[k l r] rolls IHr]; constructor; [split; apply IH|exact IHr].
  - apply H9; [|apply IH]. induction rolls as [|[k l r] rolls IHr]; constructor; [split; apply IH|exact IHr].
  - apply H10; [|apply IH|destruct b as [[op l r]|]; [split; apply IH|exact I]]. induction rolls as [|[k l r] rolls IHr]; constructor; [split; apply IH|exact IHr].
Qed.

(** ** The text is that of the list *)
Definition roll_text (p : Z -> bool) (v : vroll) : string := match v with VRoll k l r => ("(" ++ vkind_type k ++ " " ++ sexp_with p l ++ " " ++ sexp_with p r ++ ")")%string end.
Definition rlist_text (p : Z -> bool) (rolls : list vroll) (th : node) : string := ("(RRollList " ++ sexp_with p th ++ " " ++ join " " (map (roll_text p) rolls) ++ ")")%string.
Definition rlist_sx (rolls : list vroll) (th : node) : sx := SList (Bare "RRollList" :: to_sx th :: map (roll_sx to_sx) rolls).
Definition shaped_rolls (rolls : list vroll) : Prop := rolls <> [] /\ fold_right (fun v acc => each_roll shaped v /\ acc) True rolls.
Lemma text_B p rolls : sexp_with p (NBRollList rolls) = ("(BRollList " ++ join " " (map (roll_text p) rolls) ++ ")")%string. Proof. reflexivity. Qed.
Lemma text_R p rolls th : sexp_with p (NRRollList rolls th) = rlist_text p rolls th. Proof. reflexivity. Qed.
Lemma text_U p rolls th b : sexp_with p (NURollExpr rolls th b) =
  match b with None => ("(URollExpr " ++ rlist_text p rolls th ++ ")")%string | Some (Bonus op _ r) => ("(URollExpr (" ++ op_sexp op ++ " " ++ rlist_text p rolls th ++ " " ++ sexp_with p r ++ "))")%string end.
Proof. reflexivity. Qed.
Lemma sx_B rolls : to_sx (NBRollList rolls) = SList (Bare "BRollList" :: map (roll_sx to_sx) rolls). Proof. reflexivity. Qed.
Lemma sx_R rolls th : to_sx (NRRollList rolls th) = rlist_sx rolls th. Proof. reflexivity. Qed.
Lemma sx_U rolls th b : to_sx (NURollExpr rolls th b) =
  match b with None => SList [Bare "URollExpr"; rlist_sx rolls th] | Some (Bonus op _ r) => SList [Bare "URollExpr"; SList [Bare (op_sexp op); rlist_sx rolls th; to_sx r]] end.
Proof. destruct b as [[op l r]|]; reflexivity. Qed.
Ltac norm_text := repeat (progress (rewrite <- ?app_assoc_s; cbn [append])).
Lemma rolls_text p rolls : Forall (each_roll (fun n => shaped n -> sexp_with p n = print_sx p (to_sx n))) rolls ->
  shaped_rolls rolls -> map (roll_text p) rolls = map (print_sx p) (map (roll_sx to_sx) rolls).
Proof.
  intros H (_ & K). revert K. induction H as [|[k l r] rolls (Hl & Hr) _ IH]; [reflexivity|]. cbn [fold_right each_roll]. intros ((Sl & Sr) & Hs). cbn [map]. f_equal; [|exact (IH Hs)].
  cbn [roll_text roll_sx print_sx map join]. rewrite (Hl Sl), (Hr Sr). norm_text. reflexivity.
Qed.
Lemma join_text (xs : list string) x : xs <> [] -> (x ++ " " ++ join " " xs)%string = join " " (x :: xs).
Proof. intros H. rewrite join_cons by exact H. reflexivity. Qed.
Lemma map_ne {A B} (f : A -> B) l : l <> [] -> map f l <> [].
Proof. destruct l; [contradiction|discriminate]. Qed.
Lemma rlist_print p rolls th : Forall (each_roll (fun n => shaped n -> sexp_with p n = print_sx p (to_sx n))) rolls ->
  shaped_rolls rolls -> sexp_with p th = print_sx p (to_sx th) -> rlist_text p rolls th = print_sx p (rlist_sx rolls th).
Proof.
  intros H Hs Ht. unfold rlist_text, rlist_sx. rewrite (rolls_text p rolls H Hs), Ht. cbn [print_sx map]. destruct Hs as (Hn & _). rewrite <- !join_text by (discriminate || apply map_ne, map_ne, Hn). norm_text. reflexivity.
Qed.
Lemma sexp_print p n : shaped n -> sexp_with p n = print_sx p (to_sx n).
Proof.
  induction n as [| |v|s|ds|r IHr|op l r IHl IHr|rolls IH|rolls th IH IHt|rolls th b IH IHt IHb|items|t e IHe] using node_induction; intros Hs; try reflexivity.
  - cbn [sexp_with to_sx print_sx map]. cbn [shaped] in Hs. rewrite <- join_text by (apply map_ne, map_ne, Hs). rewrite map_map. erewrite (map_ext die_sexp); [norm_text; reflexivity|]. intros d.
    cbn [die_sx print_sx map join]. unfold die_sexp. norm_text. reflexivity.
  - cbn [sexp_with to_sx print_sx map join]. rewrite IHr by exact Hs. norm_text. reflexivity.
  - cbn [sexp_with to_sx print_sx map join]. destruct Hs as (_ & Hl & Hr). rewrite IHl, IHr by assumption. norm_text. reflexivity.
  - rewrite text_B, sx_B, (rolls_text p rolls IH Hs). cbn [print_sx map]. destruct Hs as (Hn & _). rewrite <- join_text by apply map_ne, map_ne, Hn. norm_text. reflexivity.
  - destruct Hs as (Hs & Ht). rewrite text_R, sx_R. apply rlist_print; auto.
  - destruct Hs as (Hs & Ht & Hb). rewrite text_U, sx_U, (rlist_print p rolls th IH Hs (IHt Ht)). destruct b as [[op l r]|].
    + destruct Hb as (_ & _ & Hb). destruct IHb as (_ & IHb). rewrite (IHb Hb). set (R := rlist_sx rolls th). cbn [print_sx map join]. fold (print_sx p R). norm_text. reflexivity.
    + set (R := rlist_sx rolls th). cbn [print_sx map join]. norm_text. reflexivity.
  - cbn [sexp_with to_sx print_sx map]. clear Hs. rewrite map_map. cbn [print_sx]. change (join " " ("Choice"%string :: map (fun x => quote p x) items)) with (join " " ("Choice"%string :: map (quote p) items)).
    cbn [append]. change ")"%string with (")" ++ "")%string. rewrite join_app_cons. cbn [append]. do 7 f_equal. induction items as [|i items IH]; [reflexivity|]. cbn [fold_right map]. rewrite IH. reflexivity.
  - cbn [sexp_with to_sx print_sx map join]. rewrite IHe by exact Hs. norm_text. reflexivity.
Qed.

(** ** The list determines the tree *)
Lemma vkind_type_inj k k' : vkind_type k = vkind_type k' -> k = k'.
Proof. destruct k, k'; (reflexivity || discriminate). Qed.
Lemma cmd_type_inj k k' : cmd_type k = cmd_type k' -> k = k'.
Proof. destruct k, k'; (reflexivity || discriminate). Qed.
Lemma op_sexp_inj a b : known_op a -> known_op b -> op_sexp a = op_sexp b -> a = b.
Proof.
  intros Ha Hb. destruct a as [| | |[]|s|[]], b as [| | |[]|s'|[]]; try reflexivity; try (intros H; discriminate H); cbn in Ha, Hb |- *; intros H; try (rewrite H; reflexivity);
  (decompose [or] Ha || decompose [or] Hb); subst; try contradiction; discriminate.
Qed.
Definition reserved : list string := ["SumRollResult"; "BRollList"; "RRollList"; "URollExpr"; "Choice"]%string.
Lemma op_not_reserved op : known_op op -> ~ In (op_sexp op) reserved.
Proof. intros H K. cbn in K. destruct op as [| | |[]|s|[]]; cbn in H, K; try (decompose [or] K; discriminate || contradiction). decompose [or] H; subst; try contradiction; decompose [or] K; discriminate || contradiction. Qed.
Lemma cmd_not_reserved t : ~ In (cmd_type t) reserved.
Proof. destruct t; cbn; intros K; decompose [or] K; discriminate || contradiction. Qed.
Lemma cmd_not_minus t : cmd_type t <> "-"%string.
Proof. destruct t; discriminate. Qed.
Lemma itoa_not_nil v : itoa v <> "nil"%string.
Proof.
  destruct (Z.lt_ge_cases v 0) as [H|H].
  - rewrite itoa_minus by exact H. discriminate.
  - intros E. destruct (itoa_digits v H) as (_ & K). rewrite E in K. inversion K as [|a l K1 K2]. unfold digit in K1. vm_compute in K1. destruct K1 as (_ & K1). apply K1. reflexivity.
Qed.
Lemma rolls_inj rolls : Forall (each_roll (fun n => forall m, shaped n -> shaped m -> to_sx n = to_sx m -> n = m)) rolls -> shaped_rolls rolls ->
  forall rolls', shaped_rolls rolls' -> map (roll_sx to_sx) rolls = map (roll_sx to_sx) rolls' -> rolls = rolls'.
Proof.
  intros H (_ & K) rolls' (_ & K'). revert K rolls' K'. induction H as [|[k l r] rolls (Hl & Hr) _ IH]; intros K [|[k' l' r'] rolls'] K' E; try reflexivity; try discriminate E.
  cbn [map roll_sx] in E. injection E as E1 E2 E3 E4. apply vkind_type_inj in E1 as ->. destruct K as ((K1 & K2) & K), K' as ((K1' & K2') & K'). rewrite (Hl _ K1 K1' E2), (Hr _ K2 K2' E3), (IH K _ K' E4). reflexivity.
Qed.
Lemma die_inj ds : forall ds', map die_sx ds = map die_sx ds' -> ds = ds'.
Proof. induction ds as [|[v s] ds IH]; intros [|[v' s'] ds'] E; try reflexivity; try discriminate E. cbn [map die_sx die_value die_sides] in E. unfold die_sx in E. cbn in E. injection E as E1 E2 E3. apply itoa_inj in E1, E2. subst. rewrite (IH _ E3). reflexivity. Qed.
Lemma quoted_inj (a : list string) : forall b, map Quoted a = map Quoted b -> a = b.
Proof. induction a as [|x a IH]; intros [|y b] E; try reflexivity; try discriminate E. cbn in E. injection E as -> E. rewrite (IH _ E). reflexivity. Qed.
Lemma to_sx_inj n : forall m, shaped n -> shaped m -> to_sx n = to_sx m -> n = m.
Proof.
  induction n as [| |v|s|ds|r IHr|op l r IHl IHr|rolls IH|rolls th IH IHt|rolls th b IH IHt IHb|items|t e IHe] using node_induction; intros m Hn Hm E;
  destruct m as [| |v'|s'|ds'|r'|op' l' r'|rolls'|rolls' th'|rolls' th' b'|items'|t' e'];
  try (destruct Hn; fail); try (destruct Hm; fail); rewrite ?sx_B, ?sx_R, ?sx_U in E; unfold rlist_sx in E; cbn [to_sx] in E;
  repeat match goal with b : option bonus |- _ => let o := fresh "o" in let q := fresh "q" in let r := fresh "br" in destruct b as [[o q r]|] end;
  try (discriminate E); try (injection E; intros; subst; reflexivity);
  try (exfalso; injection E; intros; match goal with
    | H : "nil"%string = itoa _ |- _ => symmetry in H; exact (itoa_not_nil _ H) | H : itoa _ = "nil"%string |- _ => exact (itoa_not_nil _ H)
    | H : cmd_type _ = "-"%string |- _ => exact (cmd_not_minus _ H) | H : "-"%string = cmd_type _ |- _ => symmetry in H; exact (cmd_not_minus _ H)
    | H : cmd_type ?t = _ |- _ => apply (cmd_not_reserved t); rewrite H; cbn; tauto
    | H : _ = cmd_type ?t |- _ => apply (cmd_not_reserved t); rewrite <- H; cbn; tauto
    | H : op_sexp ?o = _ |- _ => apply (op_not_reserved o); [apply Hn || apply Hm|rewrite H; cbn; tauto]
    | H : _ = op_sexp ?o |- _ => apply (op_not_reserved o); [apply Hn || apply Hm|rewrite <- H; cbn; tauto]
    end).
  - reflexivity.
  - injection E as E. apply itoa_inj in E as ->. reflexivity.
  - injection E as E. apply die_inj in E as ->. reflexivity.
  - injection E as E. rewrite (IHr r' Hn Hm E). reflexivity.
  - injection E as E1 E2 E3. destruct Hn as (H1 & H2 & H3), Hm as (K1 & K2 & K3). rewrite (op_sexp_inj _ _ H1 K1 E1), (IHl _ H2 K2 E2), (IHr _ H3 K3 E3). reflexivity.
  - injection E as E. rewrite (rolls_inj rolls IH Hn rolls' Hm E). reflexivity.
  - injection E as E1 E2. destruct Hn as (H1 & H2), Hm as (K1 & K2). rewrite (IHt _ H2 K2 E1), (rolls_inj rolls IH H1 rolls' K1 E2). reflexivity.
  - injection E as E1 E2 E3 E4. destruct Hn as (H1 & H2 & H3 & -> & H4), Hm as (K1 & K2 & K3 & -> & K4). destruct IHb as (_ & IHb). rewrite (IHt _ H2 K2 E2), (rolls_inj rolls IH H1 rolls' K1 E3), (IHb _ H4 K4 E4).
    rewrite (op_sexp_inj o0 o) by (try exact E1; destruct H3 as [-> | ->], K3 as [-> | ->]; exact I). reflexivity.
  - exfalso. injection E as E1 _. destruct Hm as (_ & _ & [-> | ->] & _); discriminate E1.
  - exfalso. injection E as E1 _. destruct Hn as (_ & _ & [-> | ->] & _); discriminate E1.
  - injection E as E1 E2. destruct Hn as (H1 & H2 & _), Hm as (K1 & K2 & _). rewrite (IHt _ H2 K2 E1), (rolls_inj rolls IH H1 rolls' K1 E2). reflexivity.
  - injection E as E. apply quoted_inj in E as ->. reflexivity.
  - injection E as E1 E2. apply cmd_type_inj in E1 as ->. rewrite (IHe e' Hn Hm E2). reflexivity.
Qed.

(** ** Atoms *)
Lemma atom_dec s : s <> EmptyString -> forallb (fun a => negb (existsb (Ascii.eqb a) [" "; "("; ")"; """"]%char)) (list_ascii_of_string s) = true -> atom s.
Proof.
  intros H1 H2. split; [exact H1|]. rewrite forallb_forall in H2. apply Forall_forall. intros a Ha Hin. apply H2 in Ha. apply Bool.negb_true_iff in Ha.
  assert (existsb (Ascii.eqb a) [" "; "("; ")"; """"]%char = true) as K by (apply existsb_exists; exists a; split; [exact Hin|apply Ascii.eqb_refl]). rewrite K in Ha. discriminate Ha.
Qed.
Lemma digits_atom s : digits s -> atom s.
Proof.
  intros (H1 & H2). split; [exact H1|]. eapply Forall_impl; [|exact H2]. intros a Ha Hin. cbn in Hin. unfold digit in Ha. decompose [or] Hin; subst; try contradiction; vm_compute in Ha; destruct Ha as (Ha & _); apply Ha; reflexivity.
Qed.
Lemma itoa_atom v : atom (itoa v).
Proof.
  destruct (Z.lt_ge_cases v 0) as [H|H]; [|apply digits_atom, itoa_digits, H]. rewrite itoa_minus by exact H. split; [discriminate|]. constructor; [|apply (digits_atom (itoa (- v))), itoa_digits; lia].
  intros K. cbn in K. decompose [or] K; discriminate || contradiction.
Qed.
Lemma op_atom op : known_op op -> atom (op_sexp op).
Proof. intros H. destruct op as [| | |[]|s|[]]; try (apply atom_dec; [discriminate|reflexivity]). cbn in H. decompose [or] H; subst; try contradiction; (apply atom_dec; [discriminate|reflexivity]). Qed.
Lemma cmd_atom t : atom (cmd_type t).
Proof. destruct t; (apply atom_dec; [discriminate|reflexivity]). Qed.
Lemma vkind_atom k : atom (vkind_type k).
Proof. destruct k; (apply atom_dec; [discriminate|reflexivity]). Qed.
Ltac lit_atom := apply atom_dec; [discriminate|reflexivity].
Definition all_good (l : list sx) : Prop := fold_right (fun y acc => good_sx y /\ acc) True l.
Lemma rolls_good rolls : Forall (each_roll (fun n => shaped n -> good_sx (to_sx n))) rolls -> shaped_rolls rolls -> all_good (map (roll_sx to_sx) rolls).
Proof.
  intros H (_ & K). revert K. induction H as [|[k l r] rolls (Hl & Hr) _ IH]; intros K; [exact I|]. destruct K as ((K1 & K2) & K). cbn [map all_good fold_right]. split; [|exact (IH K)].
  cbn [roll_sx good_sx fold_right]. split; [discriminate|]. split; [apply vkind_atom|]. split; [exact (Hl K1)|]. split; [exact (Hr K2)|exact I].
Qed.
Lemma to_sx_good n : shaped n -> good_sx (to_sx n).
Proof.
  assert (forall rolls th, all_good (map (roll_sx to_sx) rolls) -> good_sx (to_sx th) -> good_sx (rlist_sx rolls th)) as HR.
  { intros rolls th H1 H2. unfold rlist_sx. cbn [good_sx fold_right]. split; [discriminate|]. split; [lit_atom|]. split; [exact H2|exact H1]. }
  induction n as [| |v|s|ds|r IHr|op l r IHl IHr|rolls IH|rolls th IH IHt|rolls th b IH IHt IHb|items|t e IHe] using node_induction; intros Hs.
  - destruct Hs.
  - cbn. lit_atom.
  - apply itoa_atom.
  - exact I.
  - cbn [to_sx good_sx fold_right]. split; [discriminate|]. split; [lit_atom|]. clear Hs. induction ds as [|d ds IH]; [exact I|]. cbn [map fold_right]. split; [|exact IH].
    cbn [die_sx good_sx fold_right]. split; [discriminate|]. split; [lit_atom|]. split; [apply itoa_atom|]. split; [apply itoa_atom|exact I].
  - cbn [to_sx good_sx fold_right]. split; [discriminate|]. split; [lit_atom|]. split; [exact (IHr Hs)|exact I].
  - destruct Hs as (H1 & H2 & H3). cbn [to_sx good_sx fold_right]. split; [discriminate|]. split; [exact (op_atom _ H1)|]. split; [exact (IHl H2)|]. split; [exact (IHr H3)|exact I].
  - rewrite sx_B. cbn [good_sx fold_right]. split; [discriminate|]. split; [lit_atom|]. apply rolls_good; assumption.
  - destruct Hs as (H1 & H2). rewrite sx_R. apply HR; [apply rolls_good; assumption|exact (IHt H2)].
  - destruct Hs as (H1 & H2 & H3). rewrite sx_U. pose proof (HR rolls th (rolls_good rolls IH H1) (IHt H2)) as G. destruct b as [[op l r]|].
    + destruct H3 as (Ho & _ & H3). destruct IHb as (_ & IHb). set (R := rlist_sx rolls th) in *. cbn [good_sx fold_right]. fold (good_sx R). split; [discriminate|]. split; [lit_atom|]. split; [|exact I]. split; [discriminate|].
      split; [apply op_atom; destruct Ho as [-> | ->]; exact I|]. split; [exact G|]. split; [exact (IHb H3)|exact I].
    + set (R := rlist_sx rolls th) in *. cbn [good_sx fold_right]. fold (good_sx R). split; [discriminate|]. split; [lit_atom|]. split; [exact G|exact I].
  - cbn [to_sx good_sx fold_right]. split; [discriminate|]. split; [lit_atom|]. clear Hs. induction items as [|i items IH]; [exact I|]. cbn [map fold_right]. split; [exact I|exact IH].
  - cbn [to_sx good_sx fold_right]. split; [discriminate|]. split; [apply cmd_atom|]. split; [exact (IHe Hs)|exact I].
Qed.
Theorem sexp_injective p n m : shaped n -> shaped m -> sexp_with p n = sexp_with p m -> n = m.
Proof. intros Hn Hm E. rewrite !sexp_print in E by assumption. apply to_sx_inj; [assumption..|]. apply (print_inj p); [apply to_sx_good; assumption..|exact E]. Qed.

(** ** Parsed commands *)
Lemma tree_shaped {L} (leaf : L -> node) (P : L -> Prop) e : (forall x, P x -> shaped (leaf x)) -> all_leaves P e -> shaped (tree leaf e).
Proof. intros H. induction e as [x|e IH|op a IHa b IHb]; cbn [all_leaves tree shaped]; intros K; [auto|auto|]. destruct K. split; [destruct op; exact I|]. auto. Qed.
Lemma itree_shaped e : iok e -> shaped (itree e).
Proof. apply tree_shaped. intros; exact I. Qed.
Lemma rtree_shaped e : rok e -> shaped (rtree e).
Proof. apply tree_shaped. intros [v|lo hi]; cbn; [auto|]. intros (H1 & H2). split; [exact I|]. split; apply itree_shaped; assumption. Qed.
Lemma dtree_shaped e : dok e -> shaped (dtree e).
Proof. apply tree_shaped. intros [v|lo hi|n s]; cbn; [auto| |]; intros (H1 & H2); (split; [exact I|]); split; (apply itree_shaped || apply rtree_shaped); assumption. Qed.
Lemma rolls_shaped k rs : rs <> [] -> Forall roll_ok rs -> shaped_rolls (map (roll_tree k) rs).
Proof.
  intros Hn H. split; [apply map_ne, Hn|]. clear Hn. induction H as [|[a b] rs (H1 & H2) _ IH]; [exact I|]. cbn [map fold_right]. split; [|exact IH]. split; apply rtree_shaped; assumption.
Qed.
Lemma th_shaped th : th_ok th -> shaped (th_tree th).
Proof. destruct th; [apply itree_shaped|intros; exact I]. Qed.
Lemma command_shaped c : command_ok c -> shaped (command_tree c).
Proof.
  assert (forall b, bonus_ok b -> match bonus_tree b with None => True | Some (Bonus op l r) => (op = OpAdd \/ op = OpSub) /\ l = NInt 0 /\ shaped r end) as HB.
  { intros [[[] e]|] H; [| |exact I]; cbn [bonus_tree]; (split; [tauto|]); (split; [reflexivity|]); apply itree_shaped, H. }
  destruct c as [e|e|e op t|r rs|r rs op t|r rs th|r rs th op t|r rs th b|r rs th b op t|items]; cbn [command_ok command_tree]; intros H.
  - apply itree_shaped, H.
  - apply dtree_shaped, H.
  - destruct H as (H1 & H2 & H3). split; [exact H2|]. split; [apply dtree_shaped, H1|apply itree_shaped, H3].
  - apply (rolls_shaped KB (r :: rs)); [discriminate|exact H].
  - destruct H as (H1 & H2 & H3). split; [exact H2|]. split; [apply (rolls_shaped KB (r :: rs)); [discriminate|exact H1]|apply itree_shaped, H3].
  - destruct H as (H1 & H2). split; [apply (rolls_shaped KR (r :: rs)); [discriminate|exact H1]|apply th_shaped, H2].
  - destruct H as (H1 & H2 & H3 & H4). split; [exact H3|]. split; [|apply itree_shaped, H4]. split; [apply (rolls_shaped KR (r :: rs)); [discriminate|exact H1]|apply th_shaped, H2].
  - destruct H as (H1 & H2 & H3). split; [apply (rolls_shaped KU (r :: rs)); [discriminate|exact H1]|]. split; [apply th_shaped, H2|exact (HB b H3)].
  - destruct H as (H1 & H2 & H3 & H4 & H5). split; [exact H4|]. split; [|apply itree_shaped, H5]. split; [apply (rolls_shaped KU (r :: rs)); [discriminate|exact H1]|]. split; [apply th_shaped, H2|exact (HB b H3)].
  - exact I.
Qed.
