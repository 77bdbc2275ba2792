(** Property C54: S-expressions are unambiguous. *)
From Verif Require Import Grammar ProofBase SpecSyntax ParseSound ParseFacts SExp SexpProofs FileProofs.
Open Scope list_scope.
Open Scope Z_scope.

(** Two commands whose syntax trees have the same S-expression have the same syntax tree, whatever characters count as printable (the table of Go depends on its
    release). *)
Theorem C54_parsed printable a b n m : parse_command a = Ok n -> parse_command b = Ok m -> sexp_with printable n = sexp_with printable m -> n = m.
Proof. intros Ha Hb. apply parse_spelled in Ha as (c & -> & Hc). apply parse_spelled in Hb as (d & -> & Hd). apply sexp_injective; apply command_shaped; assumption. Qed.
Print Assumptions C54_parsed.
Lemma itree_inj (e : iexpr) : forall e', itree e = itree e' -> e = e'.
Proof.
  induction e as [v|e IH|op a IHa b IHb]; intros [v'|e'|op' a' b'] E; try discriminate E; cbn in E.
  - injection E as ->. reflexivity.
  - injection E as E. rewrite (IH _ E). reflexivity.
  - injection E as E1 E2 E3. rewrite (IHa _ E2), (IHb _ E3). assert (op = op') as -> by (destruct op as [| | |[]], op' as [| | |[]]; (reflexivity || discriminate E1)). reflexivity.
Qed.
(** For integer expressions of any kind, parsed or not *)
Theorem C54_integer_expressions (e e' : iexpr) : sexp (itree e) = sexp (itree e') -> e = e'.
Proof.
  assert (forall x : iexpr, shaped (itree x)) as H by (intros x; apply (tree_shaped NInt (fun _ => True)); [intros; exact I|]; induction x; cbn; auto).
  intros E. apply itree_inj. apply (sexp_injective is_print); [apply H|apply H|exact E].
Qed.
Print Assumptions C54_integer_expressions.
(** Items of CHOICE are quoted so that any two lists of texts (of any bytes) are told apart. *)
Theorem C54_choice_items items items' : sexp (NChoice items) = sexp (NChoice items') -> items = items'.
Proof. intros E. assert (NChoice items = NChoice items') as K by (apply (sexp_injective is_print); [exact I|exact I|exact E]). injection K as ->. reflexivity. Qed.
Print Assumptions C54_choice_items.
(** The same S-expression for a nil and for an omitted threshold: the property needs trees of the parser. *)
Example C54_nil : sexp NNull = sexp NNil /\ NNull <> NNil.
Proof. split; [reflexivity|discriminate]. Qed.
Definition sexp_of (s : string) : string := match parse_command s with Ok n => sexp n | _ => "?"%string end.
Example C54_cases : sexp_of "C(1-2/3R)" = "(Calc (- 1 (/R 2 3)))"%string /\ sexp_of "C(-(1-2))" = "(Calc (- (- 1 2)))"%string /\ sexp_of "2u6+1U10[5]-1>=2" = "(URollComp (>= (URollExpr (- (RRollList 5 (URoll 2 6) (URoll 1 10)) 1)) 2))"%string /\
  sexp_of "choice[a,あ\""]" = "(Choice ""a"" ""あ\\\"""")"%string.
Proof. vconj. Qed.

(** ** The text *)
(** S-expressions: atoms, and lists in parentheses separated by single spaces *)
Inductive sx := Atom (s : string) | Parens (l : list sx).
Fixpoint written (x : sx) : string :=
  match x with
  | Atom s => s
  | Parens l => "(" ++ join " " (map written l) ++ ")"
  end%string.
Definition arith_sx (op : arith) : string :=
  match op with Plus => "+" | Minus => "-" | Times => "*" | Over RoundDown => "/" | Over RoundUp => "/U" | Over RoundHalf => "/R" end.
Fixpoint ae_sx {L} (leaf : L -> sx) (e : ae L) : sx :=
  match e with
  | Leaf l => leaf l
  | Neg e => Parens [Atom "-"; ae_sx leaf e]
  | Bin op a b => Parens [Atom (arith_sx op); ae_sx leaf a; ae_sx leaf b]
  end.
Definition int_sx (v : Z) : sx := Atom (itoa v).
Definition i_sx : iexpr -> sx := ae_sx int_sx.
Definition rand_sx (lo hi : iexpr) : sx := Parens [Atom "RandomNumber"; i_sx lo; i_sx hi].
Definition rleaf_sx (l : rleaf) : sx := match l with RInt v => int_sx v | RRand lo hi => rand_sx lo hi end.
Definition r_sx : rexpr -> sx := ae_sx rleaf_sx.
Definition roll_sx (name : string) (r : roll) : sx := Parens [Atom name; r_sx (fst r); r_sx (snd r)].
Definition dleaf_sx (l : dleaf) : sx :=
  match l with DInt v => int_sx v | DRand lo hi => rand_sx lo hi | DDice n s => roll_sx "DRoll" (n, s) end.
Definition d_sx : dexpr -> sx := ae_sx dleaf_sx.
Definition th_sx (th : option iexpr) : sx := match th with None => Atom "nil" | Some e => i_sx e end.
Definition b_list_sx (rolls : list roll) : sx := Parens (Atom "BRollList" :: map (roll_sx "BRoll") rolls).
Definition r_list_sx (name : string) (rolls : list roll) (th : option iexpr) : sx := Parens (Atom "RRollList" :: th_sx th :: map (roll_sx name) rolls).
Definition u_sx (rolls : list roll) (th : option iexpr) (b : option (bool * iexpr)) : sx :=
  Parens [Atom "URollExpr"; match b with
    | None => r_list_sx "URoll" rolls th
    | Some (positive, e) => Parens [Atom (if positive then "+" else "-"); r_list_sx "URoll" rolls th; i_sx e] end].
Definition comparison_sx (name op : string) (left : sx) (t : iexpr) : sx := Parens [Atom name; Parens [Atom op; left; i_sx t]].
Definition command_sx (printable : Z -> bool) (c : command) : sx :=
  match c with
  | Calculation e => Parens [Atom "Calc"; i_sx e]
  | DExpr e => Parens [Atom "DRollExpr"; d_sx e]
  | DComp e op t => comparison_sx "DRollComp" op (d_sx e) t
  | BList r rs => b_list_sx (r :: rs)
  | BComp r rs op t => comparison_sx "BRollComp" op (b_list_sx (r :: rs)) t
  | RList r rs th => r_list_sx "RRoll" (r :: rs) th
  | RComp r rs th op t => comparison_sx "RRollComp" op (r_list_sx "RRoll" (r :: rs) th) t
  | UExpr r rs th b => u_sx (r :: rs) th b
  | UComp r rs th b op t => comparison_sx "URollComp" op (u_sx (r :: rs) th b) t
  | Choose items => Parens (Atom "Choice" :: map (fun s => Atom (quote printable s)) items)
  end.
(** quoting a text of printable ASCII characters other than the quotation mark and the backslash *)
Definition plain_char (a : ascii) : Prop := 32 <= byte_val a <= 126 /\ byte_val a <> 34 /\ byte_val a <> 92.
Lemma join_two s a b : join s [a; b] = (a ++ s ++ b)%string.
Proof. reflexivity. Qed.
Lemma join_three s a b c : join s [a; b; c] = (a ++ s ++ b ++ s ++ c)%string.
Proof. reflexivity. Qed.
Lemma join_cons s a l : l <> [] -> join s (a :: l) = (a ++ s ++ join s l)%string.
Proof. destruct l; [congruence|reflexivity]. Qed.
Lemma written_ae {L} (leaf : L -> node) (leaf_sx : L -> sx) printable : (forall l, sexp_with printable (leaf l) = written (leaf_sx l)) -> forall e, sexp_with printable (tree leaf e) = written (ae_sx leaf_sx e).
Proof.
  intros Hl e. induction e as [l|e IH|op a IHa b IHb]; cbn [tree ae_sx]; [apply Hl| |].
  - cbn [sexp_with written map]. rewrite join_two, IH, !FileProofs.app_assoc_s. reflexivity.
  - cbn [sexp_with written map]. rewrite join_three, IHa, IHb, !FileProofs.app_assoc_s. destruct op as [| | |[]]; reflexivity.
Qed.
Lemma written_i printable e : sexp_with printable (itree e) = written (i_sx e).
Proof. apply written_ae. reflexivity. Qed.
Lemma written_rand printable lo hi : sexp_with printable (NInfix (OpVar KRand) (itree lo) (itree hi)) = written (rand_sx lo hi).
Proof. cbn [sexp_with op_sexp vkind_type]. rewrite !written_i. unfold rand_sx. cbn [written map]. rewrite join_three, !FileProofs.app_assoc_s. reflexivity. Qed.
Lemma written_r printable e : sexp_with printable (rtree e) = written (r_sx e).
Proof. apply written_ae. intros [v|lo hi]; [reflexivity|apply written_rand]. Qed.
Lemma written_roll printable k r :
  match roll_tree k r with VRoll k l r => ("(" ++ vkind_type k ++ " " ++ sexp_with printable l ++ " " ++ sexp_with printable r ++ ")")%string end = written (roll_sx (vkind_type k) r).
Proof. destruct r as (a, b). unfold roll_tree, roll_sx. cbn [fst snd written map]. rewrite !written_r, join_three, !FileProofs.app_assoc_s. reflexivity. Qed.
Lemma written_d printable e : sexp_with printable (dtree e) = written (d_sx e).
Proof.
  apply written_ae. intros [v|lo hi|n s]; [reflexivity|apply written_rand|]. pose proof (written_roll printable KD (n, s)) as H. exact H.
Qed.
Lemma written_th printable th : sexp_with printable (th_tree th) = written (th_sx th).
Proof. destruct th; [apply written_i|reflexivity]. Qed.
Lemma written_rolls printable k rolls : map (fun v => match v with VRoll k l r => ("(" ++ vkind_type k ++ " " ++ sexp_with printable l ++ " " ++ sexp_with printable r ++ ")")%string end) (map (roll_tree k) rolls) =
  map written (map (roll_sx (vkind_type k)) rolls).
Proof. rewrite !map_map. apply map_ext. intros r. apply written_roll. Qed.
Lemma written_b printable r rs : sexp_with printable (NBRollList (map (roll_tree KB) (r :: rs))) = written (b_list_sx (r :: rs)).
Proof. cbn [sexp_with]. rewrite written_rolls. unfold b_list_sx. cbn [written]. rewrite (map_cons written). rewrite join_cons by discriminate. rewrite !FileProofs.app_assoc_s. reflexivity. Qed.
Lemma written_rr printable k r rs th : sexp_with printable (NRRollList (map (roll_tree k) (r :: rs)) (th_tree th)) = written (r_list_sx (vkind_type k) (r :: rs) th).
Proof. cbn [sexp_with]. rewrite written_rolls, written_th. unfold r_list_sx. cbn [written]. rewrite !(map_cons written). rewrite !join_cons by discriminate. rewrite !FileProofs.app_assoc_s. reflexivity. Qed.
Lemma written_u printable r rs th b : sexp_with printable (NURollExpr (map (roll_tree KU) (r :: rs)) (th_tree th) (bonus_tree b)) = written (u_sx (r :: rs) th b).
Proof.
  pose proof (written_rr printable KU r rs th) as H. unfold u_sx. destruct b as [(positive, e)|].
  - assert (bonus_tree (Some (positive, e)) = Some (Bonus (if positive then OpAdd else OpSub) (NInt 0) (itree e))) as -> by (destruct positive; reflexivity).
    cbn [sexp_with] in H |- *. rewrite H, written_i. change "))"%string with (")" ++ ")")%string. cbn [written map]. rewrite join_two, join_three, !FileProofs.app_assoc_s. destruct positive; reflexivity.
  - cbn [bonus_tree]. cbn [sexp_with] in H |- *. rewrite H. cbn [written map]. rewrite join_two, !FileProofs.app_assoc_s. reflexivity.
Qed.
Lemma written_comparison printable t op left x target : sexp_with printable left = written x ->
  sexp_with printable (NCommand t (NInfix (OpCmp op) left (itree target))) = written (comparison_sx (cmd_type t) op x target).
Proof. intros H. cbn [sexp_with op_sexp op_string]. rewrite H, written_i. unfold comparison_sx. cbn [written map]. rewrite join_two, join_three, !FileProofs.app_assoc_s. reflexivity. Qed.
Lemma written_items printable items : items <> [] -> fold_right (fun s acc => " " ++ quote printable s ++ acc)%string ")"%string items = (" " ++ join " " (map (quote printable) items) ++ ")")%string.
Proof.
  induction items as [|s items IH]; intros H; [congruence|]. destruct items as [|s' items]; [reflexivity|]. cbn [fold_right]. cbn [fold_right] in IH. rewrite IH by discriminate. cbn [map]. rewrite (join_cons " " (quote printable s)) by discriminate.
  rewrite !FileProofs.app_assoc_s. reflexivity.
Qed.
(** The S-expression of every command is the stated one. *)
Theorem C54_text printable c : (forall items, c = Choose items -> items <> []) -> sexp_with printable (command_tree c) = written (command_sx printable c).
Proof.
  intros Hne. destruct c as [e|e|e op t|r rs|r rs op t|r rs th|r rs th op t|r rs th b|r rs th b op t|items]; cbn [command_tree command_sx].
  - cbn [sexp_with cmd_type]. rewrite written_i. cbn [written map]. rewrite join_two, !FileProofs.app_assoc_s. reflexivity.
  - cbn [sexp_with cmd_type]. rewrite written_d. cbn [written map]. rewrite join_two, !FileProofs.app_assoc_s. reflexivity.
  - exact (written_comparison printable CDRollComp op _ _ t (written_d printable e)).
  - apply written_b.
  - exact (written_comparison printable CBRollComp op _ _ t (written_b printable r rs)).
  - exact (written_rr printable KR r rs th).
  - exact (written_comparison printable CRRollComp op _ _ t (written_rr printable KR r rs th)).
  - apply written_u.
  - exact (written_comparison printable CURollComp op _ _ t (written_u printable r rs th b)).
  - specialize (Hne items eq_refl). cbn [sexp_with]. rewrite written_items by exact Hne. cbn [written]. rewrite (map_cons written), map_map. cbn [written].
    assert (map (quote printable) items <> []) as K by (destruct items; [congruence|discriminate]). change (map (fun x => quote printable x) items) with (map (quote printable) items). rewrite join_cons by exact K. rewrite !FileProofs.app_assoc_s. reflexivity.
Qed.
Print Assumptions C54_text.
(** Plain texts are quoted as they are. *)
Theorem C54_plain_items s : Forall plain_char (list_ascii_of_string s) -> quote is_print s = ("""" ++ s ++ """")%string.
Proof.
  intros H. unfold quote. f_equal. f_equal. induction s as [|a s IH]; [reflexivity|]. cbn [list_ascii_of_string] in H. inversion H as [|? ? (Ha & H34 & H92) Hs]. subst.
  cbn [decode]. replace (byte_val a <? 128) with true by lia. cbn [quote_chars fold_right]. fold (quote_chars is_print (decode s)). rewrite (IH Hs).
  unfold quote_char. cbn [gc_rune gc_raw]. assert (gc_bad (GoChar (byte_val a) (String a "")) = false) as -> by (unfold gc_bad, rune_error; cbn [gc_rune]; replace (byte_val a =? 65533) with false by lia; reflexivity).
  replace (byte_val a =? 34) with false by lia. replace (byte_val a =? 92) with false by lia. cbn [orb].
  assert (is_print (byte_val a) = true) as ->. { unfold is_print, printable_ranges. cbn [existsb fst snd]. unfold in_range at 1. replace (32 <=? byte_val a) with true by lia. replace (byte_val a <=? 126) with true by lia. reflexivity. }
  reflexivity.
Qed.
Print Assumptions C54_plain_items.
Example C54_text_example : written (command_sx is_print (UComp (Leaf (RInt 2), Leaf (RInt 6)) [(Leaf (RInt 1), Leaf (RRand (Leaf 5) (Leaf 10)))] None (Some (false, Bin (Over RoundUp) (Leaf 1) (Neg (Leaf 2)))) ">=" (Leaf 2)))
  = "(URollComp (>= (URollExpr (- (RRollList nil (URoll 2 6) (URoll 1 (RandomNumber 5 10))) (/U 1 (- 2)))) 2))"%string.
Proof. vm_compute. reflexivity. Qed.
(** In particular for every text the parser accepts *)
Theorem C54_parsed_text printable input n : parse_command input = Ok n -> exists c, n = command_tree c /\ sexp_with printable n = written (command_sx printable c).
Proof.
  intros H. apply parse_spelled in H as (c & -> & Hok). exists c. split; [reflexivity|]. apply C54_text. intros items ->. exact Hok.
Qed.
Print Assumptions C54_parsed_text.
