(** The infix notation of integer expressions as text of the grammar. *)
From Verif Require Import Grammar ProofBase SpecText SpecSyntax SpecGrammar PegProofs GrammarSound PegTotal PegForward ParseSound ParseComplete ParseLang ParseCmd ParseTop DecodeProofs
  ParseFacts NumberText Ast Notation NotationProofs ArithProofs.
Open Scope list_scope.
Open Scope Z_scope.

Definition atext (s : string) : text := map ascii_char (list_ascii_of_string s).
Lemma atext_app a b : atext (a ++ b) = atext a ++ atext b.
Proof. unfold atext. rewrite las_app. apply map_app. Qed.
Lemma digits_sp s : digits s -> sp_number (Z.min (number_value s) max_int) (atext s).
Proof.
  intros (Hn & Hd). split; [destruct s; [contradiction|discriminate]|]. split.
  - unfold atext. rewrite Forall_map. exact Hd.
  - f_equal. unfold number_value, decimal, atext. generalize 0. generalize (list_ascii_of_string s). intros l. induction l as [|a l IH]; intros z; [reflexivity|]. cbn [map fold_left]. rewrite IH. reflexivity.
Qed.
Lemma itoa_sp v : 0 <= v <= max_int -> sp_number v (atext (itoa v)).
Proof.
  intros H. replace v with (Z.min (number_value (itoa v)) max_int) at 1; [apply digits_sp, itoa_digits; lia|]. rewrite itoa_value by lia. lia.
Qed.

(** leaf, negation, product or quotient, sum or difference *)
Inductive kind := KLeaf | KNeg | KMul | KAdd.
Definition op_kind (op : arith) : kind := match op with Plus | Minus => KAdd | _ => KMul end.
Definition kind_of (e : iexpr) : kind := match e with Leaf _ => KLeaf | Neg _ => KNeg | Bin op _ _ => op_kind op end.
Definition nt (e : iexpr) (w : bool) : outcome string := infix_notation (itree e) w.
Definition paren (o : outcome string) : outcome string := s <~ o ;; Ok (parenthesize s).
Definition ltext (op : arith) (a : iexpr) (w : bool) : outcome string :=
  match kind_of a with
  | KNeg => if w then nt a true else paren (nt a false)
  | KAdd => match op_kind op with KMul => paren (nt a true) | _ => nt a w end
  | _ => nt a w
  end.
Definition rtext (op : arith) (b : iexpr) : outcome string :=
  match kind_of b with
  | KNeg => paren (nt b false)
  | KAdd => match op with Plus => nt b false | _ => paren (nt b true) end
  | KMul => match op with Over _ => paren (nt b true) | _ => nt b false end
  | KLeaf => nt b false
  end.
Lemma nt_bin op a b w : nt (Bin op a b) w = (ls <~ ltext op a w ;; rs <~ rtext op b ;; Ok (notation_infix_text (arith_op op) ls rs)).
Proof.
  unfold nt at 1. cbn [itree tree]. change (tree NInt a) with (itree a). change (tree NInt b) with (itree b).
  rewrite notation_arith. unfold infix_text. rewrite itree_not_null.
  assert (match itree a with
      | NNeg lr =>
          if w && op_lassoc (arith_op op)
          then if is_null lr then onil else if is_primary lr then s <~ infix_notation lr w;; Ok ("-" ++ s)%string else s <~ infix_notation lr true;; Ok ("-" ++ parenthesize s)%string
          else paren_child (arith_op op) (itree a) (op_lassoc (arith_op op)) (infix_notation (itree a) true) (infix_notation (itree a) w)
      | _ => paren_child (arith_op op) (itree a) (op_lassoc (arith_op op)) (infix_notation (itree a) true) (infix_notation (itree a) w)
      end = ltext op a w) as ->.
  { unfold ltext, nt. destruct a as [v|a|oa x y].
    - reflexivity.
    - destruct w, op as [| | |m]; reflexivity.
    - destruct op as [| | |m], oa as [| | |ma]; reflexivity. }
  assert (paren_child (arith_op op) (itree b) (op_rassoc (arith_op op)) (infix_notation (itree b) true) (infix_notation (itree b) false) = rtext op b) as ->.
  { unfold rtext, nt. destruct b as [v|b|ob x y].
    - reflexivity.
    - reflexivity.
    - destruct op as [| | |m], ob as [| | |mb]; reflexivity. }
  reflexivity.
Qed.
Lemma nt_neg a w : nt (Neg a) w = match kind_of a with KLeaf => s <~ nt a w ;; Ok ("-" ++ s)%string | _ => s <~ nt a true ;; Ok ("-" ++ parenthesize s)%string end.
Proof. destruct a as [v|a|[| | |m] x y]; reflexivity. Qed.

(** evaluation depends on the values of the operands only *)
Definition mach2 (op : arith) (x y : outcome Z) : outcome Z := a <~ x ;; b <~ y ;; mach_op op a b.
Lemma mach_bin op a b : mach (Bin op a b) = mach2 op (mach a) (mach b).
Proof. reflexivity. Qed.
Ltac assoc := intros; unfold mach2; repeat match goal with x : outcome Z |- _ => destruct x end; cbn [obind mach_op]; try reflexivity;
  rewrite ?wrap64_add_l, ?wrap64_add_r, ?wrap64_sub_l, ?wrap64_sub_r, ?wrap64_mul_l, ?wrap64_mul_r; do 2 f_equal; lia.
Lemma assoc_pp x y z : mach2 Plus (mach2 Plus x y) z = mach2 Plus x (mach2 Plus y z).
Proof. assoc. Qed.
Lemma assoc_pm x y z : mach2 Minus (mach2 Plus x y) z = mach2 Plus x (mach2 Minus y z).
Proof. assoc. Qed.
Lemma assoc_tt x y z : mach2 Times (mach2 Times x y) z = mach2 Times x (mach2 Times y z).
Proof. assoc. Qed.

Lemma safe_bin op a b : safe (Bin op a b) -> safe a /\ safe b /\ (op = Times -> quotient_free b).
Proof. destruct op as [| | |m]; cbn; intros H; repeat split; try tauto; discriminate. Qed.

Definition sp_kind (k : kind) : iexpr -> text -> Prop := match k with KLeaf | KNeg => sp_prim sp_number | KMul => sp_mul sp_number | KAdd => sp_add sp_number end.
Lemma sp_kind_add k e t : sp_kind k e t -> sp_add sp_number e t.
Proof. destruct k; cbn; intros H; repeat first [exact H|apply sp_mul_prim|apply sp_add_mul]. Qed.
Lemma sp_kind_mul k e t : k <> KAdd -> sp_kind k e t -> sp_mul sp_number e t.
Proof. destruct k; cbn; intros Hk H; try contradiction; repeat first [exact H|apply sp_mul_prim]. Qed.
Lemma sp_paren_text e t : sp_add sp_number e (atext t) -> sp_prim sp_number e (atext (parenthesize t)).
Proof.
  intros H. unfold parenthesize. rewrite (atext_app "("), (atext_app t). apply sp_paren; [reflexivity|exact H|reflexivity].
Qed.

(** e and e' have the same notation s, which spells e' *)
Definition RT (e : iexpr) (w : bool) : Prop := exists s e', nt e w = Ok s /\ nt e' w = Ok s /\ ascii_text s /\ kind_of e' = kind_of e /\ sp_kind (kind_of e) e' (atext s) /\ (safe e -> mach e' = mach e).
Definition Rplus (e : iexpr) : Prop := exists rs, rtext Plus e = Ok rs /\ ascii_text rs /\
  forall A t w0, ltext Plus A w0 = Ok t -> sp_add sp_number A (atext t) ->
  exists e', nt e' w0 = Ok (t ++ "+" ++ rs)%string /\ kind_of e' = KAdd /\ sp_add sp_number e' (atext (t ++ "+" ++ rs)) /\ (safe e -> mach e' = mach2 Plus (mach A) (mach e)).
Definition Rtimes (e : iexpr) : Prop := exists rs, rtext Times e = Ok rs /\ ascii_text rs /\
  forall A t w0, ltext Times A w0 = Ok t -> sp_mul sp_number A (atext t) ->
  exists e', nt e' w0 = Ok (t ++ "*" ++ rs)%string /\ kind_of e' = KMul /\ sp_mul sp_number e' (atext (t ++ "*" ++ rs)) /\
    (safe e -> quotient_free e -> mach e' = mach2 Times (mach A) (mach e)).

(** an operand in parentheses or of higher precedence *)
Lemma left_operand op a w : (forall w, RT a w) -> exists s a', ltext op a w = Ok s /\ ltext op a' w = Ok s /\ ascii_text s /\
  match op_kind op with KMul => sp_mul sp_number a' (atext s) | _ => sp_add sp_number a' (atext s) end /\ (safe a -> mach a' = mach a).
Proof.
  intros H. assert (forall w, exists s a', paren (nt a w) = Ok s /\ paren (nt a' w) = Ok s /\ ascii_text s /\ kind_of a' = kind_of a /\ sp_prim sp_number a' (atext s) /\ (safe a -> mach a' = mach a)) as Hp.
  { intros w1. destruct (H w1) as (s & a' & H1 & H2 & H3 & H4 & H5 & H6). exists (parenthesize s), a'. unfold paren. rewrite H1, H2. repeat split; try assumption.
    - unfold parenthesize. apply ascii_app; [repeat constructor|]. apply ascii_app; [exact H3|repeat constructor].
    - apply sp_paren_text. eapply sp_kind_add. exact H5. }
  assert (forall w1, (kind_of a = KAdd -> op_kind op = KAdd) -> exists s a', nt a w1 = Ok s /\ nt a' w1 = Ok s /\ ascii_text s /\ kind_of a' = kind_of a /\
    match op_kind op with KMul => sp_mul sp_number a' (atext s) | _ => sp_add sp_number a' (atext s) end /\ (safe a -> mach a' = mach a)) as Hn.
  { intros w1 Hk. destruct (H w1) as (s & a' & H1 & H2 & H3 & H4 & H5 & H6). exists s, a'. repeat split; try assumption.
    destruct (op_kind op) eqn:Eo; try (eapply sp_kind_add; exact H5). eapply sp_kind_mul; [|exact H5]. intros E. specialize (Hk E). discriminate Hk. }
  assert (forall t a', sp_prim sp_number a' t -> match op_kind op with KMul => sp_mul sp_number a' t | _ => sp_add sp_number a' t end) as Hprim.
  { intros t a' K. destruct (op_kind op); repeat first [exact K|apply sp_mul_prim|apply sp_add_mul]. }
  unfold ltext. destruct (kind_of a) eqn:Ek.
  - destruct (Hn w ltac:(discriminate)) as (s & a' & H1 & H2 & H3 & H4 & H5 & H6). exists s, a'. rewrite H4. repeat split; assumption.
  - destruct w.
    + destruct (Hn true ltac:(discriminate)) as (s & a' & H1 & H2 & H3 & H4 & H5 & H6). exists s, a'. rewrite H4. repeat split; assumption.
    + destruct (Hp false) as (s & a' & H1 & H2 & H3 & H4 & H5 & H6). exists s, a'. rewrite H4. repeat split; try assumption. apply Hprim. exact H5.
  - destruct (Hn w ltac:(discriminate)) as (s & a' & H1 & H2 & H3 & H4 & H5 & H6). exists s, a'. rewrite H4. repeat split; assumption.
  - destruct (op_kind op) eqn:Eo; try (destruct op; discriminate Eo).
    + destruct (Hp true) as (s & a' & H1 & H2 & H3 & H4 & H5 & H6). exists s, a'. rewrite H4. repeat split; try assumption. apply Hprim. exact H5.
    + destruct (Hn w ltac:(reflexivity)) as (s & a' & H1 & H2 & H3 & H4 & H5 & H6). exists s, a'. rewrite H4. repeat split; assumption.
Qed.
(** a right operand that is not merged into the chain *)
Definition merges (op : arith) (b : iexpr) : Prop := op = Plus /\ kind_of b = KAdd \/ op = Times /\ kind_of b = KMul.
Lemma right_operand op b : (forall w, RT b w) -> ~ merges op b -> exists s b', rtext op b = Ok s /\ rtext op b' = Ok s /\ ascii_text s /\ kind_of b' = kind_of b /\
  match op_kind op with KMul => sp_prim sp_number b' (atext s) | _ => sp_mul sp_number b' (atext s) end /\ (safe b -> mach b' = mach b).
Proof.
  intros H Hm. assert (forall w, exists s a', paren (nt b w) = Ok s /\ paren (nt a' w) = Ok s /\ ascii_text s /\ kind_of a' = kind_of b /\ sp_prim sp_number a' (atext s) /\ (safe b -> mach a' = mach b)) as Hp.
  { intros w1. destruct (H w1) as (s & a' & H1 & H2 & H3 & H4 & H5 & H6). exists (parenthesize s), a'. unfold paren. rewrite H1, H2. repeat split; try assumption.
    - unfold parenthesize. apply ascii_app; [repeat constructor|]. apply ascii_app; [exact H3|repeat constructor].
    - apply sp_paren_text. eapply sp_kind_add. exact H5. }
  assert (forall t a', sp_prim sp_number a' t -> match op_kind op with KMul => sp_prim sp_number a' t | _ => sp_mul sp_number a' t end) as Hprim.
  { intros t a' K. destruct (op_kind op); repeat first [exact K|apply sp_mul_prim]. }
  unfold rtext. destruct (kind_of b) eqn:Ek.
  - destruct (H false) as (s & a' & H1 & H2 & H3 & H4 & H5 & H6). exists s, a'. rewrite H4, Ek in *. repeat split; try assumption. apply Hprim. exact H5.
  - destruct (Hp false) as (s & a' & H1 & H2 & H3 & H4 & H5 & H6). exists s, a'. rewrite H4. repeat split; try assumption. apply Hprim. exact H5.
  - destruct op as [| | |m].
    + destruct (H false) as (s & a' & H1 & H2 & H3 & H4 & H5 & H6). exists s, a'. rewrite H4, Ek in *. repeat split; assumption.
    + destruct (H false) as (s & a' & H1 & H2 & H3 & H4 & H5 & H6). exists s, a'. rewrite H4, Ek in *. repeat split; assumption.
    + exfalso. apply Hm. right. split; [reflexivity|exact Ek].
    + destruct (Hp true) as (s & a' & H1 & H2 & H3 & H4 & H5 & H6). exists s, a'. rewrite H4. repeat split; try assumption.
  - destruct op as [| | |m].
    + exfalso. apply Hm. left. split; [reflexivity|exact Ek].
    + destruct (Hp true) as (s & a' & H1 & H2 & H3 & H4 & H5 & H6). exists s, a'. rewrite H4. repeat split; try assumption. apply Hprim. exact H5.
    + destruct (Hp true) as (s & a' & H1 & H2 & H3 & H4 & H5 & H6). exists s, a'. rewrite H4. repeat split; try assumption.
    + destruct (Hp true) as (s & a' & H1 & H2 & H3 & H4 & H5 & H6). exists s, a'. rewrite H4. repeat split; try assumption.
Qed.

(** one operator at the end of a chain *)
Lemma sp_bin op A b t rs :
  match op_kind op with KMul => sp_mul sp_number A (atext t) | _ => sp_add sp_number A (atext t) end ->
  match op_kind op with KMul => sp_prim sp_number b (atext rs) | _ => sp_mul sp_number b (atext rs) end ->
  sp_kind (op_kind op) (Bin op A b) (atext (notation_infix_text (arith_op op) t rs)).
Proof.
  intros H1 H2. destruct op as [| | |[| |]]; cbn [op_kind sp_kind arith_op notation_infix_text op_string rounding_string] in *; rewrite !atext_app.
  - apply sp_sum; [exact H1|reflexivity|exact H2].
  - apply sp_diff; [exact H1|reflexivity|exact H2].
  - apply sp_times; [exact H1|reflexivity|exact H2].
  - change (atext "") with (@nil gochar). rewrite app_nil_r. apply sp_over; [exact H1|reflexivity|exact H2].
  - apply sp_over_half; [exact H1|reflexivity|exact H2|reflexivity].
  - apply sp_over_up; [exact H1|reflexivity|exact H2|reflexivity].
Qed.
Lemma text_ascii op a b : ascii_text a -> ascii_text b -> ascii_text (notation_infix_text (arith_op op) a b).
Proof.
  intros Ha Hb. destruct op as [| | |[| |]]; cbn [arith_op notation_infix_text op_string rounding_string]; repeat apply ascii_app; try assumption; repeat constructor.
Qed.
Lemma ltext_bin op op' A B w t : op_kind op = op_kind op' -> nt (Bin op A B) w = Ok t -> ltext op' (Bin op A B) w = Ok t.
Proof. intros Hk H. unfold ltext. cbn [kind_of]. rewrite Hk. destruct op'; exact H. Qed.
Lemma ltext_kind op e w t : kind_of e = op_kind op -> nt e w = Ok t -> ltext op e w = Ok t.
Proof. intros Hk H. unfold ltext. rewrite Hk. destruct op; exact H. Qed.
Lemma ltext_same op op' e w : op_kind op = op_kind op' -> ltext op e w = ltext op' e w.
Proof. intros H. unfold ltext. rewrite H. reflexivity. Qed.
Lemma ltext_rtext_plus e : ltext Plus e false = rtext Plus e.
Proof. unfold ltext, rtext. destruct (kind_of e); reflexivity. Qed.
Lemma ltext_rtext_times e : ltext Times e false = rtext Times e.
Proof. unfold ltext, rtext. destruct (kind_of e); reflexivity. Qed.

Definition nonneg : iexpr -> Prop := all_leaves (fun v => 0 <= v <= max_int).

Lemma leaf_RT v w : 0 <= v <= max_int -> RT (Leaf v) w.
Proof.
  intros H. exists (itoa v), (Leaf v). cbn. repeat split.
  - apply digits_ascii, itoa_digits. lia.
  - apply sp_leaf, itoa_sp, H.
Qed.
Lemma neg_RT a w : (forall w, RT a w) -> RT (Neg a) w.
Proof.
  intros H. assert (exists s a', match kind_of a with KLeaf => nt a w | _ => paren (nt a true) end = Ok s /\ match kind_of a with KLeaf => nt a' w | _ => paren (nt a' true) end = Ok s /\
    ascii_text s /\ kind_of a' = kind_of a /\ sp_prim sp_number a' (atext s) /\ (safe a -> mach a' = mach a)) as (s & a' & H1 & H2 & H3 & H4 & H5 & H6).
  { assert (exists s a', paren (nt a true) = Ok s /\ paren (nt a' true) = Ok s /\ ascii_text s /\ kind_of a' = kind_of a /\ sp_prim sp_number a' (atext s) /\ (safe a -> mach a' = mach a)) as Hp.
    { destruct (H true) as (s & a' & H1 & H2 & H3 & H4 & H5 & H6). exists (parenthesize s), a'. unfold paren. rewrite H1, H2. repeat split; try assumption.
      - unfold parenthesize. apply ascii_app; [repeat constructor|]. apply ascii_app; [exact H3|repeat constructor].
      - apply sp_paren_text. eapply sp_kind_add. exact H5. }
    destruct (kind_of a) eqn:Ek; try exact Hp. destruct (H w) as (s & a' & H1 & H2 & H3 & H4 & H5 & H6). rewrite Ek in *. exists s, a'. repeat split; assumption. }
  exists (String "-" s), (Neg a'). rewrite !nt_neg, H4. repeat split.
  - destruct (kind_of a); unfold paren in H1; [rewrite H1; reflexivity|destruct (nt a true); try discriminate; cbn in *; congruence..].
  - destruct (kind_of a); unfold paren in H2; [rewrite H2; reflexivity|destruct (nt a' true); try discriminate; cbn in *; congruence..].
  - constructor; [reflexivity|exact H3].
  - cbn [kind_of sp_kind]. change (String "-" s) with ("-" ++ s)%string. rewrite atext_app. apply sp_minus; [reflexivity|exact H5].
  - cbn [safe mach]. intros Hs. rewrite (H6 Hs). reflexivity.
Qed.

Lemma bin_RT op a b w : (forall w, RT a w) -> (forall w, RT b w) -> Rplus b -> Rtimes b -> RT (Bin op a b) w.
Proof.
  intros Ha Hb Hp Ht. destruct (left_operand op a w Ha) as (ls & a' & L1 & L2 & L3 & L4 & L5).
  assert (merges op b \/ ~ merges op b) as [Hm|Hm].
  { unfold merges. destruct op, (kind_of b); first [right; intros [(? & ?)|(? & ?)]; discriminate|left; tauto]. }
  - destruct Hm as [(-> & Hk)|(-> & Hk)].
    + destruct Hp as (rs & R1 & R2 & R3). destruct (R3 a' ls w L2 L4) as (e' & E1 & E2 & E3 & E4).
      exists (ls ++ "+" ++ rs)%string, e'. rewrite nt_bin, L1, R1. repeat split; try assumption.
      * apply ascii_app; [exact L3|]. apply ascii_app; [repeat constructor|exact R2].
      * intros Hs. apply safe_bin in Hs as (S1 & S2 & _). rewrite (E4 S2), mach_bin, (L5 S1). reflexivity.
    + destruct Ht as (rs & R1 & R2 & R3). destruct (R3 a' ls w L2 L4) as (e' & E1 & E2 & E3 & E4).
      exists (ls ++ "*" ++ rs)%string, e'. rewrite nt_bin, L1, R1. repeat split; try assumption.
      * apply ascii_app; [exact L3|]. apply ascii_app; [repeat constructor|exact R2].
      * intros Hs. apply safe_bin in Hs as (S1 & S2 & S3). rewrite (E4 S2 (S3 eq_refl)), mach_bin, (L5 S1). reflexivity.
  - destruct (right_operand op b Hb Hm) as (rs & b' & R1 & R2 & R3 & R4 & R5 & R6).
    exists (notation_infix_text (arith_op op) ls rs), (Bin op a' b'). rewrite !nt_bin, L1, L2, R1, R2. repeat split.
    + apply text_ascii; assumption.
    + apply sp_bin; assumption.
    + intros Hs. apply safe_bin in Hs as (S1 & S2 & _). rewrite !mach_bin, (L5 S1), (R6 S2). reflexivity.
Qed.
Lemma sp_add_bin (op : arith) A b t rs : op_kind op = KAdd -> sp_add sp_number A (atext t) -> sp_mul sp_number b (atext rs) -> sp_add sp_number (Bin op A b) (atext (notation_infix_text (arith_op op) t rs)).
Proof. intros Hk H1 H2. pose proof (sp_bin op A b t rs) as H. rewrite Hk in H. apply H; assumption. Qed.
Lemma sp_mul_bin (op : arith) A b t rs : op_kind op = KMul -> sp_mul sp_number A (atext t) -> sp_prim sp_number b (atext rs) -> sp_mul sp_number (Bin op A b) (atext (notation_infix_text (arith_op op) t rs)).
Proof. intros Hk H1 H2. pose proof (sp_bin op A b t rs) as H. rewrite Hk in H. apply H; assumption. Qed.
(** not merging *)
Lemma simple_Rplus e : (forall w, RT e w) -> kind_of e <> KAdd -> Rplus e.
Proof.
  intros H Hk. destruct (right_operand Plus e H) as (rs & b' & R1 & R2 & R3 & R4 & R5 & R6); [intros [(_ & E)|(E & _)]; [contradiction|discriminate]|].
  exists rs. split; [exact R1|]. split; [exact R3|]. intros A t w0 H1 H2. exists (Bin Plus A b'). rewrite nt_bin, H1, R2. repeat split.
  - apply (sp_add_bin Plus); [reflexivity|assumption..].
  - intros Hs. rewrite mach_bin, (R6 Hs). reflexivity.
Qed.
Lemma simple_Rtimes e : (forall w, RT e w) -> kind_of e <> KMul -> Rtimes e.
Proof.
  intros H Hk. destruct (right_operand Times e H) as (rs & b' & R1 & R2 & R3 & R4 & R5 & R6); [intros [(E & _)|(_ & E)]; [discriminate|contradiction]|].
  exists rs. split; [exact R1|]. split; [exact R3|]. intros A t w0 H1 H2. exists (Bin Times A b'). rewrite nt_bin, H1, R2. repeat split.
  - apply (sp_mul_bin Times); [reflexivity|assumption..].
  - intros Hs _. rewrite mach_bin, (R6 Hs). reflexivity.
Qed.
Lemma append_assoc3 (a b c : string) : ((a ++ b) ++ c)%string = (a ++ (b ++ c))%string.
Proof. induction a as [|x a IH]; [reflexivity|]. cbn. f_equal. exact IH. Qed.
Lemma merged_Rplus op a b : op_kind op = KAdd -> (forall w, RT b w) -> Rplus a -> Rplus b -> Rplus (Bin op a b).
Proof.
  intros Hk Hb (ra & A1 & A2 & A3) (rb & B1 & B2 & B3). destruct op as [| | |m]; try discriminate Hk.
  - exists (ra ++ "+" ++ rb)%string. split; [|split].
    + change (rtext Plus (Bin Plus a b)) with (nt (Bin Plus a b) false). rewrite nt_bin, ltext_rtext_plus, A1, B1. reflexivity.
    + apply ascii_app; [exact A2|]. apply ascii_app; [repeat constructor|exact B2].
    + intros A t w0 H1 H2. destruct (A3 A t w0 H1 H2) as (E & E1 & E2 & E3 & E4).
      destruct (B3 E (t ++ "+" ++ ra)%string w0 (ltext_kind Plus E w0 _ E2 E1) E3) as (F & F1 & F2 & F3 & F4).
      exists F. rewrite !append_assoc3 in F1, F3. repeat split; try assumption.
      intros (S1 & S2). rewrite (F4 S2), (E4 S1), mach_bin. apply assoc_pp.
  - destruct (right_operand Minus b Hb) as (rs & b' & R1 & R2 & R3 & R4 & R5 & R6); [intros [(E & _)|(E & _)]; discriminate|].
    exists (ra ++ "-" ++ rs)%string. split; [|split].
    + change (rtext Plus (Bin Minus a b)) with (nt (Bin Minus a b) false). rewrite nt_bin, (ltext_same Minus Plus) by reflexivity. rewrite ltext_rtext_plus, A1, R1. reflexivity.
    + apply ascii_app; [exact A2|]. apply ascii_app; [repeat constructor|exact R3].
    + intros A t w0 H1 H2. destruct (A3 A t w0 H1 H2) as (E & E1 & E2 & E3 & E4).
      exists (Bin Minus E b'). rewrite nt_bin, (ltext_kind Minus E w0 _ E2 E1), R2. cbn [obind arith_op notation_infix_text op_string]. rewrite !append_assoc3. repeat split.
      * pose proof (sp_add_bin Minus E b' _ rs eq_refl E3 R5) as K. cbn [arith_op notation_infix_text op_string] in K. rewrite !append_assoc3 in K. exact K.
      * intros (S1 & S2). rewrite mach_bin, (E4 S1), (R6 S2), mach_bin. apply assoc_pm.
Qed.
Lemma merged_Rtimes op a b : op_kind op = KMul -> (forall w, RT b w) -> Rtimes a -> Rtimes b -> Rtimes (Bin op a b).
Proof.
  intros Hk Hb (ra & A1 & A2 & A3) (rb & B1 & B2 & B3). destruct op as [| | |m]; try discriminate Hk.
  - exists (ra ++ "*" ++ rb)%string. split; [|split].
    + change (rtext Times (Bin Times a b)) with (nt (Bin Times a b) false). rewrite nt_bin, ltext_rtext_times, A1, B1. reflexivity.
    + apply ascii_app; [exact A2|]. apply ascii_app; [repeat constructor|exact B2].
    + intros A t w0 H1 H2. destruct (A3 A t w0 H1 H2) as (E & E1 & E2 & E3 & E4).
      destruct (B3 E (t ++ "*" ++ ra)%string w0 (ltext_kind Times E w0 _ E2 E1) E3) as (F & F1 & F2 & F3 & F4).
      exists F. rewrite !append_assoc3 in F1, F3. repeat split; try assumption.
      intros (S1 & S2 & S3) (Q1 & Q2). rewrite (F4 S2 Q2), (E4 S1 Q1), mach_bin. apply assoc_tt.
  - destruct (right_operand (Over m) b Hb) as (rs & b' & R1 & R2 & R3 & R4 & R5 & R6); [intros [(E & _)|(E & _)]; discriminate|].
    exists (notation_infix_text (arith_op (Over m)) ra rs)%string. split; [|split].
    + change (rtext Times (Bin (Over m) a b)) with (nt (Bin (Over m) a b) false). rewrite nt_bin, (ltext_same (Over m) Times) by reflexivity. rewrite ltext_rtext_times, A1, R1. reflexivity.
    + apply text_ascii; assumption.
    + intros A t w0 H1 H2. destruct (A3 A t w0 H1 H2) as (E & E1 & E2 & E3 & E4).
      exists (Bin (Over m) E b'). rewrite nt_bin, (ltext_kind (Over m) E w0 _ E2 E1), R2. cbn [obind arith_op notation_infix_text]. rewrite !append_assoc3. repeat split.
      * pose proof (sp_mul_bin (Over m) E b' _ rs eq_refl E3 R5) as K. cbn [arith_op notation_infix_text] in K. rewrite !append_assoc3 in K. exact K.
      * intros _ [].
Qed.

Theorem notation_spells e : nonneg e -> (forall w, RT e w) /\ Rplus e /\ Rtimes e.
Proof.
  induction e as [v|a IH|op a IHa b IHb]; intros H.
  - assert (forall w, RT (Leaf v) w) as K by (intros; apply leaf_RT; exact H). split; [exact K|]. split; [apply simple_Rplus|apply simple_Rtimes]; try exact K; discriminate.
  - destruct (IH H) as (K1 & _). assert (forall w, RT (Neg a) w) as K by (intros; apply neg_RT; exact K1). split; [exact K|]. split; [apply simple_Rplus|apply simple_Rtimes]; try exact K; discriminate.
  - destruct H as (Ha & Hb). destruct (IHa Ha) as (A1 & A2 & A3). destruct (IHb Hb) as (B1 & B2 & B3).
    assert (forall w, RT (Bin op a b) w) as K by (intros; apply bin_RT; assumption). split; [exact K|]. split.
    + destruct (op_kind op) eqn:E; try (apply simple_Rplus; [exact K|cbn [kind_of]; congruence]). apply merged_Rplus; assumption.
    + destruct (op_kind op) eqn:E; try (apply simple_Rtimes; [exact K|cbn [kind_of]; congruence]). apply merged_Rtimes; assumption.
Qed.
