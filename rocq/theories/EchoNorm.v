(** Regrouping an expression to the left, as reading its notation does. *)
From Verif Require Import Grammar ProofBase SpecText SpecSyntax SpecGrammar ArithProofs SpecRoll SpecLists SpecMessage ParseComplete NumberText NotationText.
Open Scope list_scope.
Open Scope Z_scope.

Section Norm.
  Context {L : Type}.
  (** the regrouped expression; A + e and A * e with the parts of e joined to A one by one *)
  Fixpoint norm3 (e : ae L) : ae L * (ae L -> ae L) * (ae L -> ae L) :=
    match e with
    | Leaf l => (Leaf l, fun A => Bin Plus A (Leaf l), fun A => Bin Times A (Leaf l))
    | Neg x => let n := Neg (fst (fst (norm3 x))) in (n, fun A => Bin Plus A n, fun A => Bin Times A n)
    | Bin op a b =>
        let n := match op with
                 | Plus => snd (fst (norm3 b)) (fst (fst (norm3 a)))
                 | Times => snd (norm3 b) (fst (fst (norm3 a)))
                 | _ => Bin op (fst (fst (norm3 a))) (fst (fst (norm3 b)))
                 end in
        (n,
         fun A => match op with
                  | Plus => snd (fst (norm3 b)) (snd (fst (norm3 a)) A)
                  | Minus => Bin Minus (snd (fst (norm3 a)) A) (fst (fst (norm3 b)))
                  | _ => Bin Plus A n
                  end,
         fun A => match op with
                  | Times => snd (norm3 b) (snd (norm3 a) A)
                  | Over m => Bin (Over m) (snd (norm3 a) A) (fst (fst (norm3 b)))
                  | _ => Bin Times A n
                  end)
    end.
  Definition norm (e : ae L) : ae L := fst (fst (norm3 e)).
  Definition plus (e A : ae L) : ae L := snd (fst (norm3 e)) A.
  Definition times (e A : ae L) : ae L := snd (norm3 e) A.
  Lemma norm_leaf l : norm (Leaf l) = Leaf l. Proof. reflexivity. Qed.
  Lemma norm_neg e : norm (Neg e) = Neg (norm e). Proof. reflexivity. Qed.
  Lemma norm_bin op a b : norm (Bin op a b) = match op with Plus => plus b (norm a) | Times => times b (norm a) | _ => Bin op (norm a) (norm b) end.
  Proof. reflexivity. Qed.
  Lemma plus_bin op a b A : plus (Bin op a b) A = match op with Plus => plus b (plus a A) | Minus => Bin Minus (plus a A) (norm b) | _ => Bin Plus A (norm (Bin op a b)) end.
  Proof. reflexivity. Qed.
  Lemma times_bin op a b A : times (Bin op a b) A = match op with Times => times b (times a A) | Over m => Bin (Over m) (times a A) (norm b) | _ => Bin Times A (norm (Bin op a b)) end.
  Proof. reflexivity. Qed.
  Lemma plus_neg e A : plus (Neg e) A = Bin Plus A (norm (Neg e)). Proof. reflexivity. Qed.
  Lemma times_neg e A : times (Neg e) A = Bin Times A (norm (Neg e)). Proof. reflexivity. Qed.
  Lemma plus_leaf l A : plus (Leaf l) A = Bin Plus A (Leaf l). Proof. reflexivity. Qed.
  Lemma times_leaf l A : times (Leaf l) A = Bin Times A (Leaf l). Proof. reflexivity. Qed.

  (** what is at the top: a leaf, a negation, a product or quotient, a sum or difference *)
  Definition top (e : ae L) : kind := match e with Leaf _ => KLeaf | Neg _ => KNeg | Bin op _ _ => op_kind op end.
  Lemma top_norm e : top (norm e) = top e /\ (forall A, top (plus e A) = KAdd) /\ (forall A, top (times e A) = KMul).
  Proof.
    induction e as [l|e IH|op a IHa b IHb]; [repeat split|repeat split|]. destruct IHa as (A1 & A2 & A3), IHb as (B1 & B2 & B3).
    rewrite norm_bin. split; [destruct op; [apply B2|reflexivity|apply B3|reflexivity]|]. split; intros A; [rewrite plus_bin|rewrite times_bin]; destruct op; auto; reflexivity.
  Qed.

  (** ** Notation *)
  Variable word : L -> string.
  Definition lt (op : arith) (a : ae L) (first : bool) : string :=
    match top a with
    | KNeg => if first then show word first a else in_parens (show word first a)
    | KAdd => match op_kind op with KMul => in_parens (show word true a) | _ => show word first a end
    | _ => show word first a
    end.
  Definition rt (op : arith) (b : ae L) : string :=
    match top b with
    | KNeg => in_parens (show word false b)
    | KAdd => match op with Plus => show word false b | _ => in_parens (show word true b) end
    | KMul => match op with Over _ => in_parens (show word true b) | _ => show word false b end
    | KLeaf => show word false b
    end.
  Lemma show_bin op a b f : show word f (Bin op a b) = put op (lt op a f) (rt op b).
  Proof.
    cbn [show]. f_equal; [unfold lt|unfold rt].
    - destruct a as [l|a|o x y]; [reflexivity|reflexivity|]. destruct op, o; reflexivity.
    - destruct b as [l|b|o x y]; [reflexivity|reflexivity|]. destruct op, o; reflexivity.
  Qed.
  Lemma show_neg e f : show word f (Neg e) = ("-" ++ match top e with KLeaf => show word true e | _ => in_parens (show word true e) end)%string.
  Proof. destruct e as [l|e|[| | |m] a b]; reflexivity. Qed.
  Lemma lt_add e f : top e = KAdd -> lt Plus e f = show word f e /\ lt Minus e f = show word f e.
  Proof. unfold lt. intros ->. split; reflexivity. Qed.
  Lemma lt_mul e f m : top e = KMul -> lt Times e f = show word f e /\ lt (Over m) e f = show word f e.
  Proof. unfold lt. intros ->. split; reflexivity. Qed.
  Lemma lt_rt_plus e : lt Plus e false = rt Plus e.
  Proof. unfold lt, rt. destruct (top e); reflexivity. Qed.
  Lemma lt_rt_times e : lt Times e false = rt Times e.
  Proof. unfold lt, rt. destruct (top e); reflexivity. Qed.
  Lemma lt_minus e f : lt Minus e f = lt Plus e f. Proof. reflexivity. Qed.
  Lemma lt_over m e f : lt (Over m) e f = lt Times e f. Proof. reflexivity. Qed.
  Lemma put_assoc op a b c : (forall m, op <> Over m) -> put op (put Plus a b) c = put Plus a (put op b c) /\ put op (put Times a b) c = put Times a (put op b c).
  Proof. intros H. destruct op as [| | |m]; cbn [put]; rewrite ?append_assoc3; try (split; reflexivity). exfalso. apply (H m). reflexivity. Qed.
  Lemma put_over m a b c : put (Over m) (put Times a b) c = put Times a (put (Over m) b c).
  Proof. destruct m; cbn [put]; rewrite !append_assoc3; reflexivity. Qed.
  Lemma show_norm e : (forall f, show word f (norm e) = show word f e) /\ (forall A f, show word f (plus e A) = put Plus (lt Plus A f) (rt Plus e)) /\
    (forall A f, show word f (times e A) = put Times (lt Times A f) (rt Times e)).
  Proof.
    assert (forall e op f, (forall f, show word f (norm e) = show word f e) -> lt op (norm e) f = lt op e f /\ rt op (norm e) = rt op e) as Hlr.
    { intros x op f H. unfold lt, rt. destruct (top_norm x) as (-> & _). rewrite !H. split; reflexivity. }
    induction e as [l|e IH|op a IHa b IHb].
    - split; [reflexivity|]. split; intros A f; [rewrite plus_leaf|rewrite times_leaf]; rewrite show_bin; reflexivity.
    - destruct IH as (IH & _). assert (forall f, show word f (norm (Neg e)) = show word f (Neg e)) as Hn.
      { intros f. rewrite norm_neg, !show_neg. destruct (top_norm e) as (-> & _). rewrite IH. reflexivity. }
      split; [exact Hn|]. split; intros A f; [rewrite plus_neg|rewrite times_neg]; rewrite show_bin; destruct (Hlr (Neg e) Plus f Hn) as (_ & H1), (Hlr (Neg e) Times f Hn) as (_ & H2); rewrite ?H1, ?H2; reflexivity.
    - destruct IHa as (A1 & A2 & A3), IHb as (B1 & B2 & B3).
      assert (forall f, show word f (norm (Bin op a b)) = show word f (Bin op a b)) as Hn.
      { intros f. rewrite norm_bin, (show_bin op a b). destruct (Hlr a op f A1) as (L1 & _), (Hlr b op f B1) as (_ & R1).
        destruct op; [rewrite B2, L1; reflexivity|rewrite show_bin, L1, R1; reflexivity|rewrite B3, L1; reflexivity|rewrite show_bin, L1, R1; reflexivity]. }
      split; [exact Hn|]. split; intros A f.
      + rewrite plus_bin. destruct (Hlr (Bin op a b) Plus f Hn) as (_ & R). destruct op as [| | |m]; try (rewrite show_bin, R; reflexivity).
        * rewrite B2. destruct (lt_add (plus a A) f) as (-> & _); [apply top_norm|]. rewrite A2. unfold rt at 3. cbn [top op_kind]. rewrite show_bin, lt_rt_plus. apply put_assoc. discriminate.
        * rewrite show_bin. destruct (lt_add (plus a A) f) as (_ & ->); [apply top_norm|]. rewrite A2. destruct (Hlr b Minus f B1) as (_ & ->). unfold rt at 3. cbn [top op_kind]. rewrite show_bin, lt_minus, lt_rt_plus.
          apply put_assoc. discriminate.
      + rewrite times_bin. destruct (Hlr (Bin op a b) Times f Hn) as (_ & R). destruct op as [| | |m]; try (rewrite show_bin, R; reflexivity).
        * rewrite B3. destruct (lt_mul (times a A) f RoundDown) as (-> & _); [apply top_norm|]. rewrite A3. unfold rt at 3. cbn [top op_kind]. rewrite show_bin, lt_rt_times. apply put_assoc. discriminate.
        * rewrite show_bin. destruct (lt_mul (times a A) f m) as (_ & ->); [apply top_norm|]. rewrite A3. destruct (Hlr b (Over m) f B1) as (_ & ->). unfold rt at 3. cbn [top op_kind].
          rewrite show_bin, lt_over, lt_rt_times. apply put_over.
  Qed.

  (** ** Reading the notation gives the regrouped expression. *)
  Variable leaf : L -> text -> Prop.
  Definition spelled_leaves (e : ae L) : Prop := all_leaves (fun l => leaf l (atext (word l)) /\ ascii_text (word l)) e.
  Definition sp_top (k : kind) : ae L -> text -> Prop := match k with KLeaf | KNeg => sp_prim leaf | KMul => sp_mul leaf | KAdd => sp_add leaf end.
  Lemma sp_top_add k e t : sp_top k e t -> sp_add leaf e t.
  Proof. destruct k; cbn; intros H; repeat first [exact H|apply sp_mul_prim|apply sp_add_mul]. Qed.
  Lemma sp_top_mul k e t : k <> KAdd -> sp_top k e t -> sp_mul leaf e t.
  Proof. destruct k; cbn; intros Hk H; try contradiction; repeat first [exact H|apply sp_mul_prim]. Qed.
  Lemma sp_in_parens e s : sp_add leaf e (atext s) -> sp_prim leaf e (atext (in_parens s)).
  Proof. intros H. unfold in_parens. rewrite (atext_app "("), (atext_app s). apply sp_paren; [reflexivity|exact H|reflexivity]. Qed.
  Lemma sp_put_add op A b s t : op_kind op = KAdd -> sp_add leaf A (atext s) -> sp_mul leaf b (atext t) -> sp_add leaf (Bin op A b) (atext (put op s t)).
  Proof.
    intros Ho H1 H2. destruct op; try discriminate Ho; cbn [put]; rewrite atext_app; [rewrite (atext_app "+")|rewrite (atext_app "-")]; constructor; try assumption; reflexivity.
  Qed.
  Lemma sp_put_mul op A b s t : op_kind op = KMul -> sp_mul leaf A (atext s) -> sp_prim leaf b (atext t) -> sp_mul leaf (Bin op A b) (atext (put op s t)).
  Proof.
    intros Ho H1 H2. destruct op as [| | |[]]; try discriminate Ho; cbn [put]; rewrite !atext_app; constructor; try assumption; reflexivity.
  Qed.
  Definition reads_as (e : ae L) : Prop := forall f, sp_top (top e) (norm e) (atext (show word f e)).
  Lemma sp_lt op e f : (forall f, sp_top (top e) e (atext (show word f e))) -> match op_kind op with KMul => sp_mul leaf e (atext (lt op e f)) | _ => sp_add leaf e (atext (lt op e f)) end.
  Proof.
    intros H. unfold lt. assert (forall s, sp_prim leaf e (atext s) -> match op_kind op with KMul => sp_mul leaf e (atext s) | _ => sp_add leaf e (atext s) end) as Hp.
    { intros s K. destruct (op_kind op); repeat first [exact K|apply sp_mul_prim|apply sp_add_mul]. }
    destruct (top e) eqn:Et; cbn [sp_top] in H.
    - apply Hp, H.
    - destruct f; [apply Hp, H|]. apply Hp, sp_in_parens. apply (sp_top_add KNeg), H.
    - destruct (op_kind op); [apply sp_add_mul, H|apply sp_add_mul, H|apply H|apply sp_add_mul, H].
    - destruct (op_kind op); [apply H|apply H|apply sp_mul_prim, sp_in_parens, H|apply H].
  Qed.
  Lemma sp_rt op b : (forall f, sp_top (top b) b (atext (show word f b))) -> (op = Plus -> top b <> KAdd) -> (op = Times -> top b <> KMul) ->
    match op_kind op with KMul => sp_prim leaf b (atext (rt op b)) | _ => sp_mul leaf b (atext (rt op b)) end.
  Proof.
    intros H Hp Ht. unfold rt. assert (forall s, sp_prim leaf b (atext s) -> match op_kind op with KMul => sp_prim leaf b (atext s) | _ => sp_mul leaf b (atext s) end) as Hq.
    { intros s K. destruct (op_kind op); repeat first [exact K|apply sp_mul_prim]. }
    destruct (top b) eqn:Et; cbn [sp_top] in H.
    - apply Hq, H.
    - apply Hq, sp_in_parens, (sp_top_add KNeg), H.
    - destruct op; [apply H|apply H|exfalso; apply Ht; reflexivity|apply Hq, sp_in_parens, (sp_top_add KMul), H].
    - destruct op; [exfalso; apply Hp; reflexivity|apply Hq, sp_in_parens, H|apply Hq, sp_in_parens, H|apply Hq, sp_in_parens, H].
  Qed.
  Lemma norm_spelled e : spelled_leaves e -> (forall f, sp_top (top e) (norm e) (atext (show word f e))) /\
    (forall A f, sp_add leaf A (atext (lt Plus A f)) -> sp_add leaf (plus e A) (atext (show word f (plus e A)))) /\
    (forall A f, sp_mul leaf A (atext (lt Times A f)) -> sp_mul leaf (times e A) (atext (show word f (times e A)))).
  Proof.
    assert (forall e, (forall f, sp_top (top e) (norm e) (atext (show word f e))) -> forall f, sp_top (top (norm e)) (norm e) (atext (show word f (norm e)))) as Hself.
    { intros x H f. destruct (top_norm x) as (-> & _), (show_norm x) as (-> & _). apply H. }
    assert (forall e A f, (forall f, sp_top (top e) (norm e) (atext (show word f e))) -> top e <> KAdd ->
      sp_add leaf A (atext (lt Plus A f)) -> sp_add leaf (Bin Plus A (norm e)) (atext (show word f (Bin Plus A (norm e))))) as Hadd.
    { intros x A f H Hk HA. rewrite show_bin. apply sp_put_add; [reflexivity|exact HA|]. apply (sp_rt Plus); [apply Hself, H|intros _; destruct (top_norm x) as (-> & _); exact Hk|discriminate]. }
    assert (forall e A f, (forall f, sp_top (top e) (norm e) (atext (show word f e))) -> top e <> KMul ->
      sp_mul leaf A (atext (lt Times A f)) -> sp_mul leaf (Bin Times A (norm e)) (atext (show word f (Bin Times A (norm e))))) as Hmul.
    { intros x A f H Hk HA. rewrite show_bin. apply sp_put_mul; [reflexivity|exact HA|]. apply (sp_rt Times); [apply Hself, H|discriminate|intros _; destruct (top_norm x) as (-> & _); exact Hk]. }
    unfold spelled_leaves. induction e as [l|e IH|op a IHa b IHb]; intros Hl; cbn [all_leaves] in Hl.
    - assert (forall f, sp_top (top (Leaf l)) (norm (Leaf l)) (atext (show word f (Leaf l)))) as H by (intros f; constructor; apply Hl).
      split; [exact H|]. split; intros A f HA; [apply (Hadd (Leaf l)); [exact H|discriminate|exact HA]|apply (Hmul (Leaf l)); [exact H|discriminate|exact HA]].
    - destruct (IH Hl) as (H1 & _). assert (forall f, sp_top (top (Neg e)) (norm (Neg e)) (atext (show word f (Neg e)))) as H.
      { intros f. cbn [top sp_top]. rewrite norm_neg, show_neg, atext_app. apply sp_minus; [reflexivity|]. destruct (top e) eqn:Et; cbn [sp_top] in H1.
        - apply H1.
        - apply sp_in_parens, (sp_top_add KNeg), H1.
        - apply sp_in_parens, (sp_top_add KMul), H1.
        - apply sp_in_parens, H1. }
      split; [exact H|]. split; intros A f HA; [apply (Hadd (Neg e)); [exact H|discriminate|exact HA]|apply (Hmul (Neg e)); [exact H|discriminate|exact HA]].
    - destruct Hl as (Hla & Hlb). destruct (IHa Hla) as (A1 & A2 & A3), (IHb Hlb) as (B1 & B2 & B3).
      assert (forall f, sp_top (op_kind op) (norm (Bin op a b)) (atext (show word f (Bin op a b)))) as H.
      { intros f. destruct (show_norm (Bin op a b)) as (<- & _). rewrite norm_bin. pose proof (sp_lt op (norm a) f (Hself a A1)) as HL.
        destruct op as [| | |m]; cbn [op_kind sp_top] in *.
        - apply B2, HL.
        - rewrite show_bin. apply sp_put_add; [reflexivity|exact HL|]. apply (sp_rt Minus); [apply Hself, B1|discriminate|discriminate].
        - apply B3, HL.
        - rewrite show_bin. apply sp_put_mul; [reflexivity|exact HL|]. apply (sp_rt (Over m)); [apply Hself, B1|discriminate|discriminate]. }
      split; [exact H|]. split; intros A f HA.
      + rewrite plus_bin. destruct op as [| | |m].
        * apply B2. destruct (lt_add (plus a A) f) as (-> & _); [apply top_norm|]. apply A2, HA.
        * rewrite show_bin. apply sp_put_add; [reflexivity| |].
          -- destruct (lt_add (plus a A) f) as (_ & ->); [apply top_norm|]. apply A2, HA.
          -- apply (sp_rt Minus); [apply Hself, B1|discriminate|discriminate].
        * apply Hadd; [exact H|discriminate|exact HA].
        * apply Hadd; [exact H|discriminate|exact HA].
      + rewrite times_bin. destruct op as [| | |m].
        * apply Hmul; [exact H|discriminate|exact HA].
        * apply Hmul; [exact H|discriminate|exact HA].
        * apply B3. destruct (lt_mul (times a A) f RoundDown) as (-> & _); [apply top_norm|]. apply A3, HA.
        * rewrite show_bin. apply sp_put_mul; [reflexivity| |].
          -- destruct (lt_mul (times a A) f m) as (_ & ->); [apply top_norm|]. apply A3, HA.
          -- apply (sp_rt (Over m)); [apply Hself, B1|discriminate|discriminate].
  Qed.
  Lemma show_ascii e f : spelled_leaves e -> ascii_text (show word f e).
  Proof.
    assert (forall s, ascii_text s -> ascii_text (in_parens s)) as Hp by (intros s H; unfold in_parens; apply ascii_app; [repeat constructor|apply ascii_app; [exact H|repeat constructor]]).
    assert (forall op s t, ascii_text s -> ascii_text t -> ascii_text (put op s t)) as Hq.
    { intros op s t H1 H2. destruct op as [| | |[]]; cbn [put]; repeat (apply ascii_app; [first [assumption|repeat constructor]|]); first [assumption|repeat constructor]. }
    unfold spelled_leaves. revert f. induction e as [l|e IH|op a IHa b IHb]; intros f Hl; cbn [all_leaves] in Hl.
    - apply Hl.
    - rewrite show_neg. apply ascii_app; [repeat constructor|]. destruct (top e); [|apply Hp|apply Hp|apply Hp]; apply IH, Hl.
    - rewrite show_bin. destruct Hl as (H1 & H2). apply Hq; [unfold lt|unfold rt].
      + destruct (top a), (op_kind op), f; first [apply IHa, H1|apply Hp, IHa, H1].
      + destruct (top b), op; first [apply IHb, H2|apply Hp, IHb, H2].
  Qed.
End Norm.

(** ** Maps and visits *)
Lemma map_norm {L M} (g : L -> M) e : ae_map g (norm e) = norm (ae_map g e) /\ (forall A, ae_map g (plus e A) = plus (ae_map g e) (ae_map g A)) /\ (forall A, ae_map g (times e A) = times (ae_map g e) (ae_map g A)).
Proof.
  induction e as [l|e IH|op a IHa b IHb].
  - repeat split.
  - destruct IH as (IH & _). cbn [ae_map]. rewrite !norm_neg. cbn [ae_map]. rewrite IH. repeat split; intros A; rewrite ?plus_neg, ?times_neg, norm_neg; cbn [ae_map]; rewrite IH; reflexivity.
  - destruct IHa as (A1 & A2 & A3), IHb as (B1 & B2 & B3). cbn [ae_map].
    assert (ae_map g (norm (Bin op a b)) = norm (Bin op (ae_map g a) (ae_map g b))) as H.
    { rewrite !norm_bin. destruct op; cbn [ae_map]; [rewrite B2, A1|rewrite A1, B1|rewrite B3, A1|rewrite A1, B1]; reflexivity. }
    split; [exact H|]. split; intros A; [rewrite !plus_bin|rewrite !times_bin]; destruct op; cbn [ae_map]; rewrite ?H, ?B2, ?B3, ?A2, ?A3, ?B1; reflexivity.
Qed.
Lemma visit_norm {L M} (lf : L -> list die -> M -> Prop) e ds e' : visit lf e ds e' ->
  visit lf (norm e) ds (norm e') /\ (forall A d A', visit lf A d A' -> visit lf (plus e A) (d ++ ds) (plus e' A')) /\ (forall A d A', visit lf A d A' -> visit lf (times e A) (d ++ ds) (times e' A')).
Proof.
  induction 1 as [l ds m H|e ds e' H IH|op a b ds1 ds2 a' b' Ha IHa Hb IHb].
  - split; [constructor; exact H|]. split; intros A d A' HA; rewrite ?plus_leaf, ?times_leaf; (apply visit_bin; [exact HA|constructor; exact H]).
  - destruct IH as (IH & _). split; [rewrite !norm_neg; constructor; exact IH|].
    split; intros A d A' HA; rewrite ?plus_neg, ?times_neg, !norm_neg; (apply visit_bin; [exact HA|constructor; exact IH]).
  - destruct IHa as (A1 & A2 & A3), IHb as (B1 & B2 & B3).
    assert (visit lf (norm (Bin op a b)) (ds1 ++ ds2) (norm (Bin op a' b'))) as H.
    { rewrite !norm_bin. destruct op; [apply B2, A1|constructor; assumption|apply B3, A1|constructor; assumption]. }
    split; [exact H|]. split; intros A d A' HA; [rewrite !plus_bin|rewrite !times_bin]; destruct op; try (apply visit_bin; [exact HA|exact H]); rewrite app_assoc.
    + apply B2, A2, HA.
    + apply visit_bin; [apply A2, HA|exact B1].
    + apply B3, A3, HA.
    + apply visit_bin; [apply A3, HA|exact B1].
Qed.
(** ** Values: regrouping a safe expression does not change its value. *)
Lemma mach_norm e : (safe e -> mach (norm e) = mach e) /\ (forall A, safe e -> mach (plus e A) = mach2 Plus (mach A) (mach e)) /\
  (forall A, safe e -> quotient_free e -> mach (times e A) = mach2 Times (mach A) (mach e)).
Proof.
  induction e as [l|e IH|op a IHa b IHb].
  - repeat split.
  - destruct IH as (IH & _). assert (safe (Neg e) -> mach (norm (Neg e)) = mach (Neg e)) as H by (intros Hs; rewrite norm_neg; cbn [mach]; rewrite IH by exact Hs; reflexivity).
    split; [exact H|]. split; intros A Hs; intros; rewrite ?plus_neg, ?times_neg, mach_bin, H by exact Hs; reflexivity.
  - destruct IHa as (A1 & A2 & A3), IHb as (B1 & B2 & B3).
    assert (safe (Bin op a b) -> mach (norm (Bin op a b)) = mach (Bin op a b)) as H.
    { intros Hs. apply safe_bin in Hs as (Ha & Hb & Hq). rewrite norm_bin, mach_bin. destruct op as [| | |m].
      - rewrite B2, A1 by assumption. reflexivity.
      - rewrite mach_bin, A1, B1 by assumption. reflexivity.
      - rewrite B3, A1 by (try assumption; apply Hq; reflexivity). reflexivity.
      - rewrite mach_bin, A1, B1 by assumption. reflexivity. }
    split; [exact H|]. split.
    + intros A Hs. rewrite plus_bin. destruct op as [| | |m]; try (rewrite mach_bin, H by exact Hs; reflexivity); apply safe_bin in Hs as (Ha & Hb & Hq).
      * rewrite B2, A2, mach_bin by assumption. apply assoc_pp.
      * rewrite mach_bin, A2, B1, mach_bin by assumption. apply assoc_pm.
    + intros A Hs Hqf. rewrite times_bin. destruct op as [| | |m]; try (rewrite mach_bin, H by exact Hs; reflexivity); [|destruct Hqf]. apply safe_bin in Hs as (Ha & Hb & Hq). destruct Hqf as (Q1 & Q2).
      rewrite B3, A3, mach_bin by assumption. apply assoc_tt.
Qed.
(** ** Reading with the leaves of another kind *)
Lemma sp_map {L M} (g : L -> M) (leaf : M -> text -> Prop) :
  (forall e t, sp_prim (fun l => leaf (g l)) e t -> sp_prim leaf (ae_map g e) t) /\ (forall e t, sp_mul (fun l => leaf (g l)) e t -> sp_mul leaf (ae_map g e) t) /\
  (forall e t, sp_add (fun l => leaf (g l)) e t -> sp_add leaf (ae_map g e) t).
Proof.
  apply sp_arith_mut; intros; cbn [ae_map]; try (econstructor; eassumption).
Qed.
