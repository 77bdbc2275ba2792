(** Property C66: the result objects (pkg/core/object). *)
From Verif Require Import ProofBase GoBase SpecText NumberText Utf8 Quote FileProofs SExp SexpProofs Object.
Open Scope list_scope.
Open Scope Z_scope.

(** ** Arrays of integers *)
Definition all_integers (l : list obj) (vs : list Z) : Prop := l = map OInt vs.
Definition total (vs : list Z) : Z := fold_right Z.add 0 vs.
Lemma max_loop_spec l : forall m x, max_loop m l = Some x <-> exists vs, l = map OInt vs /\ In x (m :: vs) /\ forall v, In v (m :: vs) -> v <= x.
Proof.
  induction l as [|o l IH]; intros m x; cbn [max_loop].
  - split.
    + intros [= <-]. exists []. split; [reflexivity|]. split; [left; reflexivity|]. intros v [->|[]]. lia.
    + intros (vs & E & Hin & Hmax). destruct vs; [|discriminate E]. destruct Hin as [->|[]]. reflexivity.
  - assert (o = OInt (match o with OInt v => v | _ => 0 end) \/ (forall v, o <> OInt v)) as [->|Hn] by (destruct o; [left; reflexivity|right; congruence..]).
    + set (v := match o with OInt v => v | _ => 0 end). rewrite IH. split; intros (vs & E & Hin & Hmax).
      * exists (v :: vs). split; [cbn; congruence|]. split.
        -- destruct Hin as [Hx|Hin]; [|right; right; exact Hin]. destruct (Z.ltb_spec m v); subst x; cbn; auto.
        -- pose proof (Hmax _ (or_introl eq_refl)) as Hm. intros u [<-|[<-|Hu]]; [| |apply Hmax; right; exact Hu]; destruct (Z.ltb_spec m v); lia.
      * destruct vs as [|v' vs]; [discriminate E|]. injection E as Ev El. exists vs. split; [exact El|]. pose proof (Hmax m (or_introl eq_refl)). pose proof (Hmax v' (or_intror (or_introl eq_refl))). split.
        -- destruct Hin as [<-|[<-|Hin]]; [| |right; exact Hin]; left; destruct (Z.ltb_spec m v); lia.
        -- intros u [<-|Hu]; [destruct (Z.ltb_spec m v); lia|]. apply Hmax. right. right. exact Hu.
    + split.
      * destruct o; try discriminate. edestruct Hn. reflexivity.
      * intros (vs & E & _). destruct vs as [|v vs]; [discriminate E|]. injection E as E _. destruct (Hn v E).
Qed.
(** MaxInteger succeeds exactly for arrays of integers, with the largest element, or 0 for the empty array. *)
Theorem C66_max l x : max_integer l = Some x <-> exists vs, all_integers l vs /\ ((vs = [] /\ x = 0) \/ (In x vs /\ forall v, In v vs -> v <= x)).
Proof.
  unfold all_integers. destruct l as [|o l].
  - split; [intros [= <-]; exists []; auto|]. intros (vs & E & H). destruct vs; [|discriminate E]. destruct H as [(_ & ->)|([] & _)]. reflexivity.
  - assert (o = OInt (match o with OInt v => v | _ => 0 end) \/ (forall v, o <> OInt v)) as [->|Hn] by (destruct o; [left; reflexivity|right; congruence..]).
    + cbn [max_integer]. rewrite max_loop_spec. split.
      * intros (vs & -> & H). eexists (_ :: vs). split; [reflexivity|]. right. exact H.
      * intros (vs & E & H). destruct vs as [|v vs]; [discriminate E|]. injection E as Ev El. exists vs. split; [exact El|]. rewrite Ev. destruct H as [(K & _)|H]; [discriminate K|exact H].
    + split.
      * destruct o; try discriminate. edestruct Hn. reflexivity.
      * intros (vs & E & _). destruct vs as [|v vs]; [discriminate E|]. injection E as E _. destruct (Hn v E).
Qed.
Print Assumptions C66_max.
Lemma sum_loop_spec l : forall a x, sum_loop a l = Some x <-> exists vs, l = map OInt vs /\ ((vs = [] /\ x = a) \/ (vs <> [] /\ x = wrap64 (a + total vs))).
Proof.
  induction l as [|o l IH]; intros a x; cbn [sum_loop].
  - split; [intros [= <-]; exists []; auto|]. intros (vs & E & H). destruct vs; [|discriminate E]. destruct H as [(_ & ->)|(K & _)]; congruence.
  - assert (o = OInt (match o with OInt v => v | _ => 0 end) \/ (forall v, o <> OInt v)) as [->|Hn] by (destruct o; [left; reflexivity|right; congruence..]).
    + set (v := match o with OInt v => v | _ => 0 end). rewrite IH. split.
      * intros (vs & -> & H). exists (v :: vs). split; [reflexivity|]. right. split; [discriminate|]. unfold total. cbn [fold_right]. fold (total vs). destruct H as [(-> & ->)|(_ & ->)]; [cbn; f_equal; lia|].
        rewrite wrap64_add_l. f_equal. lia.
      * intros (vs & E & H). destruct vs as [|v' vs]; [discriminate E|]. injection E as Ev El. exists vs. split; [exact El|]. destruct H as [(K & _)|(_ & ->)]; [discriminate K|]. unfold total. cbn [fold_right]. fold (total vs).
        destruct vs as [|w vs]; [left; split; [reflexivity|]; cbn; f_equal; lia|]. right. split; [discriminate|]. rewrite wrap64_add_l. f_equal. lia.
    + split.
      * destruct o; try discriminate. edestruct Hn. reflexivity.
      * intros (vs & E & _). destruct vs as [|v vs]; [discriminate E|]. injection E as E _. destruct (Hn v E).
Qed.
(** SumOfIntegers succeeds exactly for arrays of integers, with the sum in 64-bit arithmetic. *)
Theorem C66_sum l x : sum_of_integers l = Some x <-> exists vs, all_integers l vs /\ x = wrap64 (total vs).
Proof.
  unfold sum_of_integers, all_integers. rewrite sum_loop_spec. split; intros (vs & -> & H); exists vs; (split; [reflexivity|]).
  - destruct H as [(-> & ->)|(_ & ->)]; reflexivity.
  - destruct vs; [left; subst x; auto|right; split; [discriminate|exact H]].
Qed.
Print Assumptions C66_sum.
Example C66_arrays_example : max_integer [OInt (-3); OInt (-1); OInt (-2)] = Some (-1) /\ max_integer [] = Some 0 /\ max_integer [OInt 1; OBool true] = None /\
  sum_of_integers [OInt 9223372036854775807; OInt 1] = Some (-9223372036854775808) /\ sum_of_integers [OInt 1; OArray []] = None.
Proof. vconj. Qed.

(** ** Inspect *)
Definition stop (a : ascii) : Prop := In a [","; "]"; ">"]%char.
Definition stops (r : string) : Prop := match r with EmptyString => True | String a _ => stop a end.
Definition free (s : string) : Prop := Forall (fun a => ~ stop a) (list_ascii_of_string s).
Lemma split_stop s : forall s' r r', free s -> free s' -> stops r -> stops r' -> (s ++ r = s' ++ r')%string -> s = s' /\ r = r'.
Proof.
  induction s as [|a s IH]; intros [|b s'] r r' Hs Hs' Hr Hr' E; cbn [append] in E.
  - auto.
  - subst r. inversion Hs'. contradiction.
  - subst r'. inversion Hs. contradiction.
  - injection E as -> E. inversion Hs. inversion Hs'. destruct (IH s' r r') as (-> & ->); auto.
Qed.
Lemma digits_free s : digits s -> free s.
Proof.
  intros (_ & H). unfold free. revert H. induction (list_ascii_of_string s) as [|a l IH]; intros H; constructor; inversion H as [|? ? Ha Hl]; subst; [|apply IH; assumption].
  intros [<-|[<-|[<-|[]]]]; unfold digit in Ha; vm_compute in Ha; destruct Ha as (Ha1 & Ha2); (apply Ha1; reflexivity) || (apply Ha2; reflexivity).
Qed.
Lemma itoa_free v : free (itoa v).
Proof.
  destruct (Z_lt_le_dec v 0) as [H|H].
  - rewrite itoa_minus by exact H. constructor; [|apply digits_free, itoa_digits; lia]. intros [K|[K|[K|[]]]]; discriminate K.
  - apply digits_free, itoa_digits, H.
Qed.
Lemma obj_induction (P : obj -> Prop) : (forall v, P (OInt v)) -> (forall b, P (OBool b)) -> (forall s, P (OString s)) -> (forall l, Forall P l -> P (OArray l)) ->
  (forall l n, Forall P l -> P (OBRollComp l n)) -> (forall l n, Forall P l -> P (ORRollComp l n)) -> (forall l m, Forall P l -> P (OURollExpr l m)) -> (forall l m n, Forall P l -> P (OURollComp l m n)) -> forall o, P o.
Proof.
  intros H1 H2 H3 H4 H5 H6 H7 H8. fix IH 1. intros [v|b|s|l|l n|l n|l m|l m n]; [apply H1|apply H2|apply H3|apply H4|apply H5|apply H6|apply H7|apply H8]; (induction l as [|x l IHl]; constructor; [apply IH|exact IHl]).
Qed.
(** The text of an array after the opening bracket *)
Definition items (l : list obj) (r : string) : string := (join ", " (map inspect l) ++ String "]" r)%string.
Lemma items_cons x y l r : items (x :: y :: l) r = (inspect x ++ ", " ++ items (y :: l) r)%string.
Proof. unfold items. cbn [map]. change (join ", " (inspect x :: inspect y :: map inspect l)) with (inspect x ++ ", " ++ join ", " (inspect y :: map inspect l))%string. rewrite <- !app_assoc_s. reflexivity. Qed.
Definition code (x : obj) : Prop := forall y r r', stops r -> stops r' -> (inspect x ++ r = inspect y ++ r')%string -> x = y /\ r = r'.
(** Texts never start like the end of an array. *)
Lemma inspect_head x : exists a s, inspect x = String a s /\ ~ stop a.
Proof.
  assert (forall a, In a ["t"; "f"; """"; "["; "<"; "-"]%char -> ~ stop a) as K by (intros a Ha [E|[E|[E|[]]]]; subst a; cbn in Ha; intuition discriminate).
  destruct x as [v|b|s|l|l n|l n|l m|l m n]; cbn [inspect].
  - pose proof (itoa_free v) as F. destruct (itoa v) as [|a s] eqn:E; [|exists a, s; split; [reflexivity|]; inversion F; assumption].
    destruct (Z_lt_le_dec v 0) as [H|H]; [rewrite itoa_minus in E by exact H; discriminate E|]. destruct (itoa_digits v H) as (N & _). congruence.
  - destruct b; eexists; eexists; (split; [reflexivity|apply K; cbn; auto]).
  - destruct (quote_head is_print s) as (t & ->). eexists; eexists; (split; [reflexivity|apply K; cbn; auto]).
  - eexists; eexists; (split; [reflexivity|apply K; cbn; auto 10]).
  - eexists; eexists; (split; [reflexivity|apply K; cbn; auto 10]).
  - eexists; eexists; (split; [reflexivity|apply K; cbn; auto 10]).
  - eexists; eexists; (split; [reflexivity|apply K; cbn; auto 10]).
  - eexists; eexists; (split; [reflexivity|apply K; cbn; auto 10]).
Qed.
Lemma items_head x l r : exists a s, items (x :: l) r = String a s /\ ~ stop a.
Proof. destruct (inspect_head x) as (a & s & E & H). destruct l as [|y l]; [unfold items; cbn [map join]|rewrite items_cons]; rewrite E; cbn [append]; eexists; eexists; (split; [reflexivity|exact H]). Qed.
Lemma stop_bracket : stop "]". Proof. right. left. reflexivity. Qed.
Lemma stop_comma : stop ",". Proof. left. reflexivity. Qed.
Lemma stop_angle : stop ">". Proof. right. right. left. reflexivity. Qed.
Lemma items_code l : Forall code l -> forall l' r r', items l r = items l' r' -> l = l' /\ r = r'.
Proof.
  induction 1 as [|x l Hx Hl IH]; intros l' r r' E.
  - destruct l' as [|y l']; [unfold items in E; cbn in E; injection E as ->; auto|]. destruct (items_head y l' r') as (a & s & Ea & Ha). rewrite Ea in E. unfold items in E. cbn in E. injection E as Eb _. subst a. destruct (Ha stop_bracket).
  - destruct l' as [|y l']; [destruct (items_head x l r) as (a & s & Ea & Ha); rewrite Ea in E; unfold items in E; cbn in E; injection E as Eb _; subst a; destruct (Ha stop_bracket)|].
    destruct l as [|x2 l], l' as [|y2 l'].
    + unfold items in E. cbn [map join] in E. apply Hx in E as (-> & E); [injection E as ->; auto|exact stop_bracket|exact stop_bracket].
    + rewrite items_cons in E. unfold items in E at 1. cbn [map join] in E. apply Hx in E as (_ & E); [discriminate E|exact stop_bracket|exact stop_comma].
    + rewrite items_cons in E. unfold items in E at 2. cbn [map join] in E. apply Hx in E as (_ & E); [discriminate E|exact stop_comma|exact stop_bracket].
    + rewrite !items_cons in E. apply Hx in E as (-> & E); [|exact stop_comma|exact stop_comma]. cbn [append] in E. injection E as E. apply IH in E as (E & ->). rewrite E. auto.
Qed.
Lemma number_code v v' r r' : stops r -> stops r' -> (itoa v ++ r = itoa v' ++ r')%string -> v = v' /\ r = r'.
Proof. intros Hr Hr' E. apply split_stop in E as (E & ->); [|apply itoa_free|apply itoa_free|exact Hr|exact Hr']. apply itoa_inj in E. auto. Qed.
Lemma number_not x v a s r r' : inspect x = String a s -> ~ (48 <= byte_val a <= 57 \/ a = "-"%char) -> (itoa v ++ r = inspect x ++ r')%string -> False.
Proof.
  intros E Ha H. rewrite E in H. destruct (Z_lt_le_dec v 0) as [Hv|Hv].
  - rewrite itoa_minus in H by exact Hv. cbn in H. injection H as <- _. auto.
  - pose proof (itoa_digits v Hv) as (Hn & Hd). destruct (itoa v) as [|b t]; [congruence|]. cbn in H. injection H as <- _. inversion Hd as [|? ? Hb]. apply Ha. left. exact Hb.
Qed.
Lemma not_number a : In a ["t"; "f"; """"; "["; "<"]%char -> ~ (48 <= byte_val a <= 57 \/ a = "-"%char).
Proof. intros H [K|K]; repeat (destruct H as [<-|H]; [first [discriminate K|vm_compute in K; destruct K as (K1 & K2); first [apply K1; reflexivity|apply K2; reflexivity]]|]); destruct H. Qed.
Definition not_int (x : obj) : Prop := match x with OInt _ => False | _ => True end.
Lemma text_not_number x : not_int x -> exists a s, inspect x = String a s /\ ~ (48 <= byte_val a <= 57 \/ a = "-"%char).
Proof.
  destruct x as [v|b|s|l|l n|l n|l m|l m n]; cbn [not_int inspect]; intros N.
  - destruct N.
  - destruct b; eexists; eexists; (split; [reflexivity|apply not_number; cbn; auto]).
  - destruct (quote_head is_print s) as (t & ->). eexists; eexists; (split; [reflexivity|apply not_number; cbn; auto]).
  - eexists; eexists; (split; [reflexivity|apply not_number; cbn; auto 10]).
  - eexists; eexists; (split; [reflexivity|apply not_number; cbn; auto 10]).
  - eexists; eexists; (split; [reflexivity|apply not_number; cbn; auto 10]).
  - eexists; eexists; (split; [reflexivity|apply not_number; cbn; auto 10]).
  - eexists; eexists; (split; [reflexivity|apply not_number; cbn; auto 10]).
Qed.
Lemma int_other v x r r' : not_int x -> (itoa v ++ r = inspect x ++ r')%string -> False.
Proof. intros N E. destruct (text_not_number x N) as (a & s & Ea & Ha). exact (number_not x v a s r r' Ea Ha E). Qed.
Ltac clash E := exfalso; cbn [inspect] in E; repeat match type of E with context [Quote.quote is_print ?s] => let t := fresh in let K := fresh in destruct (quote_head is_print s) as (t & K); rewrite K in E; clear K end;
  repeat match type of E with context [if ?b then _ else _] => destruct b end; cbn [append] in E; discriminate E.
Ltac flat E := cbn [inspect] in E; rewrite <- !app_assoc_s in E; cbn [append] in E; injection E as E.
Lemma inspect_code x : code x.
Proof.
  induction x as [v|b|s|l Hl|l n Hl|l n Hl|l m Hl|l m n Hl] using obj_induction; intros y r r' Hr Hr' E.
  - destruct y as [v'| | | | | | |]; try (exfalso; eapply int_other; [|exact E]; exact I).
    cbn [inspect] in E. apply number_code in E as (-> & ->); auto.
  - destruct y as [v'|b'|s'|l'|l' n'|l' n'|l' m'|l' m' n']; try clash E; [exfalso; eapply int_other; [|symmetry; exact E]; exact I|].
    cbn [inspect] in E. destruct b, b'; cbn [append] in E; try discriminate E; injection E as ->; auto.
  - destruct y as [v'|b'|s'|l'|l' n'|l' n'|l' m'|l' m' n']; try clash E; [exfalso; eapply int_other; [|symmetry; exact E]; exact I|].
    cbn [inspect] in E. apply quote_code in E as (-> & ->). auto.
  - destruct y as [v'|b'|s'|l'|l' n'|l' n'|l' m'|l' m' n']; try clash E; [exfalso; eapply int_other; [|symmetry; exact E]; exact I|].
    flat E. change (items l r = items l' r') in E. apply items_code in E as (-> & ->); auto.
  - destruct y as [v'|b'|s'|l'|l' n'|l' n'|l' m'|l' m' n']; try clash E; [exfalso; eapply int_other; [|symmetry; exact E]; exact I|].
    flat E. match type of E with (_ ++ String _ ?u = _ ++ String _ ?w)%string => change (items l u = items l' w) in E end.
    apply items_code in E as (-> & E); [|exact Hl]. injection E as E. apply number_code in E as (-> & E); [|exact stop_angle|exact stop_angle]. injection E as ->. auto.
  - destruct y as [v'|b'|s'|l'|l' n'|l' n'|l' m'|l' m' n']; try clash E; [exfalso; eapply int_other; [|symmetry; exact E]; exact I|].
    flat E. match type of E with (_ ++ String _ ?u = _ ++ String _ ?w)%string => change (items l u = items l' w) in E end.
    apply items_code in E as (-> & E); [|exact Hl]. injection E as E. apply number_code in E as (-> & E); [|exact stop_angle|exact stop_angle]. injection E as ->. auto.
  - destruct y as [v'|b'|s'|l'|l' n'|l' n'|l' m'|l' m' n']; try clash E; [exfalso; eapply int_other; [|symmetry; exact E]; exact I|].
    flat E. match type of E with (_ ++ String _ ?u = _ ++ String _ ?w)%string => change (items l u = items l' w) in E end.
    apply items_code in E as (-> & E); [|exact Hl]. injection E as E. apply number_code in E as (-> & E); [|exact stop_angle|exact stop_angle]. injection E as ->. auto.
  - destruct y as [v'|b'|s'|l'|l' n'|l' n'|l' m'|l' m' n']; try clash E; [exfalso; eapply int_other; [|symmetry; exact E]; exact I|].
    flat E. match type of E with (_ ++ String _ ?u = _ ++ String _ ?w)%string => change (items l u = items l' w) in E end.
    apply items_code in E as (-> & E); [|exact Hl]. injection E as E. apply number_code in E as (-> & E); [|exact stop_angle|exact stop_angle]. injection E as E.
    apply number_code in E as (-> & E); [|exact stop_angle|exact stop_angle]. injection E as ->. auto.
Qed.
(** Two results that Inspect shows alike are the same result. *)
Theorem C66_inspect o o' : inspect o = inspect o' -> o = o'.
Proof. intros E. apply (inspect_code o o' EmptyString EmptyString); [exact I|exact I|rewrite E; reflexivity]. Qed.
Print Assumptions C66_inspect.
Example C66_inspect_example : inspect (OString "1, 2") = """1, 2"""%string /\ inspect (OArray [OInt 1; OString "]"; OArray []]) = "[1, ""]"", []]"%string /\
  inspect (OURollComp [OArray [OInt 6; OInt 2]] (-1) 1) = "<URollCompResult RollResult=<URollExprResult ValueGroups=[[6, 2]], Modifier=-1>, NumOfSuccesses=1>"%string.
Proof. vconj. Qed.
