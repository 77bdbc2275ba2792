(** Property C88: the paths of the test data. *)
From Verif Require Import GoBase ProofBase SpecPaths Runner.
From Coq Require Import Lia.
Open Scope list_scope.

Definition chars (s : string) : list ascii := list_ascii_of_string s.
Definition no_slash (s : string) : Prop := ~ In "/"%char (chars s).
Lemma eqb_slash a : Ascii.eqb a slash = true -> a = "/"%char.
Proof. intros H. apply Ascii.eqb_eq in H. exact H. Qed.
(** * The pieces of a path *)
Lemma pieces_nonempty p : pieces p <> [].
Proof. induction p as [|a p IH]; cbn [pieces]; [discriminate|]. destruct (Ascii.eqb a "/"); [discriminate|]. destruct (pieces p); [congruence|discriminate]. Qed.
Lemma pieces_app n r : no_slash n -> pieces (n ++ String "/" r)%string = n :: pieces r.
Proof.
  induction n as [|a n IH]; intros H; cbn [append pieces]; [reflexivity|]. destruct (Ascii.eqb a "/") eqn:E; [apply Ascii.eqb_eq in E; exfalso; apply H; left; exact E|].
  rewrite IH; [reflexivity|]. intros K. apply H. right. exact K.
Qed.
Lemma pieces_one n : no_slash n -> pieces n = [n].
Proof.
  induction n as [|a n IH]; intros H; cbn [pieces]; [reflexivity|]. destruct (Ascii.eqb a "/") eqn:E; [apply Ascii.eqb_eq in E; exfalso; apply H; left; exact E|].
  rewrite IH; [reflexivity|]. intros K. apply H. right. exact K.
Qed.
Lemma concat_cons n m l : String.concat "/" (n :: m :: l) = (n ++ String "/" (String.concat "/" (m :: l)))%string.
Proof. reflexivity. Qed.
Lemma pieces_concat ns : ns <> [] -> Forall no_slash ns -> pieces (String.concat "/" ns) = ns.
Proof.
  intros Hn H. induction H as [|n [|m l] Hn1 H IH]; [congruence| |].
  - cbn [String.concat]. apply pieces_one, Hn1.
  - rewrite concat_cons, pieces_app by exact Hn1. rewrite IH by discriminate. reflexivity.
Qed.
Lemma pieces_pieces p : Forall no_slash (pieces p).
Proof.
  induction p as [|a p IH]; cbn [pieces]; [constructor; [intros []|constructor]|]. destruct (Ascii.eqb a "/") eqn:E; [constructor; [intros []|exact IH]|].
  destruct (pieces p) as [|n l]; [constructor|]. inversion IH; subst. constructor; [|assumption]. intros [K|K]; [subst a; discriminate E|contradiction].
Qed.
Lemma take_element_pieces s e r : take_element s = (e, r) -> no_slash e /\ s = (e ++ r)%string /\ (r = EmptyString \/ exists r', r = String "/" r').
Proof.
  revert e r. induction s as [|a s IH]; cbn [take_element]; intros e r.
  - intros [= <- <-]. split; [intros []|]. split; [reflexivity|left; reflexivity].
  - destruct (Ascii.eqb a slash) eqn:E.
    + intros [= <- <-]. apply eqb_slash in E. subst a. split; [intros []|]. split; [reflexivity|]. right. eexists. reflexivity.
    + destruct (take_element s) as [e' r'] eqn:T. intros [= <- <-]. destruct (IH _ _ eq_refl) as (H1 & -> & H3). split; [intros [K|K]; [subst a; discriminate E|exact (H1 K)]|]. split; [reflexivity|exact H3].
Qed.
(** * A path as a number of steps up and a stack of names *)
Definition sstep (rt : bool) (s : nat * list string) (e : string) : nat * list string :=
  let '(k, st) := s in
  if (String.eqb e "" || String.eqb e ".")%bool then s
  else if String.eqb e ".." then match st with _ :: st' => (k, st') | [] => if rt then s else (S k, []) end
  else (k, e :: st).
Definition swalk rt p s := fold_left (sstep rt) (pieces p) s.
Lemma swalk_slash rt r s : swalk rt (String "/" r) s = swalk rt r s.
Proof. unfold swalk. change (pieces (String "/" r)) with (EmptyString :: pieces r). cbn [fold_left]. f_equal. destruct s. reflexivity. Qed.
Lemma swalk_element rt p e r s : take_element p = (e, r) -> swalk rt p s = swalk rt r (sstep rt s e).
Proof.
  intros H. apply take_element_pieces in H as (He & -> & [-> |(r' & ->)]).
  - unfold swalk at 1. replace (e ++ EmptyString)%string with e by (clear; induction e; cbn; congruence). rewrite pieces_one by exact He. unfold swalk. cbn [pieces fold_left]. destruct (sstep rt s e). reflexivity.
  - rewrite swalk_slash. unfold swalk. rewrite pieces_app by exact He. reflexivity.
Qed.
Lemma sstep_reach (rt : bool) k st e cwd k' st' : sstep rt (k, st) e = (k', st') -> (rt = true -> k = O /\ cwd = []) -> (rt = true -> k' = O) /\ step (st ++ skipn k cwd) e = st' ++ skipn k' cwd.
Proof.
  intros E H. unfold sstep in E. unfold step. destruct (String.eqb e "" || String.eqb e ".")%bool; [injection E as <- <-; split; [intros R; apply H, R|reflexivity]|]. destruct (String.eqb e "..").
  - destruct st as [|n st].
    + destruct rt; injection E as <- <-.
      * destruct (H eq_refl) as (-> & ->). split; [reflexivity|reflexivity].
      * split; [discriminate|]. cbn [app]. clear. revert cwd. induction k as [|k IH]; intros [|x cwd]; try reflexivity. exact (IH cwd).
    + injection E as <- <-. split; [intros R; apply H, R|reflexivity].
  - injection E as <- <-. split; [intros R; apply H, R|reflexivity].
Qed.
Lemma swalk_reach (rt : bool) es cwd : forall k st k' st', fold_left (sstep rt) es (k, st) = (k', st') -> (rt = true -> k = O /\ cwd = []) -> (rt = true -> k' = O) /\ fold_left step es (st ++ skipn k cwd) = st' ++ skipn k' cwd.
Proof.
  induction es as [|e es IH]; intros k st k' st' E H; cbn [fold_left] in *.
  - injection E as <- <-. split; [intros R; apply H, R|reflexivity].
  - destruct (sstep rt (k, st) e) as [k1 st1] eqn:E1. destruct (sstep_reach _ _ _ _ _ _ _ E1 H) as (H1 & ->). apply (IH _ _ _ _ E). intros R. split; [apply H1, R|apply H, R].
Qed.
Lemma sstep_plain rt s e : no_slash e -> Forall plain (snd s) -> Forall plain (snd (sstep rt s e)).
Proof.
  destruct s as [k st]. intros He H. cbn [snd] in H. unfold sstep. destruct (String.eqb e "") eqn:E1; [exact H|]. destruct (String.eqb e ".") eqn:E2; [exact H|]. cbn [orb]. destruct (String.eqb e "..") eqn:E3.
  - destruct st as [|n st]; [destruct rt; constructor|]. inversion H. assumption.
  - apply String.eqb_neq in E1, E2, E3. constructor; [repeat split; assumption|exact H].
Qed.
Lemma swalk_plain rt es s : Forall no_slash es -> Forall plain (snd s) -> Forall plain (snd (fold_left (sstep rt) es s)).
Proof. intros H. revert s. induction H as [|e es He H IH]; intros s Hs; [exact Hs|]. cbn [fold_left]. apply IH, sstep_plain; assumption. Qed.
(** * The text of such a path, reversed *)
Fixpoint rups (k : nat) : list ascii := match k with O => [] | S k' => "."%char :: "."%char :: (if (0 <? length (rups k'))%nat then slash :: rups k' else rups k') end.
Definition rbase (rt : bool) (k : nat) : list ascii := if rt then [slash] else rups k.
Fixpoint rtext (rt : bool) (base : list ascii) (st : list string) : list ascii :=
  match st with
  | [] => base
  | n :: st' => let t := rtext rt base st' in rev_append (chars n) (if (if rt then negb (length t =? 1)%nat else negb (length t =? 0)%nat) then slash :: t else t)
  end.
Lemma drop_back_slash floor l r : ~ In "/"%char l -> (floor <= length r)%nat -> drop_back floor (l ++ slash :: r) = r.
Proof.
  intros H Hf. induction l as [|a l IH]; cbn [app drop_back].
  - change (Ascii.eqb slash slash) with true. rewrite orb_true_r. reflexivity.
  - assert ((length (l ++ slash :: r) <=? floor)%nat = false) as -> by (apply Nat.leb_gt; rewrite app_length; cbn [length]; lia).
    assert (Ascii.eqb a slash = false) as -> by (apply Ascii.eqb_neq; intros ->; apply H; left; reflexivity). cbn [orb]. apply IH. intros K. apply H. right. exact K.
Qed.
Lemma drop_back_floor l r : l <> [] -> ~ In "/"%char l -> drop_back (length r) (l ++ r) = r.
Proof.
  intros Hn H. induction l as [|a l IH]; [congruence|]. cbn [app drop_back]. destruct l as [|b l].
  - cbn [app]. rewrite Nat.leb_refl. reflexivity.
  - assert ((length ((b :: l) ++ r) <=? length r)%nat = false) as -> by (apply Nat.leb_gt; rewrite app_length; cbn [length]; lia).
    assert (Ascii.eqb a slash = false) as -> by (apply Ascii.eqb_neq; intros ->; apply H; left; reflexivity). cbn [orb]. apply IH; [discriminate|]. intros K. apply H. right. exact K.
Qed.
Lemma chars_nonempty n : n <> EmptyString -> rev (chars n) <> [].
Proof. destruct n as [|a n]; [congruence|]. intros _ K. apply (f_equal (@length ascii)) in K. rewrite rev_length in K. discriminate K. Qed.
Lemma plain_nonempty st : Forall plain st -> Forall (fun n => n <> EmptyString) st.
Proof. apply Forall_impl. intros n (H & _). exact H. Qed.
Lemma rtext_length rt base st : Forall (fun n => n <> EmptyString) st -> (length base <= length (rtext rt base st))%nat /\ (st <> [] -> (length base < length (rtext rt base st))%nat).
Proof.
  induction 1 as [|n st Hn H (IH & _)]; [split; [apply Nat.le_refl|congruence]|]. assert (length base < length (rtext rt base (n :: st)))%nat as K; [|split; [lia|intros _; exact K]].
  cbn [rtext]. rewrite rev_append_rev, app_length. assert (0 < length (rev (chars n)))%nat by (pose proof (chars_nonempty n Hn); destruct (rev (chars n)); [congruence|cbn; lia]).
  match goal with |- context [if ?b then _ else _] => destruct b end; cbn [length]; lia.
Qed.
Lemma drop_back_text rt k n st : plain n -> Forall plain st -> drop_back (length (rbase rt k)) (rtext rt (rbase rt k) (n :: st)) = rtext rt (rbase rt k) st.
Proof.
  intros (Hn & _ & _ & Hs) H. cbn [rtext]. rewrite rev_append_rev. pose proof (rtext_length rt (rbase rt k) st (plain_nonempty _ H)) as (L & L'). assert (~ In "/"%char (rev (chars n))) as Hr by (rewrite <- in_rev; exact Hs).
  match goal with |- context [if ?b then _ else _] => destruct b eqn:E end; [apply drop_back_slash; assumption|].
  assert (length (rtext rt (rbase rt k) st) = length (rbase rt k)) as El.
  { destruct rt; apply negb_false_iff, Nat.eqb_eq in E; [exact E|]. lia. }
  rewrite <- El. apply drop_back_floor; [apply chars_nonempty, Hn|exact Hr].
Qed.
Lemma take_element_length s e r : take_element s = (e, r) -> String.length s = (String.length e + String.length r)%nat.
Proof. intros H. apply take_element_pieces in H as (_ & -> & _). clear. induction e; cbn; congruence. Qed.
Lemma rups_push k : push_text ".." (if (0 <? length (rups k))%nat then slash :: rups k else rups k) = rups (S k).
Proof. reflexivity. Qed.
Lemma loop_walk rt fuel : forall rest k st k' st', (String.length rest <= fuel)%nat -> Forall plain st -> swalk rt rest (k, st) = (k', st') ->
  clean_loop fuel rt rest (rtext rt (rbase rt k) st) (length (rbase rt k)) = rtext rt (rbase rt k') st'.
Proof.
  induction fuel as [|fuel IH]; intros rest k st k' st' L Hst W.
  - destruct rest; [|cbn in L; lia]. cbn in W. injection W as <- <-. reflexivity.
  - destruct rest as [|a rest]; [cbn in W; injection W as <- <-; reflexivity|]. cbn [clean_loop]. cbn [String.length] in L. destruct (Ascii.eqb a slash) eqn:Ea.
    + apply eqb_slash in Ea. subst a. rewrite swalk_slash in W. apply IH; [lia|assumption|exact W].
    + destruct (take_element (String a rest)) as [e after] eqn:T. pose proof (take_element_length _ _ _ T) as Ll. cbn [String.length] in Ll.
      rewrite (swalk_element _ _ _ _ _ T) in W. assert (0 < String.length e)%nat as Le. { clear - T Ea. cbn [take_element] in T. rewrite Ea in T. destruct (take_element rest). injection T as <- <-. cbn. lia. }
      pose proof (take_element_pieces _ _ _ T) as (He & _).
      assert (String.eqb e "" = false) as E0 by (apply String.eqb_neq; intros ->; cbn in Le; lia).
      pose proof (rtext_length rt (rbase rt k) st (plain_nonempty _ Hst)) as (Lt & Lt'). pose proof (sstep_plain rt (k, st) e He Hst) as Hp. unfold sstep in W, Hp. rewrite E0 in W, Hp. cbn [orb] in W, Hp.
      destruct (String.eqb e "."); [apply IH; [lia|assumption|exact W]|]. destruct (String.eqb e "..") eqn:E2.
      * destruct st as [|n st].
        -- cbn [rtext]. rewrite Nat.ltb_irrefl. destruct rt; [apply (IH _ _ []); [lia|constructor|exact W]|]. cbn [rbase]. rewrite rups_push. exact (IH after (S k) [] k' st' ltac:(lia) ltac:(constructor) W).
        -- assert ((length (rbase rt k) <? length (rtext rt (rbase rt k) (n :: st)))%nat = true) as -> by (apply Nat.ltb_lt, Lt'; discriminate).
           inversion Hst; subst. rewrite drop_back_text by assumption. apply IH; [lia|assumption|exact W].
      * apply (IH after k (e :: st) k' st'); [lia|exact Hp|exact W].
Qed.

Definition str (l : list ascii) : string := string_of_list_ascii l.
Lemma str_app a b : str (a ++ b) = (str a ++ str b)%string.
Proof. induction a as [|x a IH]; [reflexivity|]. unfold str in *. cbn [app string_of_list_ascii append]. rewrite IH. reflexivity. Qed.
Lemma str_chars n : str (chars n) = n.
Proof. apply string_of_list_ascii_of_string. Qed.
Lemma concat_snoc l n : l <> [] -> String.concat "/" (l ++ [n]) = (String.concat "/" l ++ String "/" n)%string.
Proof.
  intros Hn. induction l as [|x [|y l] IH]; [congruence|reflexivity|]. change ((x :: y :: l) ++ [n]) with (x :: y :: (l ++ [n])). rewrite !concat_cons. change (y :: l ++ [n]) with ((y :: l) ++ [n]). rewrite IH by discriminate.
  clear. induction x as [|a x IH]; cbn [append]; [reflexivity|rewrite IH; reflexivity].
Qed.
Lemma rtext_relative l : Forall (fun n => n <> EmptyString) l -> str (rev (rtext false [] l)) = String.concat "/" (rev l).
Proof.
  induction 1 as [|n l Hn H IH]; [reflexivity|]. cbn [rtext]. rewrite rev_append_rev, rev_app_distr, rev_involutive, str_app, str_chars. cbn [rev]. destruct l as [|m l].
  - reflexivity.
  - assert (rtext false [] (m :: l) <> []) as K. { cbn [rtext]. rewrite rev_append_rev. inversion H; subst. intros E. apply app_eq_nil in E as (E & _). exact (chars_nonempty m ltac:(assumption) E). }
    assert ((length (rtext false [] (m :: l)) =? 0)%nat = false) as E by (apply Nat.eqb_neq; intros E; apply length_zero_iff_nil in E; exact (K E)). rewrite E. cbn [negb].
    change (rev (slash :: rtext false [] (m :: l))) with (rev (rtext false [] (m :: l)) ++ [slash]). rewrite str_app, IH. rewrite concat_snoc.
    + clear. induction (String.concat "/" (rev (m :: l))) as [|a x IH]; [reflexivity|]. cbn [append]. rewrite IH. reflexivity.
    + cbn [rev]. intros E'. apply app_eq_nil in E' as (_ & E'). discriminate E'.
Qed.
Lemma rtext_rooted l : Forall (fun n => n <> EmptyString) l -> str (rev (rtext true [slash] l)) = String "/" (String.concat "/" (rev l)).
Proof.
  induction 1 as [|n l Hn H IH]; [reflexivity|]. cbn [rtext]. rewrite rev_append_rev, rev_app_distr, rev_involutive, str_app, str_chars. cbn [rev]. destruct l as [|m l].
  - reflexivity.
  - assert (length (rtext true [slash] (m :: l)) <> 1)%nat as K by (pose proof (proj2 (rtext_length true [slash] (m :: l) H) ltac:(discriminate)); cbn [length] in *; lia).
    assert ((length (rtext true [slash] (m :: l)) =? 1)%nat = false) as E by (apply Nat.eqb_neq; exact K). rewrite E. cbn [negb].
    change (rev (slash :: rtext true [slash] (m :: l))) with (rev (rtext true [slash] (m :: l)) ++ [slash]). rewrite str_app, IH. rewrite concat_snoc.
    + clear. cbn [append]. f_equal. induction (String.concat "/" (rev (m :: l))) as [|a x IH]; [reflexivity|]. cbn [append]. rewrite IH. reflexivity.
    + cbn [rev]. intros E'. apply app_eq_nil in E' as (_ & E'). discriminate E'.
Qed.
Lemma rtext_stack rt base a b : rtext rt (rtext rt base a) b = rtext rt base (b ++ a).
Proof. induction b as [|n b IH]; [reflexivity|]. cbn [app rtext]. rewrite IH. reflexivity. Qed.
Lemma rups_text k : rups k = rtext false [] (repeat ".."%string k).
Proof. induction k as [|k IH]; [reflexivity|]. cbn [rups repeat rtext]. rewrite <- IH. destruct (rups k); reflexivity. Qed.
Lemma repeat_rev {A} (x : A) k : rev (repeat x k) = repeat x k.
Proof. induction k as [|k IH]; [reflexivity|]. cbn [repeat rev]. rewrite IH. clear. induction k; [reflexivity|]. cbn. f_equal. assumption. Qed.
(** Every path has such a form, [clean] writes it *)
Definition form (p : string) : nat * list string := swalk (is_rooted p) p (O, []).
Definition written (rt : bool) (k : nat) (st : list string) : string :=
  if rt then String "/" (String.concat "/" (rev st)) else match (repeat ".."%string k ++ rev st)%list with [] => "."%string | l => String.concat "/" l end.
Lemma form_plain p : Forall plain (snd (form p)).
Proof. apply swalk_plain; [apply pieces_pieces|constructor]. Qed.
Lemma clean_form p : clean p = written (is_rooted p) (fst (form p)) (snd (form p)).
Proof.
  pose proof (form_plain p) as Hp. unfold form in *. destruct (swalk (is_rooted p) p (0%nat, [])) as [k st] eqn:W. cbn [fst snd] in *. destruct p as [|a p]; [cbn in W; injection W as <- <-; reflexivity|].
  unfold clean. cbn [is_rooted] in *. change (Ascii.eqb a "/") with (Ascii.eqb a slash) in *. destruct (Ascii.eqb a slash) eqn:E.
  - apply eqb_slash in E. subst a. rewrite swalk_slash in W. pose proof (loop_walk true (String.length (String "/" p)) p 0 [] k st ltac:(cbn; lia) ltac:(constructor) W) as L. cbn [rbase rtext length] in L. rewrite L.
    pose proof (rtext_rooted st (plain_nonempty _ Hp)) as R. unfold str in R. cbn [written]. rewrite R. destruct (rtext true [slash] st) eqn:Ez; [discriminate R|reflexivity].
  - pose proof (loop_walk false (String.length (String a p)) (String a p) 0 [] k st ltac:(lia) ltac:(constructor) W) as L. cbn [rbase rups rtext length] in L. rewrite L.
    rewrite rups_text, rtext_stack. assert (Forall (fun n => n <> EmptyString) (st ++ repeat ".."%string k)) as Hl. { apply Forall_app. split; [apply plain_nonempty, Hp|]. apply Forall_forall. intros n Hn. apply repeat_spec in Hn. subst n. discriminate. }
    pose proof (rtext_relative _ Hl) as R. unfold str in R. rewrite R. rewrite rev_app_distr, repeat_rev. unfold written. destruct (st ++ repeat ".."%string k) as [|n l] eqn:El.
    + apply app_eq_nil in El as (-> & El). rewrite El. reflexivity.
    + destruct (rtext false [] (n :: l)) as [|c cs] eqn:Ec.
      { exfalso. cbn [rtext] in Ec. rewrite rev_append_rev in Ec. apply app_eq_nil in Ec as (Ec & _). inversion Hl; subst. exact (chars_nonempty n ltac:(assumption) Ec). }
      destruct (repeat ".."%string k ++ rev st) as [|m ms] eqn:Em; [|reflexivity]. exfalso. apply (f_equal (@length string)) in El, Em. rewrite app_length in El, Em. rewrite rev_length in Em. cbn [length] in El, Em. lia.
Qed.
Lemma form_rooted p : is_rooted p = true -> fst (form p) = O.
Proof. intros H. unfold form. destruct (swalk _ _ _) as [k st] eqn:W. destruct (swalk_reach _ _ [] _ _ _ _ W (fun _ => conj eq_refl eq_refl)) as (K & _). exact (K H). Qed.
Lemma reach_form p cwd : reach p cwd = snd (form p) ++ (if is_rooted p then [] else skipn (fst (form p)) cwd).
Proof.
  unfold reach, walk, form. destruct (swalk (is_rooted p) p (0%nat, [])) as [k st] eqn:W. cbn [fst snd]. pose proof (swalk_reach (is_rooted p) (pieces p) (if is_rooted p then [] else cwd) _ _ _ _ W) as K. cbn [app skipn] in K. destruct K as (K & ->).
  - intros ->. split; reflexivity.
  - destruct (is_rooted p); [rewrite (K eq_refl)|]; reflexivity.
Qed.
Lemma fold_names rt k a : Forall plain a -> forall b, fold_left (sstep rt) a (k, b) = (k, rev a ++ b).
Proof.
  induction 1 as [|n a (H1 & H2 & H3 & _) H IH]; intros b; [reflexivity|]. cbn [fold_left rev]. unfold sstep at 2. apply String.eqb_neq in H1, H2, H3. rewrite H1, H2, H3. cbn [orb]. rewrite IH, <- app_assoc. reflexivity.
Qed.
Lemma fold_ups j : forall k, fold_left (sstep false) (repeat ".."%string j) (k, []) = ((j + k)%nat, []).
Proof. induction j as [|j IH]; intros k; [reflexivity|]. cbn [repeat fold_left]. change (sstep false (k, []) "..") with (S k, @nil string). rewrite IH. f_equal. lia. Qed.
Lemma head_not_rooted l : l <> [] -> Forall no_slash l -> Forall (fun n => n <> EmptyString) l -> is_rooted (String.concat "/" l) = false.
Proof.
  destruct l as [|n l]; [congruence|]. intros _ H H'. apply Forall_inv in H as H1. apply Forall_inv in H' as H2. destruct n as [|a n]; [congruence|].
  assert (is_rooted (String a n) = false) as K by (cbn [is_rooted]; apply Ascii.eqb_neq; intros ->; apply H1; left; reflexivity). destruct l; exact K.
Qed.
Lemma relative_parts k st : Forall plain st -> Forall no_slash (repeat ".."%string k ++ st) /\ Forall (fun n => n <> EmptyString) (repeat ".."%string k ++ st).
Proof.
  intros H. split; apply Forall_app; split.
  - apply Forall_forall. intros n Hn. apply repeat_spec in Hn. subst n. intros K. vm_compute in K. intuition discriminate.
  - eapply Forall_impl; [|exact H]. intros n (_ & _ & _ & K). exact K.
  - apply Forall_forall. intros n Hn. apply repeat_spec in Hn. subst n. discriminate.
  - apply plain_nonempty, H.
Qed.
Lemma form_written rt k st : Forall plain st -> (rt = true -> k = O) -> is_rooted (written rt k st) = rt /\ form (written rt k st) = (k, st).
Proof.
  intros Hp Hk. assert (Forall plain (rev st)) as Hr by (apply Forall_rev, Hp). destruct rt; cbn [written].
  - rewrite (Hk eq_refl). split; [reflexivity|]. unfold form. change (is_rooted (String "/" (String.concat "/" (rev st)))) with true. rewrite swalk_slash. destruct (rev st) as [|n l] eqn:E.
    + apply (f_equal (@rev string)) in E. rewrite rev_involutive in E. subst st. reflexivity.
    + unfold swalk. rewrite pieces_concat; [|discriminate|]. 2: { eapply Forall_impl; [|exact Hr]. intros m (_ & _ & _ & K). exact K. }
      rewrite fold_names by exact Hr. rewrite <- E, rev_involutive, app_nil_r. reflexivity.
  - destruct (relative_parts k (rev st) Hr) as (H1 & H2). destruct (repeat ".."%string k ++ rev st) as [|n l] eqn:E.
    + apply app_eq_nil in E as (Ek & E). apply (f_equal (@rev string)) in E. rewrite rev_involutive in E. subst st. destruct k; [|discriminate Ek]. split; reflexivity.
    + rewrite <- E in *. assert (repeat ".."%string k ++ rev st <> []) as Hn by (rewrite E; discriminate). rewrite (head_not_rooted _ Hn H1 H2). split; [reflexivity|]. unfold form. rewrite (head_not_rooted _ Hn H1 H2).
      unfold swalk. rewrite pieces_concat by assumption. rewrite fold_left_app, fold_ups, fold_names by exact Hr. rewrite rev_involutive, app_nil_r, Nat.add_0_r. reflexivity.
Qed.
Lemma clean_is_form p : is_rooted (clean p) = is_rooted p /\ form (clean p) = form p.
Proof. rewrite clean_form. destruct (form_written (is_rooted p) (fst (form p)) (snd (form p)) (form_plain p) (form_rooted p)) as (K1 & K2). split; [exact K1|]. rewrite K2. destruct (form p); reflexivity. Qed.

(** * The theorems *)
(** The cleaned path names the same place as the path, seen from every directory. *)
Theorem C88_same_place p cwd : reach (clean p) cwd = reach p cwd.
Proof. rewrite !reach_form. destruct (clean_is_form p) as (-> & ->). reflexivity. Qed.
Print Assumptions C88_same_place.
(** It is written in the shortest way; what is written so is left alone. *)
Theorem C88_canonical p : canonical (clean p) /\ (canonical p -> clean p = p).
Proof.
  split.
  - rewrite clean_form. pose proof (form_plain p) as H. apply Forall_rev in H. unfold written. destruct (is_rooted p); [apply canonical_rooted, H|]. destruct (repeat ".."%string (fst (form p)) ++ rev (snd (form p))) as [|n l] eqn:E; [apply canonical_here|].
    rewrite <- E. apply canonical_relative; [exact H|]. rewrite E. discriminate.
  - assert (forall rt k ns, Forall plain ns -> (rt = true -> k = O) -> clean (written rt k (rev ns)) = written rt k (rev ns)) as K.
    { intros rt k ns H Hk. destruct (form_written rt k (rev ns) (Forall_rev H) Hk) as (K1 & K2). rewrite clean_form, K1, K2. reflexivity. }
    destruct 1 as [|ns H|k ns H Hn].
    + reflexivity.
    + specialize (K true O ns H (fun _ => eq_refl)). cbn [written] in K. rewrite rev_involutive in K. exact K.
    + specialize (K false k ns H ltac:(discriminate)). cbn [written] in K. rewrite rev_involutive in K. destruct (repeat ".."%string k ++ ns); [congruence|exact K].
Qed.
Print Assumptions C88_canonical.
Lemma fresh_split (x : string) a b n m : ~ In x a -> ~ In x b -> a ++ repeat x n = b ++ repeat x m -> a = b /\ n = m.
Proof.
  revert b. induction a as [|y a IH]; intros [|z b] Ha Hb E; cbn [app] in E.
  - split; [reflexivity|]. apply (f_equal (@length string)) in E. rewrite !repeat_length in E. exact E.
  - exfalso. destruct n; [discriminate E|]. injection E as E _. apply Hb. left. symmetry. exact E.
  - exfalso. destruct m; [discriminate E|]. injection E as E _. apply Ha. left. exact E.
  - injection E as -> E. destruct (IH b) as (-> & ->); [intros K; apply Ha; right; exact K|intros K; apply Hb; right; exact K|exact E|split; reflexivity].
Qed.
Fixpoint longer (l : list string) : string := match l with [] => "x"%string | s :: l' => ("x" ++ s ++ longer l')%string end.
Lemma length_app (a b : string) : String.length (a ++ b) = (String.length a + String.length b)%nat.
Proof. induction a as [|c a IH]; [reflexivity|]. cbn [append String.length]. rewrite IH. reflexivity. Qed.
Lemma longer_fresh l : ~ In (longer l) l.
Proof.
  assert (forall s, In s l -> String.length s < String.length (longer l))%nat as K.
  { induction l as [|t l IH]; intros s; [intros []|]. cbn [longer]. rewrite !length_app. intros [<- |H]; [cbn [String.length]; lia|]. specialize (IH _ H). lia. }
  intros H. specialize (K _ H). lia.
Qed.
Lemma skipn_repeat {A} (x : A) k : forall n, skipn k (repeat x n) = repeat x (n - k).
Proof. induction k as [|k IH]; intros [|n]; try reflexivity. cbn [repeat skipn Nat.sub]. apply IH. Qed.
(** Two paths are cleaned to the same text exactly if they name the same place seen from every directory. *)
Theorem C88_unique p q : clean p = clean q <-> forall cwd, reach p cwd = reach q cwd.
Proof.
  split; [intros E cwd; rewrite <- (C88_same_place p), <- (C88_same_place q), E; reflexivity|]. intros H.
  assert (is_rooted p = is_rooted q /\ form p = form q) as (E1 & E2); [|rewrite !clean_form, E1, E2; reflexivity].
  pose (x := longer (snd (form p) ++ snd (form q))). assert (~ In x (snd (form p)) /\ ~ In x (snd (form q))) as (Hp & Hq). { pose proof (longer_fresh (snd (form p) ++ snd (form q))) as K. fold x in K. rewrite in_app_iff in K. tauto. }
  specialize (H (repeat x (S (fst (form p) + fst (form q))))). rewrite !reach_form, !skipn_repeat in H. pose proof (form_rooted p) as Rp. pose proof (form_rooted q) as Rq. clearbody x. destruct (form p) as [k st], (form q) as [k' st']. cbn [fst snd] in *.
  assert (forall b : bool, (if b then [] else repeat x (S (k + k') - k)) = repeat x (if b then O else S (k + k') - k)%nat) as S1 by (intros []; reflexivity).
  assert (forall b : bool, (if b then [] else repeat x (S (k + k') - k')) = repeat x (if b then O else S (k + k') - k')%nat) as S2 by (intros []; reflexivity).
  rewrite S1, S2 in H. apply fresh_split in H as (-> & H); [|assumption..]. destruct (is_rooted p), (is_rooted q).
  - rewrite (Rp eq_refl), (Rq eq_refl). split; reflexivity.
  - exfalso. lia.
  - exfalso. lia.
  - split; [reflexivity|]. f_equal. lia.
Qed.
Print Assumptions C88_unique.
Example C88_examples : clean "a//b/../c/./d/.." = "a/c"%string /\ clean "/../../x/" = "/x"%string /\ clean "../a/../../b" = "../../b"%string /\ clean "a/.." = "."%string /\
  reach "a//b/../c/./d/.." ["home"%string] = ["c"; "a"; "home"]%string /\ reach "../a/../../b" ["work"; "user"; "home"]%string = ["b"; "home"]%string.
Proof. vm_compute. repeat split; reflexivity. Qed.
(** JoinWithTestData: one path per name, in order: the place the name leads to from the directory testdata, even if the name starts with a slash.  Names of
    files in that directory, or below it, are just put behind "testdata/". *)
Lemma join_walk b : filepath_join ["testdata"%string; b] = clean ("testdata/" ++ b).
Proof. reflexivity. Qed.
Theorem C88_test_data bs : exists ps, join_with_test_data bs = ps /\
  Forall2 (fun b p => canonical p /\ (forall cwd, reach p cwd = walk b ("testdata"%string :: cwd)) /\ (Forall plain (pieces b) -> p = ("testdata/" ++ b)%string)) bs ps.
Proof.
  eexists. split; [reflexivity|]. assert (forall acc, fold_left (fun files b => files ++ [filepath_join ["testdata"%string; b]]) bs acc = acc ++ map (fun b => filepath_join ["testdata"%string; b]) bs) as E.
  { clear. induction bs as [|b bs IH]; intros acc; cbn [fold_left map]; [rewrite app_nil_r; reflexivity|]. rewrite IH, <- app_assoc. reflexivity. }
  unfold join_with_test_data. rewrite E. cbn [app]. clear E. induction bs as [|b bs IH]; cbn [map]; constructor; [|exact IH]. rewrite join_walk. split; [apply C88_canonical|]. split.
  - intros cwd. rewrite C88_same_place. reflexivity.
  - intros H. apply C88_canonical. assert (("testdata/" ++ b)%string = String.concat "/" (repeat ".."%string 0 ++ "testdata"%string :: pieces b)) as ->.
    { cbn [repeat app]. assert (String.concat "/" (pieces b) = b) as K. { clear. induction b as [|a b IH]; [reflexivity|]. cbn [pieces]. pose proof (pieces_nonempty b) as Hn. destruct (Ascii.eqb a "/") eqn:Ea.
        - apply Ascii.eqb_eq in Ea. subst a. destruct (pieces b) as [|n l]; [congruence|]. rewrite concat_cons, IH. reflexivity.
        - destruct (pieces b) as [|n l]; [congruence|]. rewrite <- IH. destruct l; reflexivity. }
      destruct (pieces b) as [|n l] eqn:Ep; [destruct (pieces_nonempty b Ep)|]. rewrite concat_cons, K. reflexivity. }
    apply canonical_relative; [|discriminate]. constructor; [|exact H]. repeat split; try discriminate. intros K. vm_compute in K. intuition discriminate.
Qed.
Print Assumptions C88_test_data.
Example C88_test_data_example : join_with_test_data ["a.txt"; "sub/b.txt"; "../c.txt"; "/etc/x"; ""]%string = ["testdata/a.txt"; "testdata/sub/b.txt"; "c.txt"; "testdata/etc/x"; "testdata"]%string /\ Forall plain (pieces "sub/b.txt").
Proof. split; [vm_compute; reflexivity|]. vm_compute pieces. repeat apply Forall_cons; try apply Forall_nil; (repeat split; try discriminate; intros K; vm_compute in K; intuition discriminate). Qed.
