(** Property C65: queues and dice logs share no memory with their callers. *)
From Verif Require Import ProofBase GoMem.
Open Scope list_scope.
Open Scope nat_scope.

(** What the slices of the caller show, what the objects contain *)
Definition shown (w : world) : list (list die) := map (contents (w_mem w)) (w_held w).
Definition held_by_objects (w : world) : list (list die) := map (contents (w_mem w)) (w_objs w).
(** The action is a call of a method or constructor *)
Definition is_call (a : action) : Prop := match a with HMake _ | HStore _ _ _ | HSlice _ _ _ | HAppend _ _ _ | HCopy _ _ => False | _ => True end.

(** ** Specification: the objects as plain lists.  An action sees only the present contents of the slices it is given. *)
Definition at_ {A} (l : list (list die)) (k : nat) (none : A) (f : list die -> A) : A := match nth_error l k with Some x => f x | None => none end.
Definition expected (slices lists : list (list die)) (a : action) : list (list die) * answer :=
  match a with
  | HMake _ | HStore _ _ _ | HSlice _ _ _ | HAppend _ _ _ | HCopy _ _ => (lists, Nothing)        (* the caller's own business *)
  | New k _ => at_ slices k (lists, Nothing) (fun l => (lists ++ [l], Nothing))
  | NewEmpty => (lists ++ [[]], Nothing)
  | Push o d _ => at_ lists o (lists, Nothing) (fun q => (put lists o (q ++ [d]), Nothing))
  | Append o k _ => at_ lists o (lists, Nothing) (fun q => at_ slices k (lists, Nothing) (fun l => (put lists o (q ++ l), Nothing)))
  | Set_ o k => at_ lists o (lists, Nothing) (fun q => at_ slices k (lists, Nothing) (fun l => (put lists o l, Nothing)))
  | Clear o => at_ lists o (lists, Nothing) (fun q => (put lists o [], Nothing))
  | Next o => at_ lists o (lists, Nothing) (fun q => match q with [] => (lists, ANoDie) | d :: q' => (put lists o q', ADie d) end)
  | Dice o => (lists, Nothing)
  | Remaining o => at_ lists o (lists, Nothing) (fun q => (lists, ANumber (length q)))
  end.

(** ** Proof *)
Lemma put_length {A} (l : list A) i x : length (put l i x) = length l.
Proof. revert i. induction l as [|y l IH]; intros [|i]; cbn [put length]; congruence. Qed.
Lemma put_nth {A} (l : list A) i j x : nth_error (put l i x) j = if (i =? j) && (i <? length l) then Some x else nth_error l j.
Proof.
  revert i j. induction l as [|y l IH]; intros i j.
  - cbn [put length]. destruct j; cbn [nth_error]; rewrite Bool.andb_comm; reflexivity.
  - destruct i as [|i], j as [|j]; cbn [put nth_error length]; try reflexivity. rewrite IH. reflexivity.
Qed.
Lemma array_error m a : a < length m -> nth_error m a = Some (array m a).
Proof. intros H. unfold array. apply nth_error_nth'. exact H. Qed.
Lemma array_put m a l b : array (put m a l) b = if (a =? b) && (a <? length m) then l else array m b.
Proof.
  unfold array. destruct (lt_dec b (length m)) as [H|H].
  - rewrite (nth_error_nth _ _ _ (x := if (a =? b) && (a <? length m) then l else nth b m [])); [reflexivity|].
    rewrite put_nth. destruct ((a =? b) && (a <? length m)); [reflexivity|]. apply nth_error_nth'. exact H.
  - rewrite !nth_overflow by (rewrite ?put_length; lia). destruct (Nat.eqb_spec a b) as [->|]; [|reflexivity]. replace (b <? length m) with false by (symmetry; apply Nat.ltb_ge; lia). reflexivity.
Qed.
Lemma array_app m l b : array (m ++ [l]) b = if b <? length m then array m b else if b =? length m then l else [].
Proof.
  unfold array. destruct (Nat.ltb_spec b (length m)) as [H|H]; [apply app_nth1; exact H|]. rewrite app_nth2 by exact H.
  destruct (Nat.eqb_spec b (length m)) as [->|]; [rewrite Nat.sub_diag; reflexivity|]. destruct (b - length m) as [|[|]] eqn:E; [lia|reflexivity|reflexivity].
Qed.

(** Only the array [a] may differ; arrays keep their sizes. *)
Definition changes (a : nat) (m m' : memory) : Prop :=
  length m <= length m' /\ forall b, b < length m -> length (array m' b) = length (array m b) /\ (b <> a -> array m' b = array m b).
Definition wf (m : memory) (s : slice) : Prop :=
  sl_arr s < length m /\ sl_len s <= sl_cap s /\ sl_off s + sl_cap s <= length (array m (sl_arr s)).
Lemma changes_refl a m : changes a m m.
Proof. split; [lia|]. auto. Qed.
Lemma changes_trans a b m m1 m2 : changes a m m1 -> changes b m1 m2 -> b = a \/ length m <= b -> changes a m m2.
Proof.
  intros (L1 & H1) (L2 & H2) Hb. split; [lia|]. intros c Hc. destruct (H1 c Hc) as (E1 & K1). destruct (H2 c ltac:(lia)) as (E2 & K2). split; [congruence|].
  intros Hca. rewrite K2, K1; [reflexivity|exact Hca|]. destruct Hb; lia.
Qed.
Lemma changes_put a m l : length l = length (array m a) -> changes a m (put m a l).
Proof.
  intros Hl. split; [rewrite put_length; lia|]. intros b Hb. rewrite array_put. destruct (Nat.eqb_spec a b) as [->|E].
  - replace (b <? length m) with true by (symmetry; apply Nat.ltb_lt; lia). cbn [andb]. split; [exact Hl|congruence].
  - split; reflexivity.
Qed.
Lemma changes_fresh a m l : changes a m (m ++ [l]).
Proof. split; [rewrite app_length; lia|]. intros b Hb. rewrite array_app. replace (b <? length m) with true by (symmetry; apply Nat.ltb_lt; lia). auto. Qed.
Lemma wf_changes a m m' s : changes a m m' -> wf m s -> wf m' s.
Proof. intros (L & H) (H1 & H2 & H3). destruct (H _ H1) as (E & _). split; [lia|]. split; [exact H2|]. rewrite E. exact H3. Qed.
Lemma contents_changes a m m' s : changes a m m' -> wf m s -> sl_arr s <> a -> contents m' s = contents m s.
Proof. intros (L & H) (H1 & _) Ha. destruct (H _ H1) as (_ & E). unfold contents. rewrite E by exact Ha. reflexivity. Qed.
Lemma contents_length m s : wf m s -> length (contents m s) = sl_len s.
Proof. intros (_ & H2 & H3). unfold contents. rewrite firstn_length, skipn_length. lia. Qed.
Lemma load_contents m s i : wf m s -> go_load m s i = nth_error (contents m s) i.
Proof.
  intros H. unfold go_load. destruct (Nat.ltb_spec i (sl_len s)) as [Hi|Hi].
  - unfold contents. revert Hi. generalize (sl_len s) as n, (array m (sl_arr s)) as l, (sl_off s) as o. clear. intros n l o Hi.
    revert l n i Hi. induction o as [|o IH]; intros l n i Hi.
    + cbn [skipn Nat.add]. revert n i Hi. induction l as [|y l IH]; intros [|n] [|i] Hi; try lia; cbn [firstn nth_error]; try reflexivity. apply IH. lia.
    + destruct l as [|y l]; cbn [skipn Nat.add nth_error]; [|apply IH; exact Hi]. rewrite firstn_nil. destruct i; reflexivity.
  - symmetry. apply nth_error_None. rewrite contents_length by exact H. exact Hi.
Qed.
(** Growing a slice in place *)
Lemma firstn_put {A} (l : list A) o n d : o + n < length l -> firstn (S n) (skipn o (put l (o + n) d)) = firstn n (skipn o l) ++ [d].
Proof.
  revert l. induction o as [|o IH]; intros l H.
  - cbn [Nat.add skipn]. cbn [Nat.add] in H. revert n H. induction l as [|y l IHl]; intros n H; [cbn in H; lia|]. destruct n as [|n]; [reflexivity|]. cbn [put]. cbn [length] in H.
    cbn [firstn app]. f_equal. change (firstn (S n) (put l n d) = firstn n l ++ [d]). apply IHl. lia.
  - destruct l as [|y l]; [cbn in H; lia|]. cbn [Nat.add put skipn]. apply IH. cbn [length] in H. lia.
Qed.
(** An update of the slice [q] with elements added *)
Definition pushed (m : memory) (q : slice) (m' : memory) (q' : slice) (l : list die) : Prop :=
  changes (sl_arr q) m m' /\ (sl_arr q' = sl_arr q \/ length m <= sl_arr q') /\ wf m' q' /\ contents m' q' = contents m q ++ l.
Lemma append_pushed m q d g : wf m q -> pushed m q (fst (go_append m q d g)) (snd (go_append m q d g)) [d].
Proof.
  intros Hq. pose proof (contents_length m q Hq) as Hc. destruct Hq as (H1 & H2 & H3). unfold go_append. destruct (Nat.ltb_spec (sl_len q) (sl_cap q)) as [H|H]; cbn [fst snd].
  - split; [apply changes_put; apply put_length|]. split; [left; reflexivity|]. split.
    + unfold wf. cbn. rewrite put_length, array_put, Nat.eqb_refl. replace (sl_arr q <? length m) with true by (symmetry; apply Nat.ltb_lt; lia). cbn [andb]. rewrite put_length. lia.
    + unfold contents. cbn [sl_arr sl_off sl_len]. rewrite array_put, Nat.eqb_refl. replace (sl_arr q <? length m) with true by (symmetry; apply Nat.ltb_lt; lia). cbn [andb]. apply firstn_put. lia.
  - split; [apply changes_fresh|]. split; [right; reflexivity|]. split.
    + unfold wf. cbn. rewrite app_length, array_app, Nat.ltb_irrefl, Nat.eqb_refl, app_length. cbn [length]. rewrite repeat_length, Hc. lia.
    + unfold contents at 1. cbn [sl_arr sl_off sl_len]. rewrite array_app, Nat.ltb_irrefl, Nat.eqb_refl. cbn [skipn].
      replace (contents m q ++ d :: repeat zero_die g) with ((contents m q ++ [d]) ++ repeat zero_die g) by (rewrite <- app_assoc; reflexivity).
      rewrite firstn_app. assert (length (contents m q ++ [d]) = S (sl_len q)) as Hd by (rewrite app_length, Hc, Nat.add_comm; reflexivity). rewrite Hd, Nat.sub_diag, firstn_O, app_nil_r. apply firstn_all2. rewrite Hd. apply le_n.
Qed.
Lemma pushed_trans m q m1 q1 l1 m2 q2 l2 : sl_arr q < length m -> pushed m q m1 q1 l1 -> pushed m1 q1 m2 q2 l2 -> pushed m q m2 q2 (l1 ++ l2).
Proof.
  intros Hq (C1 & A1 & W1 & E1) (C2 & A2 & W2 & E2). split; [eapply changes_trans; eassumption|]. split; [|split; [exact W2|]].
  - destruct C1 as (L1 & _). destruct A2 as [->|A2]; [exact A1|right; lia].
  - rewrite E2, E1, app_assoc. reflexivity.
Qed.
Lemma skipn_nth {A} (l : list A) i x : nth_error l i = Some x -> skipn i l = x :: skipn (S i) l.
Proof. revert l. induction i as [|i IH]; intros [|y l] H; try discriminate H; [injection H as ->; reflexivity|]. exact (IH l H). Qed.
Lemma append_loop_pushed g n m q src i : wf m q -> wf m src -> sl_arr src <> sl_arr q -> i + n = sl_len src ->
  let r := m_append_loop m q src i n g in pushed m q (fst r) (snd r) (skipn i (contents m src)).
Proof.
  revert m q i. induction n as [|n IH]; intros m q i Hq Hs Ha Hi; cbn [m_append_loop].
  - cbn. split; [apply changes_refl|]. split; [left; reflexivity|]. split; [exact Hq|]. rewrite skipn_all2, app_nil_r; [reflexivity|]. rewrite contents_length by exact Hs. lia.
  - rewrite load_contents by exact Hs. destruct (nth_error (contents m src) i) as [d|] eqn:E.
    2:{ apply nth_error_None in E. rewrite contents_length in E by exact Hs. lia. }
    pose proof (append_pushed m q d (g i) Hq) as P. unfold m_push. destruct (go_append m q d (g i)) as (m1, q1) eqn:E1. cbn [fst snd] in P. pose proof P as (C & A & W & K).
    rewrite (skipn_nth _ _ _ E). change (d :: skipn (S i) (contents m src)) with ([d] ++ skipn (S i) (contents m src)). eapply pushed_trans; [destruct Hq as (Hq & _); exact Hq|exact P|].
    rewrite <- (contents_changes _ _ _ src C Hs Ha). apply IH; [exact W|eapply wf_changes; eassumption| |lia].
    destruct A as [->|A]; [exact Ha|]. destruct Hs as (Hs & _). lia.
Qed.
Lemma append_all m q src g : wf m q -> wf m src -> sl_arr src <> sl_arr q -> let r := m_append m q src g in pushed m q (fst r) (snd r) (contents m src).
Proof. intros Hq Hs Ha. exact (append_loop_pushed g (sl_len src) m q src 0 Hq Hs Ha eq_refl). Qed.
(** A new array *)
Definition created (m : memory) (m' : memory) (q' : slice) (l : list die) : Prop :=
  (forall a, changes a m m') /\ length m <= sl_arr q' /\ wf m' q' /\ contents m' q' = l.
Lemma fresh_created m l : created m (fst (fresh m l)) (snd (fresh m l)) l.
Proof.
  unfold fresh. cbn [fst snd]. split; [intros a; apply changes_fresh|]. split; [cbn; lia|]. split.
  - unfold wf. cbn. rewrite app_length, array_app, Nat.ltb_irrefl, Nat.eqb_refl. cbn. lia.
  - unfold contents. cbn [sl_arr sl_off sl_len]. rewrite array_app, Nat.ltb_irrefl, Nat.eqb_refl. cbn [skipn]. apply firstn_all.
Qed.
Lemma new_created m src g : wf m src -> created m (fst (m_new m src g)) (snd (m_new m src g)) (contents m src).
Proof.
  intros Hs. unfold m_new, m_clear. pose proof (fresh_created m []) as (C & L & W & E). destruct (fresh m []) as (m1, q1) eqn:E1. cbn [fst snd] in C, L, W, E.
  pose proof (wf_changes _ _ _ src (C 0) Hs) as Hs1. assert (sl_arr src <> sl_arr q1) as Ha by (destruct Hs as (Hs & _); lia).
  pose proof (append_all m1 q1 src g W Hs1 Ha) as (C2 & A2 & W2 & E2). split.
  - intros a. eapply changes_trans; [apply C|exact C2|]. right. exact L.
  - split; [|split; [exact W2|]].
    + destruct (C 0) as (L1 & _). destruct A2 as [->|A2]; lia.
    + rewrite E2, E. cbn [app]. apply (contents_changes (sl_arr q1) _ _ _ (C _) Hs Ha).
Qed.
Lemma copy_created m src : wf m src -> created m (fst (m_set m src)) (snd (m_set m src)) (contents m src).
Proof.
  intros Hs. pose proof (contents_length m src Hs) as Hl. unfold m_set, go_make, fresh. rewrite repeat_length. set (q := Slice (length m) 0 (sl_len src) (sl_len src)).
  assert (array (m ++ [repeat zero_die (sl_len src)]) (length m) = repeat zero_die (sl_len src)) as Ha by (rewrite array_app, Nat.ltb_irrefl, Nat.eqb_refl; reflexivity).
  assert (contents (m ++ [repeat zero_die (sl_len src)]) src = contents m src) as Hc.
  { apply (contents_changes (length m)); [apply changes_fresh|exact Hs|]. destruct Hs as (Hs & _). lia. }
  unfold go_copy. cbn [fst snd]. change (sl_arr q) with (length m). change (sl_off q) with 0. change (sl_len q) with (sl_len src). rewrite Ha, Hc. rewrite (firstn_all2 (contents m src)) by lia. cbn [firstn app Nat.add].
  rewrite Hl, skipn_all2, app_nil_r by (rewrite repeat_length; lia).
  assert (changes (length m) (m ++ [repeat zero_die (sl_len src)]) (put (m ++ [repeat zero_die (sl_len src)]) (length m) (contents m src))) as C by (apply changes_put; rewrite Ha, repeat_length; exact Hl).
  assert (array (put (m ++ [repeat zero_die (sl_len src)]) (length m) (contents m src)) (length m) = contents m src) as Ha'.
  { rewrite array_put, Nat.eqb_refl, app_length. replace (length m <? length m + length [repeat zero_die (sl_len src)]) with true by (symmetry; apply Nat.ltb_lt; cbn; lia). reflexivity. }
  split; [intros a; eapply changes_trans; [apply changes_fresh|exact C|right; lia]|]. split; [cbn; lia|]. split.
  - unfold wf. cbn [q sl_arr sl_off sl_len sl_cap]. rewrite put_length, app_length, Ha', Hl. cbn. lia.
  - unfold contents at 1. cbn [q sl_arr sl_off sl_len]. rewrite Ha'. cbn [skipn]. rewrite <- Hl. apply firstn_all.
Qed.

(** The invariant: every object has an array of its own. *)
Record inv (w : world) : Prop := {
  i_objs : forall o q, nth_error (w_objs w) o = Some q -> wf (w_mem w) q;
  i_held : forall k s, nth_error (w_held w) k = Some s -> wf (w_mem w) s;
  i_own : forall o o' q q', nth_error (w_objs w) o = Some q -> nth_error (w_objs w) o' = Some q' -> sl_arr q = sl_arr q' -> o = o';
  i_apart : forall o k q s, nth_error (w_objs w) o = Some q -> nth_error (w_held w) k = Some s -> sl_arr s <> sl_arr q }.
Lemma map_same {A B} (f g : A -> B) l : (forall i x, nth_error l i = Some x -> f x = g x) -> map f l = map g l.
Proof. intros H. apply map_ext_in. intros x Hx. apply In_nth_error in Hx as (i & Hi). exact (H i x Hi). Qed.
Lemma map_put {A B} (f : A -> B) l i x : map f (put l i x) = put (map f l) i (f x).
Proof. revert i. induction l as [|y l IH]; intros [|i]; cbn [put map]; congruence. Qed.
Lemma nth_app {A} (l : list A) x i y : nth_error (l ++ [x]) i = Some y -> nth_error l i = Some y \/ (i = length l /\ y = x).
Proof.
  intros H. destruct (lt_dec i (length l)) as [Hi|Hi]; [rewrite nth_error_app1 in H by exact Hi; auto|]. rewrite nth_error_app2 in H by lia.
  destruct (i - length l) as [|n] eqn:E; [injection H as ->; right; split; [lia|reflexivity]|]. destruct n; discriminate H.
Qed.
(** The caller changes an array that is not an object's. *)
Lemma caller_changes w a m' : inv w -> changes a (w_mem w) m' -> (forall o q, nth_error (w_objs w) o = Some q -> sl_arr q <> a) ->
  inv (World m' (w_objs w) (w_held w)) /\ map (contents m') (w_objs w) = held_by_objects w.
Proof.
  intros [I1 I2 I3 I4] C Ha. split.
  - constructor; cbn [w_mem w_objs w_held]; [| |exact I3|exact I4]; intros; eapply wf_changes; eauto.
  - apply map_same. intros i x Hx. eapply contents_changes; [exact C|eauto|eauto].
Qed.
(** The caller gets a slice of an array that is not an object's. *)
Lemma inv_hold w s : inv w -> wf (w_mem w) s -> (forall o q, nth_error (w_objs w) o = Some q -> sl_arr s <> sl_arr q) -> inv (World (w_mem w) (w_objs w) (w_held w ++ [s])).
Proof.
  intros [I1 I2 I3 I4] Hs Ha. constructor; cbn [w_mem w_objs w_held]; [exact I1| |exact I3|].
  - intros k s' H. apply nth_app in H as [H|(_ & ->)]; [eauto|exact Hs].
  - intros o k q s' Hq H. apply nth_app in H as [H|(_ & ->)]; eauto.
Qed.
(** A method leaves a new slice in an object. *)
Lemma inv_assign w o q m' q' l : inv w -> nth_error (w_objs w) o = Some q -> changes (sl_arr q) (w_mem w) m' -> (sl_arr q' = sl_arr q \/ length (w_mem w) <= sl_arr q') -> wf m' q' -> contents m' q' = l ->
  let w' := World m' (put (w_objs w) o q') (w_held w) in inv w' /\ held_by_objects w' = put (held_by_objects w) o l /\ shown w' = shown w.
Proof.
  intros [I1 I2 I3 I4] Hq C A W E. assert (o < length (w_objs w)) as Ho by (apply nth_error_Some; congruence).
  assert (forall o' x, nth_error (put (w_objs w) o q') o' = Some x -> (o' = o /\ x = q') \/ (o' <> o /\ nth_error (w_objs w) o' = Some x)) as Hput.
  { intros o' x H. rewrite put_nth in H. destruct (Nat.eqb_spec o o') as [<-|Hn]; [|right; split; [lia|exact H]]. replace (o <? length (w_objs w)) with true in H by (symmetry; apply Nat.ltb_lt; lia). cbn in H. injection H as <-. left. auto. }
  split; [|split].
  - constructor; cbn [w_mem w_objs w_held].
    + intros o' x H. apply Hput in H as [(_ & ->)|(_ & H)]; [exact W|]. eapply wf_changes; eauto.
    + intros k s H. eapply wf_changes; eauto.
    + intros o1 o2 x1 x2 H1 H2 Ha. apply Hput in H1 as [(-> & ->)|(N1 & H1)]; apply Hput in H2 as [(-> & ->)|(N2 & H2)]; [reflexivity| | |eauto].
      * destruct A as [A|A]; [symmetry; apply (I3 o2 o x2 q H2 Hq); congruence|]. destruct (I1 _ _ H2) as (L & _). lia.
      * destruct A as [A|A]; [apply (I3 o1 o x1 q H1 Hq); congruence|]. destruct (I1 _ _ H1) as (L & _). lia.
    + intros o' k x s H Hs. apply Hput in H as [(_ & ->)|(_ & H)]; [|eauto]. destruct A as [->|A]; [eauto|]. destruct (I2 _ _ Hs) as (L & _). lia.
  - unfold held_by_objects. cbn [w_mem w_objs]. rewrite map_put, E. assert (forall i x, nth_error (w_objs w) i = Some x -> i <> o -> contents m' x = contents (w_mem w) x) as Hsame.
    { intros i x Hx Hi. apply (contents_changes (sl_arr q)); [exact C|eauto|]. intros K. apply Hi. exact (I3 i o x q Hx Hq K). }
    revert Hsame. clear. generalize (w_objs w) as L. intros L. revert o. induction L as [|y L IH]; intros o Hsame; [reflexivity|]. destruct o as [|o]; cbn [map put].
    + f_equal. apply map_same. intros i x Hx. exact (Hsame (S i) x Hx ltac:(lia)).
    + f_equal; [exact (Hsame 0 y eq_refl ltac:(lia))|]. apply IH. intros i x Hx Hi. exact (Hsame (S i) x Hx ltac:(lia)).
  - unfold shown. cbn [w_mem w_held]. apply map_same. intros k s Hs. apply (contents_changes (sl_arr q)); [exact C|eauto|eauto].
Qed.
Lemma inv_create w m' q' l : inv w -> created (w_mem w) m' q' l ->
  let w' := World m' (w_objs w ++ [q']) (w_held w) in inv w' /\ held_by_objects w' = held_by_objects w ++ [l] /\ shown w' = shown w.
Proof.
  intros [I1 I2 I3 I4] (C & A & W & E). split; [|split].
  - constructor; cbn [w_mem w_objs w_held].
    + intros o x H. apply nth_app in H as [H|(_ & ->)]; [|exact W]. eapply wf_changes; [apply (C 0)|eauto].
    + intros k s H. eapply wf_changes; [apply (C 0)|eauto].
    + intros o1 o2 x1 x2 H1 H2 Ha. apply nth_app in H1 as [H1|(-> & ->)]; apply nth_app in H2 as [H2|(-> & ->)]; [eauto| | |reflexivity].
      * destruct (I1 _ _ H1) as (L & _). lia.
      * destruct (I1 _ _ H2) as (L & _). lia.
    + intros o k x s H Hs. apply nth_app in H as [H|(_ & ->)]; [eauto|]. destruct (I2 _ _ Hs) as (L & _). lia.
  - unfold held_by_objects. cbn [w_mem w_objs]. rewrite map_app. cbn [map]. rewrite E. f_equal. apply map_same. intros o x H. destruct (I1 _ _ H) as (L & _). apply (contents_changes (length (w_mem w))); [apply C|eauto|lia].
  - unfold shown. cbn [w_mem w_held]. apply map_same. intros k s H. destruct (I2 _ _ H) as (L & _). apply (contents_changes (length (w_mem w))); [apply C|eauto|lia].
Qed.
(** A method hands out a new array. *)
Lemma inv_give w m' s l : inv w -> created (w_mem w) m' s l ->
  let w' := World m' (w_objs w) (w_held w ++ [s]) in inv w' /\ held_by_objects w' = held_by_objects w /\ shown w' = shown w ++ [l].
Proof.
  intros I (C & A & W & E). pose proof (caller_changes w (length (w_mem w)) m' I (C _)) as (I' & Ho).
  { intros o q H. destruct (i_objs w I _ _ H) as (L & _). lia. }
  split; [|split].
  - apply (inv_hold (World m' (w_objs w) (w_held w)) s I' W). cbn [w_objs]. intros o q H. destruct (i_objs w I _ _ H) as (L & _). lia.
  - exact Ho.
  - unfold shown. cbn [w_mem w_held]. rewrite map_app. cbn [map]. rewrite E. f_equal. apply map_same. intros k x H. destruct (i_held w I _ _ H) as (L & _). apply (contents_changes (length (w_mem w))); [apply C|exact (i_held w I _ _ H)|lia].
Qed.
Definition given (w : world) (a : action) : list (list die) := match a with Dice o => at_ (held_by_objects w) o [] (fun q => [q]) | _ => [] end.
Lemma step_ok w a : inv w -> inv (fst (step w a)) /\ (held_by_objects (fst (step w a)), snd (step w a)) = expected (shown w) (held_by_objects w) a /\
  (is_call a -> shown (fst (step w a)) = shown w ++ given w a).
Proof.
  intros I. assert (forall k s, nth_error (w_held w) k = Some s -> nth_error (shown w) k = Some (contents (w_mem w) s)) as Nh by (intros k s H; unfold shown; rewrite nth_error_map, H; reflexivity).
  assert (forall k, nth_error (w_held w) k = None -> nth_error (shown w) k = None) as Nh' by (intros k H; unfold shown; rewrite nth_error_map, H; reflexivity).
  assert (forall o q, nth_error (w_objs w) o = Some q -> nth_error (held_by_objects w) o = Some (contents (w_mem w) q)) as No by (intros o q H; unfold held_by_objects; rewrite nth_error_map, H; reflexivity).
  assert (forall o, nth_error (w_objs w) o = None -> nth_error (held_by_objects w) o = None) as No' by (intros o H; unfold held_by_objects; rewrite nth_error_map, H; reflexivity).
  destruct a as [l|k i d|k a b|k d g|k k'|k g| |o d g|o k g|o k|o|o|o|o]; cbn [step expected is_call given]; unfold at_; rewrite ?app_nil_r.
  - pose proof (fresh_created (w_mem w) l) as F. destruct (inv_give w _ _ _ I F) as (I' & H1 & H2). split; [exact I'|]. split; [|intros []]. exact (f_equal (fun x => (x, Nothing)) H1).
  - destruct (nth_error (w_held w) k) as [s|] eqn:Es; [|cbn; auto]. unfold go_store. destruct (Nat.ltb_spec i (sl_len s)) as [Hi|Hi]; [|cbn; auto]. cbn [fst snd].
    destruct (caller_changes w (sl_arr s) (put (w_mem w) (sl_arr s) (put (array (w_mem w) (sl_arr s)) (sl_off s + i) d)) I) as (I' & Ho).
    { apply changes_put. apply put_length. } { intros o q Hq K. exact (i_apart w I o k q s Hq Es (eq_sym K)). }
    split; [exact I'|]. split; [|intros []]. unfold held_by_objects at 1. cbn [w_mem w_objs]. rewrite Ho. reflexivity.
  - destruct (nth_error (w_held w) k) as [s|] eqn:Es; [|cbn; auto]. unfold go_slice. destruct ((a <=? b) && (b <=? sl_cap s)) eqn:Hab; [|cbn; auto]. apply andb_prop in Hab as (H1 & H2). apply Nat.leb_le in H1, H2. cbn [fst snd].
    split; [|split; [reflexivity|intros []]]. apply inv_hold; [exact I| |].
    + destruct (i_held w I _ _ Es) as (K1 & K2 & K3). unfold wf. cbn. lia.
    + cbn. intros o q Hq. exact (i_apart w I o k q s Hq Es).
  - destruct (nth_error (w_held w) k) as [s|] eqn:Es; [|cbn; auto]. pose proof (append_pushed (w_mem w) s d g (i_held w I _ _ Es)) as (C & A & W & E). destruct (go_append (w_mem w) s d g) as (m', s') eqn:Eg. cbn [fst snd] in *.
    destruct (caller_changes w (sl_arr s) m' I C) as (I' & Ho). { intros o q Hq K. exact (i_apart w I o k q s Hq Es (eq_sym K)). }
    split; [|split; [|intros []]].
    + apply (inv_hold (World m' (w_objs w) (w_held w)) s' I' W). cbn [w_objs]. intros o q Hq. destruct A as [->|A]; [exact (i_apart w I o k q s Hq Es)|]. destruct (i_objs w I _ _ Hq) as (L & _). lia.
    + unfold held_by_objects at 1. cbn [w_mem w_objs]. rewrite Ho. reflexivity.
  - destruct (nth_error (w_held w) k) as [s|] eqn:Es; [|cbn; auto]. destruct (nth_error (w_held w) k') as [s'|] eqn:Es'; [|cbn; auto]. cbn [fst snd].
    destruct (caller_changes w (sl_arr s) (go_copy (w_mem w) s s') I) as (I' & Ho).
    { unfold go_copy. apply changes_put. destruct (i_held w I _ _ Es) as (K1 & K2 & K3). rewrite !app_length, skipn_length, firstn_length.
      assert (length (firstn (sl_len s) (contents (w_mem w) s')) <= sl_len s) by (rewrite firstn_length; lia). lia. }
    { intros o q Hq K. exact (i_apart w I o k q s Hq Es (eq_sym K)). }
    split; [exact I'|]. split; [|intros []]. unfold held_by_objects at 1. cbn [w_mem w_objs]. rewrite Ho. reflexivity.
  - destruct (nth_error (w_held w) k) as [s|] eqn:Es; [rewrite (Nh _ _ Es)|rewrite (Nh' _ Es); cbn; auto]. pose proof (new_created (w_mem w) s g (i_held w I _ _ Es)) as F.
    destruct (inv_create w _ _ _ I F) as (I' & H1 & H2). cbn [fst snd]. split; [exact I'|]. split; [|intros _; exact H2]. exact (f_equal (fun x => (x, Nothing)) H1).
  - pose proof (fresh_created (w_mem w) []) as F. destruct (inv_create w _ _ _ I F) as (I' & H1 & H2). cbn [fst snd]. split; [exact I'|]. split; [|intros _; exact H2]. exact (f_equal (fun x => (x, Nothing)) H1).
  - destruct (nth_error (w_objs w) o) as [q|] eqn:Eq; [rewrite (No _ _ Eq)|rewrite (No' _ Eq); cbn; auto]. pose proof (append_pushed (w_mem w) q d g (i_objs w I _ _ Eq)) as (C & A & W & E). fold (m_push (w_mem w) q d g) in *.
    destruct (inv_assign w o q _ _ _ I Eq C A W E) as (I' & H1 & H2). cbn [fst snd]. split; [exact I'|]. split; [|intros _; exact H2]. exact (f_equal (fun x => (x, Nothing)) H1).
  - destruct (nth_error (w_objs w) o) as [q|] eqn:Eq; [rewrite (No _ _ Eq)|rewrite (No' _ Eq); cbn; auto]. destruct (nth_error (w_held w) k) as [s|] eqn:Es; [rewrite (Nh _ _ Es)|rewrite (Nh' _ Es); cbn; auto].
    pose proof (append_all (w_mem w) q s g (i_objs w I _ _ Eq) (i_held w I _ _ Es) (i_apart w I _ _ _ _ Eq Es)) as (C & A & W & E).
    destruct (inv_assign w o q _ _ _ I Eq C A W E) as (I' & H1 & H2). cbn [fst snd]. split; [exact I'|]. split; [|intros _; exact H2]. exact (f_equal (fun x => (x, Nothing)) H1).
  - destruct (nth_error (w_objs w) o) as [q|] eqn:Eq; [rewrite (No _ _ Eq)|rewrite (No' _ Eq); cbn; auto]. destruct (nth_error (w_held w) k) as [s|] eqn:Es; [rewrite (Nh _ _ Es)|rewrite (Nh' _ Es); cbn; auto].
    pose proof (copy_created (w_mem w) s (i_held w I _ _ Es)) as (C & A & W & E).
    destruct (inv_assign w o q _ _ _ I Eq (C _) (or_intror A) W E) as (I' & H1 & H2). cbn [fst snd]. split; [exact I'|]. split; [|intros _; exact H2]. exact (f_equal (fun x => (x, Nothing)) H1).
  - destruct (nth_error (w_objs w) o) as [q|] eqn:Eq; [rewrite (No _ _ Eq)|rewrite (No' _ Eq); cbn; auto].
    pose proof (fresh_created (w_mem w) []) as (C & A & W & E).
    destruct (inv_assign w o q _ _ _ I Eq (C _) (or_intror A) W E) as (I' & H1 & H2). cbn [fst snd]. split; [exact I'|]. split; [|intros _; exact H2]. exact (f_equal (fun x => (x, Nothing)) H1).
  - destruct (nth_error (w_objs w) o) as [q|] eqn:Eq; [rewrite (No _ _ Eq)|rewrite (No' _ Eq); cbn; auto]. pose proof (i_objs w I _ _ Eq) as Wq. pose proof (contents_length _ _ Wq) as Hl. unfold m_next.
    destruct (Nat.eqb_spec (sl_len q) 0) as [H0|H0].
    + destruct (contents (w_mem w) q) as [|d l]; [|cbn in Hl; lia]. cbn. auto.
    + rewrite (load_contents _ _ _ Wq). destruct (contents (w_mem w) q) as [|d l] eqn:Ec; [cbn in Hl; lia|]. cbn [nth_error]. unfold go_slice. destruct Wq as (K1 & K2 & K3).
      replace ((1 <=? sl_len q) && (sl_len q <=? sl_cap q)) with true by (symmetry; apply andb_true_intro; split; apply Nat.leb_le; lia). set (q' := Slice (sl_arr q) (sl_off q + 1) (sl_len q - 1) (sl_cap q - 1)).
      assert (wf (w_mem w) q') as W by (unfold wf, q'; cbn; lia).
      assert (contents (w_mem w) q' = l) as E.
      { unfold contents, q' in *. cbn [sl_arr sl_off sl_len]. rewrite Nat.add_comm. revert Ec. generalize (array (w_mem w) (sl_arr q)) as L, (sl_off q) as of. clear - H0. intros L of. revert L. induction of as [|of IH]; intros L Ec.
        - cbn [skipn Nat.add] in *. destruct L as [|x L]; [rewrite firstn_nil in Ec; discriminate Ec|]. destruct (sl_len q) as [|n]; [lia|]. cbn [firstn] in Ec. injection Ec as <- <-. cbn. rewrite Nat.sub_0_r. reflexivity.
        - destruct L as [|x L]; [cbn [skipn] in Ec; rewrite firstn_nil in Ec; discriminate Ec|]. cbn [skipn] in Ec. cbn [Nat.add]. apply IH in Ec. exact Ec. }
      destruct (inv_assign w o q (w_mem w) q' l I Eq (changes_refl _ _) (or_introl eq_refl) W E) as (I' & H1 & H2). cbn [fst snd]. split; [exact I'|]. split; [|intros _; exact H2]. exact (f_equal (fun x => (x, ADie d)) H1).
  - destruct (nth_error (w_objs w) o) as [q|] eqn:Eq; [rewrite (No _ _ Eq)|rewrite (No' _ Eq); cbn; rewrite ?app_nil_r; auto]. pose proof (copy_created (w_mem w) q (i_objs w I _ _ Eq)) as F. change (m_set (w_mem w) q) with (m_dice (w_mem w) q) in F.
    destruct (inv_give w _ _ _ I F) as (I' & H1 & H2). cbn [fst snd]. split; [exact I'|]. split; [|intros _; exact H2]. exact (f_equal (fun x => (x, Nothing)) H1).
  - destruct (nth_error (w_objs w) o) as [q|] eqn:Eq; [rewrite (No _ _ Eq)|rewrite (No' _ Eq); cbn; auto]. cbn. rewrite (contents_length _ _ (i_objs w I _ _ Eq)). auto.
Qed.
Lemma inv_empty : inv empty_world.
Proof. constructor; cbn; intros o; destruct o; discriminate. Qed.
Lemma inv_run l : inv (run_actions l).
Proof. unfold run_actions. induction l as [|a l IH] using rev_ind; [exact inv_empty|]. rewrite fold_left_app. cbn [fold_left]. apply step_ok, IH. Qed.

(** ** C65 *)
(** After any history, whatever the growth policy: an action changes the contents of the objects, and answers, as it would if they
    were plain lists holding copies of what they were given.  In particular nothing the caller does with its own slices - those it
    passed in, those it got back, and slices of them - changes an object, and no object changes another. *)
Theorem C65_objects history a : let w := run_actions history in
  (held_by_objects (fst (step w a)), snd (step w a)) = expected (shown w) (held_by_objects w) a.
Proof. intros w. apply step_ok. apply inv_run. Qed.
Print Assumptions C65_objects.
(** No method changes what any slice of the caller shows; Dice and RolledDice add a slice showing the contents of the object. *)
Theorem C65_caller history a : let w := run_actions history in is_call a ->
  shown (fst (step w a)) = shown w ++ match a with Dice o => match nth_error (held_by_objects w) o with Some l => [l] | None => [] end | _ => [] end.
Proof. intros w Hc. destruct (step_ok w a (inv_run history)) as (_ & _ & H). rewrite (H Hc). destruct a; reflexivity. Qed.
Print Assumptions C65_caller.
(** The caller overwrites the dice it passed in and those it got back; a second queue made from the same slice is emptied. *)
Example C65_example : let w := run_actions [HMake [Die 1 6; Die 2 6]; New 0 (fun _ => 3); New 0 (fun _ => 0); HStore 0 0 (Die 9 9); Dice 0; HStore 1 1 (Die 8 8);
    Next 1; Next 1; Push 0 (Die 3 6) 5; HAppend 1 (Die 7 7) 4; Append 0 0 (fun _ => 1); Next 0] in
  held_by_objects w = [[Die 2 6; Die 3 6; Die 9 9; Die 2 6]; []] /\ shown w = [[Die 9 9; Die 2 6]; [Die 1 6; Die 8 8]; [Die 1 6; Die 8 8; Die 7 7]].
Proof. vconj. Qed.
