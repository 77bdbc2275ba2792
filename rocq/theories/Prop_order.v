(** C52: neither the order in which Go walks its map of games nor the way its sort treats equal elements can be seen, if the sort keys differ.

    Go walks a map in an order that changes from run to run (pkg/dicebot/list/list.go:44-46, 67-74), and sort.Slice may put equal
    elements in any order (list.go:75).  What the documentation of package sort promises is only that the result is sorted and
    has the same elements. *)
From Verif Require Import GoBase BCDice Api SpecGames Prop_games Prop_api.
From Coq Require Import Lia Permutation Sorted.
Open Scope list_scope.
Open Scope Z_scope.

Lemma before_inv a s t0 : before_or_same (String a s) t0 -> exists b t, t0 = String b t /\ (byte_val a < byte_val b \/ (a = b /\ before_or_same s t)).
Proof.
  intros [(u & ->)|(p & x & y & u & v & E1 & -> & L)].
  - exists a, (s ++ u)%string. split; [reflexivity|]. right. split; [reflexivity|]. left. exists u. reflexivity.
  - destruct p as [|c p]; cbn in *.
    + injection E1 as -> ->. exists y, v. auto.
    + injection E1 as -> ->. exists c, (p ++ String y v)%string. split; [reflexivity|]. right. split; [reflexivity|]. right.
      exists p, x, y, u, v. auto.
Qed.
Lemma before_antisym s : forall t, before_or_same s t -> before_or_same t s -> s = t.
Proof.
  induction s as [|a s IH]; intros t H K.
  - destruct t as [|b t]; [reflexivity|]. apply before_inv in K as (b' & t' & E & _). discriminate E.
  - apply before_inv in H as (b & t' & -> & H). apply before_inv in K as (a' & s' & E & K). injection E as <- <-.
    destruct H as [H|(-> & H)], K as [K|(E & K)]; subst; try lia. f_equal. apply IH; assumption.
Qed.
(** A sorted list is determined by its elements *)
Lemma sorted_unique {A} (R : A -> A -> Prop) (l : list A) : forall l',
  (forall x y, In x l -> In y l -> R x y -> R y x -> x = y) ->
  StronglySorted R l -> StronglySorted R l' -> Permutation l l' -> l = l'.
Proof.
  induction l as [|x l IH]; intros l' Ha Hs Hs' P.
  - apply Permutation_nil in P. symmetry. exact P.
  - destruct l' as [|y l']; [apply Permutation_sym, Permutation_nil in P; discriminate P|].
    inversion Hs as [|? ? Hs1 Hx]; subst. inversion Hs' as [|? ? Hs2 Hy]; subst. rewrite Forall_forall in Hx, Hy.
    assert (x = y) as ->.
    { assert (In y (x :: l)) as Iy by (eapply Permutation_in; [symmetry; exact P|left; reflexivity]).
      assert (In x (y :: l')) as Ix by (eapply Permutation_in; [exact P|left; reflexivity]).
      destruct Iy as [E|Iy]; [exact E|]. destruct Ix as [E|Ix]; [symmetry; exact E|]. apply Ha; [left; reflexivity|right; exact Iy|auto|auto]. }
    f_equal. apply IH; auto.
    + intros u v Hu Hv. apply Ha; right; assumption.
    + eapply Permutation_cons_inv. exact P.
Qed.

(** Every list of the identifiers in order is the list the model gives, in whatever order the map was walked. *)
Theorem C52_ids_any_order reg walked ids : is_map reg -> Permutation walked (map fst reg) -> Permutation ids walked ->
  StronglySorted before_or_same ids -> ids = available_game_ids reg false.
Proof.
  intros Hm Hw Hp Hs. destruct (C52_list reg Hm) as (Ks & Kn & Ki & _). apply (sorted_unique before_or_same); auto.
  - intros x y _ _. apply before_antisym.
  - apply NoDup_Permutation.
    + eapply Permutation_NoDup; [symmetry; etransitivity; [exact Hp|exact Hw]|exact Hm].
    + exact Kn.
    + intros x. rewrite Ki. split.
      * intros Hx. assert (In x (map fst reg)) as Hx' by (eapply Permutation_in; [etransitivity; [exact Hp|exact Hw]|exact Hx]).
        apply in_map_iff in Hx' as ((k, b) & <- & H). exists b. exact H.
      * intros (b & H). eapply Permutation_in; [symmetry; etransitivity; [exact Hp|exact Hw]|]. change x with (fst (x, b)). apply in_map, H.
Qed.
Print Assumptions C52_ids_any_order.

(** The same registry, written down in another order, finds the same bots and lists the same identifiers. *)
Theorem C52_same_map reg reg' : is_map reg -> Permutation reg reg' ->
  is_map reg' /\ (forall id, find_bot reg' id = find_bot reg id) /\ (forall b, available_game_ids reg' b = available_game_ids reg b) /\
  (forall bc id, set_dice_bot_in reg' bc id = set_dice_bot_in reg bc id).
Proof.
  intros Hm P. assert (is_map reg') as Hm' by (eapply Permutation_NoDup; [apply Permutation_map, P|exact Hm]).
  assert (forall id, find_bot reg' id = find_bot reg id) as Hf.
  { intros id. destruct (find_bot reg id) as [bot|e|p] eqn:E.
    - apply (C52_find reg id Hm) in E. apply (C52_find reg' id Hm'). unfold bot_of in *. destruct E as [E|(E & H)]; [left; exact E|right; split; [exact E|]].
      eapply Permutation_in; eassumption.
    - destruct (C52_find reg' id Hm') as (H1 & H2 & H3). destruct (C52_find reg id Hm) as (K1 & K2 & K3).
      assert (~ exists bot, find_bot reg' id = Ok bot) as Hn.
      { intros (bot & H). apply H1 in H. unfold bot_of in H. assert (bot_of reg id bot) as H'.
        { unfold bot_of. destruct H as [H|(H & H')]; [left; exact H|right; split; [exact H|eapply Permutation_in; [symmetry; exact P|exact H']]]. }
        apply K1 in H'. rewrite E in H'. discriminate H'. }
      assert (find_bot reg' id = Err ("unknown game system: " ++ id)%string) as -> by (apply H3; intros H; apply Hn, H2, H).
      rewrite <- E. symmetry. apply K3. intros H. apply K2 in H as (bot & H). rewrite E in H. discriminate H.
    - unfold find_bot in E. destruct (String.eqb id (db_game_id basic_bot)); [discriminate E|]. destruct (reg_find reg id); discriminate E. }
  split; [exact Hm'|]. split; [exact Hf|]. split.
  - assert (available_game_ids reg' false = available_game_ids reg false) as H.
    { destruct (C52_list reg' Hm') as (Ks & Kn & Ki & _). apply (C52_ids_any_order reg (map fst reg')); auto.
      - apply Permutation_map, Permutation_sym, P.
      - apply NoDup_Permutation; [exact Kn|exact Hm'|]. intros x. rewrite Ki. split.
        + intros (b & H). change x with (fst (x, b)). apply in_map, H.
        + intros H. apply in_map_iff in H as ((k, b) & <- & H). exists b. exact H. }
    intros [|]; [|exact H]. destruct (C52_list reg' Hm') as (_ & _ & _ & ->). destruct (C52_list reg Hm) as (_ & _ & _ & ->). f_equal. exact H.
  - intros bc id. unfold set_dice_bot_in. rewrite Hf. reflexivity.
Qed.
Print Assumptions C52_same_map.

(** The descriptions of the registered bots *)
Definition described (reg : registry) : list system_info :=
  map (fun e => SystemInfo (db_game_id (snd e)) (db_game_name (snd e)) (db_sort_key (snd e))) reg.
(** If no two bots have the same sort key, there is only one list of all descriptions ordered by sort key. *)
Theorem C52_infos_any_order reg walked infos : NoDup (map (fun e => db_sort_key (snd e)) reg) ->
  Permutation walked (described reg) -> Permutation infos walked ->
  StronglySorted (fun x y => before_or_same (si_sort_key x) (si_sort_key y)) infos ->
  infos = available_game_infos reg false.
Proof.
  intros Hn Hw Hp Hs. destruct (C52_infos reg) as (Ks & Kp & _). apply (sorted_unique (fun x y => before_or_same (si_sort_key x) (si_sort_key y))); auto.
  - intros x y Hx Hy H K. pose proof (before_antisym _ _ H K) as E.
    assert (In x (described reg)) as Ix by (eapply Permutation_in; [etransitivity; [exact Hp|exact Hw]|exact Hx]).
    assert (In y (described reg)) as Iy by (eapply Permutation_in; [etransitivity; [exact Hp|exact Hw]|exact Hy]).
    clear - Hn E Ix Iy. unfold described in *. induction reg as [|e reg IH]; cbn [map] in *; [destruct Ix|]. inversion Hn as [|? ? N1 N2]; subst.
    assert (forall z, In z (map (fun e => SystemInfo (db_game_id (snd e)) (db_game_name (snd e)) (db_sort_key (snd e))) reg) -> In (si_sort_key z) (map (fun e => db_sort_key (snd e)) reg)) as Hz.
    { intros z Hz. apply in_map_iff in Hz as (e' & <- & He). cbn [si_sort_key]. apply in_map_iff. exists e'. auto. }
    destruct Ix as [<-|Ix], Iy as [<-|Iy]; [reflexivity| | |apply IH; assumption].
    + destruct N1. cbn [si_sort_key] in E. rewrite E. apply Hz, Iy.
    + destruct N1. cbn [si_sort_key] in E. rewrite <- E. apply Hz, Ix.
  - etransitivity; [exact Hp|]. etransitivity; [exact Hw|]. symmetry. exact Kp.
Qed.
Print Assumptions C52_infos_any_order.

(** With equal sort keys the order is not determined: both lists are in order and describe the same bots. *)
Example C52_equal_keys : let a := SystemInfo "A" "a" "k" in let b := SystemInfo "B" "b" "k" in let reg := [("A"%string, DiceBot "A" "a" "k"); ("B"%string, DiceBot "B" "b" "k")] in
  let R := fun x y => before_or_same (si_sort_key x) (si_sort_key y) in
  is_map reg /\ Permutation [a; b] (described reg) /\ Permutation [b; a] (described reg) /\ StronglySorted R [a; b] /\ StronglySorted R [b; a] /\ [a; b] <> [b; a].
Proof.
  cbn zeta. assert (forall s, before_or_same s s) as Hr by (intros s; left; exists EmptyString; induction s as [|c s IH]; cbn; [reflexivity|rewrite <- IH; reflexivity]).
  split; [unfold is_map; cbn; repeat constructor; cbn; intuition discriminate|]. split; [reflexivity|]. split; [apply perm_swap|].
  split; [apply SSorted_cons; [apply SSorted_cons; [apply SSorted_nil|apply Forall_nil]|apply Forall_cons; [apply Hr|apply Forall_nil]]|].
  split; [apply SSorted_cons; [apply SSorted_cons; [apply SSorted_nil|apply Forall_nil]|apply Forall_cons; [apply Hr|apply Forall_nil]]|discriminate].
Qed.
(** A case of the theorems: two walks of the same map, one list. *)
Example C52_walks : let reg := [("Cthulhu"%string, DiceBot "Cthulhu" "c" "k2"); ("Arianrhod"%string, DiceBot "Arianrhod" "a" "k1")] in
  is_map reg /\ NoDup (map (fun e => db_sort_key (snd e)) reg) /\ Permutation ["Arianrhod"; "Cthulhu"]%string (map fst reg) /\
  available_game_ids reg false = ["Arianrhod"; "Cthulhu"]%string /\ available_game_ids (rev reg) false = ["Arianrhod"; "Cthulhu"]%string /\
  available_game_infos reg false = available_game_infos (rev reg) false.
Proof.
  cbn zeta. split; [unfold is_map; cbn; repeat constructor; cbn; intuition discriminate|]. split; [cbn; repeat constructor; cbn; intuition discriminate|].
  split; [apply perm_swap|]. vm_compute. repeat split.
Qed.
