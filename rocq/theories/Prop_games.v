(** Properties C52, C55: the list of games, API responses. *)
From Coq Require Import Sorted Permutation.
From Verif Require Import ProofBase GoBase Utf8 BCDice Api SpecGames NumberText FileProofs.
Open Scope list_scope.
Open Scope Z_scope.

Lemma before_nil t : before_or_same "" t.
Proof. left. exists t. reflexivity. Qed.
Lemma before_cons a s t : before_or_same s t -> before_or_same (String a s) (String a t).
Proof.
  intros [(u & ->)|(p & x & y & u & v & -> & -> & H)]; [left; exists u; reflexivity|right]. exists (String a p), x, y, u, v. repeat split. exact H.
Qed.
Lemma string_leb_before s : forall t, string_leb s t = true -> before_or_same s t.
Proof.
  induction s as [|a s IH]; intros [|b t]; cbn [string_leb]; intros H; [apply before_nil|apply before_nil|discriminate|]. cbv zeta in H.
  destruct (byte_val a <? byte_val b) eqn:E1.
  - right. exists EmptyString, a, b, s, t. repeat split. lia.
  - destruct (byte_val b <? byte_val a) eqn:E2; [discriminate|]. assert (a = b) as <- by (apply byte_val_inj; lia). apply before_cons, IH, H.
Qed.
Lemma string_leb_total s : forall t, string_leb s t = false -> string_leb t s = true.
Proof.
  induction s as [|a s IH]; intros [|b t]; cbn [string_leb]; intros H; try discriminate; [reflexivity|]. cbv zeta in *.
  destruct (byte_val a <? byte_val b) eqn:E1; [discriminate|]. destruct (byte_val b <? byte_val a) eqn:E2; [reflexivity|]. apply IH, H.
Qed.
Lemma string_leb_trans s : forall t u, string_leb s t = true -> string_leb t u = true -> string_leb s u = true.
Proof.
  induction s as [|a s IH]; intros [|b t] [|c u]; cbn [string_leb]; intros H1 H2; try discriminate; try reflexivity. cbv zeta in *.
  destruct (byte_val a <? byte_val b) eqn:E1.
  - destruct (byte_val b <? byte_val c) eqn:E2; [replace (byte_val a <? byte_val c) with true by lia; reflexivity|].
    destruct (byte_val c <? byte_val b) eqn:E3; [discriminate|]. replace (byte_val a <? byte_val c) with true by lia. reflexivity.
  - destruct (byte_val b <? byte_val a) eqn:E1'; [discriminate|]. assert (byte_val a = byte_val b) as E by lia. rewrite E. destruct (byte_val b <? byte_val c) eqn:E2; [reflexivity|].
    destruct (byte_val c <? byte_val b) eqn:E3; [discriminate|]. eapply IH; eassumption.
Qed.
Definition leb_rel (s t : string) : Prop := string_leb s t = true.
Lemma insert_perm s l : Permutation (s :: l) (insert_sorted s l).
Proof.
  induction l as [|t l IH]; cbn [insert_sorted]; [reflexivity|]. destruct (string_leb s t); [reflexivity|]. etransitivity; [apply perm_swap|]. constructor. exact IH.
Qed.
Lemma sort_perm l : Permutation l (sort_strings l).
Proof. unfold sort_strings. induction l as [|s l IH]; cbn [fold_right]; [constructor|]. etransitivity; [constructor; exact IH|apply insert_perm]. Qed.
Lemma insert_sort s l : StronglySorted leb_rel l -> StronglySorted leb_rel (insert_sorted s l).
Proof.
  intros H. induction H as [|t l H IH Ht]; cbn [insert_sorted]; [repeat constructor|]. destruct (string_leb s t) eqn:E.
  - constructor; [constructor; assumption|]. constructor; [exact E|]. eapply Forall_impl; [|exact Ht]. intros u Hu. eapply string_leb_trans; eassumption.
  - constructor; [exact IH|]. apply (Permutation_Forall (insert_perm s l)). constructor; [apply string_leb_total, E|exact Ht].
Qed.
Lemma sort_sorted l : StronglySorted leb_rel (sort_strings l).
Proof. unfold sort_strings. induction l as [|s l IH]; cbn [fold_right]; [constructor|apply insert_sort, IH]. Qed.

Lemma reg_find_iff reg id bot : is_map reg -> reg_find reg id = Some bot <-> In (id, bot) reg.
Proof.
  unfold is_map. induction reg as [|(k, b) reg IH]; cbn [reg_find map fst]; intros H; [split; [discriminate|intros []]|]. inversion H as [|? ? Hn H']; subst. destruct (String.eqb k id) eqn:E.
  - apply String.eqb_eq in E as ->. split; [intros [= ->]; left; reflexivity|]. intros [K|K]; [congruence|]. exfalso. apply Hn. change id with (fst (id, bot)). apply in_map, K.
  - apply String.eqb_neq in E. rewrite IH by exact H'. split; [right; assumption|]. intros [K|K]; [congruence|exact K].
Qed.
Lemma reg_find_none reg id : reg_find reg id = None <-> ~ In id (map fst reg).
Proof.
  induction reg as [|(k, b) reg IH]; cbn [reg_find map fst]; [split; [intros _ []|reflexivity]|]. destruct (String.eqb k id) eqn:E.
  - apply String.eqb_eq in E as ->. split; [discriminate|]. intros H. destruct H. left. reflexivity.
  - apply String.eqb_neq in E. rewrite IH. cbn. tauto.
Qed.

(** * C52 *)
(** Find knows exactly the identifiers listed (including the basic one), returns the registered bot, and is an error for the others. *)
Theorem C52_find reg id : is_map reg ->
  (forall bot, find_bot reg id = Ok bot <-> bot_of reg id bot) /\
  ((exists bot, find_bot reg id = Ok bot) <-> In id (available_game_ids reg true)) /\
  (~ In id (available_game_ids reg true) -> find_bot reg id = Err ("unknown game system: " ++ id)%string).
Proof.
  intros Hm. unfold find_bot, available_game_ids, bot_of. change (db_game_id basic_bot) with "DiceBot"%string. assert (forall x, In x (sort_strings (map fst reg)) <-> In x (map fst reg)) as Hp.
  { intros x. split; intros H; [eapply Permutation_in; [symmetry; apply sort_perm|exact H]|eapply Permutation_in; [apply sort_perm|exact H]]. }
  destruct (String.eqb id "DiceBot") eqn:E.
  - apply String.eqb_eq in E as ->. split; [|split].
    + intros bot. split; [intros [= <-]; left; split; reflexivity|]. intros [(_ & ->)|(K & _)]; [reflexivity|congruence].
    + split; [intros _; left; reflexivity|intros _; eauto].
    + intros K. destruct K. left. reflexivity.
  - apply String.eqb_neq in E. split; [|split].
    + intros bot. destruct (reg_find reg id) as [b|] eqn:F.
      * apply (reg_find_iff reg id b Hm) in F as F'. split; [intros [= <-]; right; split; assumption|]. intros [(K & _)|(_ & K)]; [congruence|]. apply (reg_find_iff reg id bot Hm) in K. congruence.
      * split; [discriminate|]. intros [(K & _)|(_ & K)]; [congruence|]. apply (reg_find_iff reg id bot Hm) in K. congruence.
    + cbn [In]. rewrite Hp. destruct (reg_find reg id) as [b|] eqn:F.
      * apply (reg_find_iff reg id b Hm) in F. split; [|intros _; eauto]. intros _. right. change id with (fst (id, b)). apply in_map, F.
      * apply reg_find_none in F. split; [intros (? & K); discriminate|]. intros [K|K]; [congruence|contradiction].
    + cbn [In]. rewrite Hp. intros K. destruct (reg_find reg id) as [b|] eqn:F; [|reflexivity]. apply (reg_find_iff reg id b Hm) in F. destruct K. right. change id with (fst (id, b)). apply in_map, F.
Qed.
Print Assumptions C52_find.
(** The identifiers are listed without repetition and in bytewise order, whatever the order in which the map is traversed; the basic one comes first if asked for. *)
Theorem C52_list reg : is_map reg ->
  let ids := available_game_ids reg false in
  StronglySorted before_or_same ids /\ NoDup ids /\ (forall id, In id ids <-> exists bot, In (id, bot) reg) /\ available_game_ids reg true = "DiceBot"%string :: ids.
Proof.
  intros Hm ids. unfold ids, available_game_ids. split; [|split; [|split]].
  - pose proof (sort_sorted (map fst reg)) as H. induction H as [|s l H IH Hs]; constructor; [exact IH|]. eapply Forall_impl; [|exact Hs]. intros t. apply string_leb_before.
  - eapply Permutation_NoDup; [apply sort_perm|exact Hm].
  - intros id. split.
    + intros H. apply (Permutation_in _ (Permutation_sym (sort_perm _))) in H. apply in_map_iff in H as ((k, b) & <- & H). exists b. exact H.
    + intros (b & H). apply (Permutation_in _ (sort_perm _)). change id with (fst (id, b)). apply in_map, H.
  - reflexivity.
Qed.
Print Assumptions C52_list.
(** Selecting a known identifier installs its bot, an unknown one is an error and changes nothing; the feeder stays. *)
Theorem C52_select reg b id : is_map reg ->
  (forall bot, bot_of reg id bot -> set_dice_bot_in reg b id = (Ok tt, BCDice bot (bd_feeder b))) /\
  (~ In id (available_game_ids reg true) -> set_dice_bot_in reg b id = (Err ("unknown game system: " ++ id)%string, b)).
Proof.
  intros Hm. destruct (C52_find reg id Hm) as (H1 & _ & H3). unfold set_dice_bot_in. split.
  - intros bot H. apply H1 in H. rewrite H. reflexivity.
  - intros H. rewrite (H3 H). reflexivity.
Qed.
Print Assumptions C52_select.
(** After any selections the bot is that of the last known identifier among them, or the one before if there is none. *)
Theorem C52_history reg b ids : is_map reg ->
  (exists ids1 id bot ids2, ids = ids1 ++ id :: ids2 /\ bot_of reg id bot /\ (forall x, In x ids2 -> ~ In x (available_game_ids reg true)) /\
     select_all reg b ids = BCDice bot (bd_feeder b)) \/
  ((forall x, In x ids -> ~ In x (available_game_ids reg true)) /\ select_all reg b ids = b).
Proof.
  intros Hm. induction ids as [|id ids IH] using rev_ind; [right; split; [intros x []|reflexivity]|].
  unfold select_all in *. rewrite fold_left_app. cbn [fold_left].
  destruct (C52_find reg id Hm) as (K1 & K2 & _). destruct (find_bot reg id) as [bot|e|p] eqn:E.
  - left. exists ids, id, bot, []. split; [reflexivity|]. split; [apply K1; reflexivity|]. split; [intros x []|]. unfold set_dice_bot_in at 1. rewrite E. cbn [snd]. f_equal.
    destruct IH as [(a & b' & c & d & _ & _ & _ & ->)|(_ & ->)]; reflexivity.
  - assert (~ In id (available_game_ids reg true)) as Hn by (intros H; apply K2 in H as (bot & H); discriminate).
    unfold set_dice_bot_in at 1 3. rewrite E. cbn [snd]. destruct IH as [(a & b' & c & d & -> & H2 & H3 & ->)|(H1 & ->)].
    + left. exists a, b', c, (d ++ [id]). split; [rewrite <- app_assoc; reflexivity|]. split; [exact H2|]. split; [|reflexivity]. intros x Hx. apply in_app_or in Hx as [Hx|[<-|[]]]; [exact (H3 _ Hx)|exact Hn].
    + right. split; [|reflexivity]. intros x Hx. apply in_app_or in Hx as [Hx|[<-|[]]]; [exact (H1 _ Hx)|exact Hn].
  - exfalso. assert (find_bot reg id <> Panic p) as Hx by (unfold find_bot; destruct (String.eqb _ _); [discriminate|]; destruct (reg_find _ _); discriminate). congruence.
Qed.
Print Assumptions C52_history.
(** At this commit only the basic bot exists. *)
Theorem C52_only_basic b id : available_game_ids game_registry true = ["DiceBot"%string] /\
  set_dice_bot b id = if String.eqb id "DiceBot" then (Ok tt, BCDice basic_bot (bd_feeder b)) else (Err ("unknown game system: " ++ id)%string, b).
Proof. split; [reflexivity|]. unfold set_dice_bot, set_dice_bot_in, find_bot. change (db_game_id basic_bot) with "DiceBot"%string. destruct (String.eqb id "DiceBot"); reflexivity. Qed.
Print Assumptions C52_only_basic.
Example C52_example : let reg := [("Cthulhu"%string, DiceBot "Cthulhu" "c" "c"); ("Arianrhod"%string, DiceBot "Arianrhod" "a" "a")] in
  is_map reg /\ available_game_ids reg true = ["DiceBot"; "Arianrhod"; "Cthulhu"]%string.
Proof. split; [|vm_compute; reflexivity]. unfold is_map. cbn. repeat constructor; cbn; intuition discriminate. Qed.

(** * C55 *)
Lemma map_get_set {A} (m : list (string * A)) k v k' : map_get (map_set m k v) k' = if String.eqb k k' then Some v else map_get m k'.
Proof.
  induction m as [|(x, y) m IH]; cbn [map_set map_get]; [reflexivity|]. destruct (String.eqb x k) eqn:E; cbn [map_get].
  - apply String.eqb_eq in E as ->. destruct (String.eqb k k'); reflexivity.
  - rewrite IH. destruct (String.eqb x k') eqn:E2; [|reflexivity]. apply String.eqb_eq in E2 as ->. destruct (String.eqb k k') eqn:E3; [|reflexivity]. apply String.eqb_eq in E3 as ->. rewrite String.eqb_refl in E. discriminate.
Qed.
(** Every response has the status given, says ok exactly for status 200, whatever the body said before, and keeps the rest of the body. *)
Theorem C55_ok_iff_200 status body :
  resp_status (json_response status body) = status /\
  (says_ok (json_response status body) true <-> status = 200) /\ (says_ok (json_response status body) false <-> status <> 200) /\
  (forall k, k <> "ok"%string -> map_get (resp_body (json_response status body)) k = map_get body k).
Proof.
  unfold says_ok, json_response. cbn [resp_body resp_status]. rewrite map_get_set, String.eqb_refl. destruct (status =? 200) eqn:E; cbn [negb].
  - split; [reflexivity|]. split; [split; [lia|reflexivity]|]. split; [split; [discriminate|lia]|]. intros k Hk. rewrite map_get_set. apply String.eqb_neq in Hk. rewrite String.eqb_sym, Hk. reflexivity.
  - split; [reflexivity|]. split; [split; [discriminate|lia]|]. split; [split; [lia|reflexivity]|]. intros k Hk. rewrite map_get_set. apply String.eqb_neq in Hk. rewrite String.eqb_sym, Hk. reflexivity.
Qed.
Print Assumptions C55_ok_iff_200.
(** Error responses carry their message; a list response carries its items and their number (a nil slice is null, with the number 0). *)
Theorem C55_error code msg : map_get (resp_body (json_response_error code msg)) "message" = Some (JString msg) /\ (says_ok (json_response_error code msg) true <-> code = 200).
Proof. unfold json_response_error. split; [|apply C55_ok_iff_200]. rewrite (proj2 (proj2 (proj2 (C55_ok_iff_200 _ _)))) by discriminate. reflexivity. Qed.
Print Assumptions C55_error.
Theorem C55_array status items : map_get (resp_body (json_response_array status (Some items))) "count" = Some (JInt (Z.of_nat (length items))) /\
  map_get (resp_body (json_response_array status (Some items))) "items" = Some (JList (map JMap items)) /\
  map_get (resp_body (json_response_array status None)) "count" = Some (JInt 0) /\
  map_get (resp_body (json_response_array status None)) "items" = Some JNull.
Proof. unfold json_response_array. repeat split; rewrite (proj2 (proj2 (proj2 (C55_ok_iff_200 _ _)))) by discriminate; reflexivity. Qed.
Print Assumptions C55_array.
(** All routes of the server answer with status 200 and ok. *)
Theorem C55_routes reg api bcdice path r : route_in reg api bcdice path = Some r -> resp_status r = 200 /\ says_ok r true.
Proof. unfold route_in. repeat match goal with |- context [if ?b then _ else _] => destruct b end; intros [= <-]; split; reflexivity. Qed.
Print Assumptions C55_routes.
Example C55_example : route "0.1" "2.0" "/v1/systems" = Some (Response 200 [("systems"%string, JList [JString "DiceBot"]); ("ok"%string, JBool true)]) /\
  resp_body (json_response_error 404 "no") = [("ok"%string, JBool false); ("message"%string, JString "no")].
Proof. vconj. Qed.
