(** Properties C52 (information about games), C55 (contents of the API responses), C64 (validation errors). *)
From Coq Require Import Sorted Permutation.
From Verif Require Import ProofBase GoBase Utf8 BCDice Api SpecGames Prop_games.
Open Scope list_scope.
Open Scope Z_scope.

(** * C64: a record of validation errors *)
(** What is done with it *)
Inductive check :=
| Add (field msg : string)
| AtLeast (value bound : Z) (field msg : string)      (* ValidateMinValue *)
| AtMost (value bound : Z) (field msg : string)       (* ValidateMaxValue *)
| Clear.
Definition perform (e : errors) (c : check) : errors :=
  match c with
  | Add f m => errors_add e f m
  | AtLeast v b f m => validate_min_value e v b f m
  | AtMost v b f m => validate_max_value e v b f m
  | Clear => errors_clear e
  end.
Definition performed (cs : list check) : errors := fold_left perform cs new_errors.
(** The operation records the message for the field *)
Definition records (c : check) (field msg : string) : Prop :=
  match c with
  | Add f m => f = field /\ m = msg
  | AtLeast v b f m => v < b /\ f = field /\ m = msg
  | AtMost v b f m => v > b /\ f = field /\ m = msg
  | Clear => False
  end.
(** It leaves the message for the field as it is *)
Definition spares (c : check) (field : string) : Prop := c <> Clear /\ forall msg, ~ records c field msg.

Lemma perform_get e c field : map_get (perform e c) field = match c with
  | Add f m => if String.eqb f field then Some m else map_get e field
  | AtLeast v b f m => if (v <? b) && String.eqb f field then Some m else map_get e field
  | AtMost v b f m => if (b <? v) && String.eqb f field then Some m else map_get e field
  | Clear => None end.
Proof.
  destruct c as [f m|v b f m|v b f m|]; cbn [perform]; unfold validate_min_value, validate_max_value, errors_add; [apply map_get_set| | |reflexivity];
  (destruct (_ <? _); [apply map_get_set|reflexivity]).
Qed.
Lemma spares_get e c field : spares c field -> map_get (perform e c) field = map_get e field.
Proof.
  intros (Hc & H). rewrite perform_get. destruct c as [f m|v b f m|v b f m|]; cbn [records] in H.
  - destruct (String.eqb f field) eqn:E; [|reflexivity]. apply String.eqb_eq in E. destruct (H m). auto.
  - destruct (v <? b) eqn:E1; [|reflexivity]. destruct (String.eqb f field) eqn:E; [|reflexivity]. apply String.eqb_eq in E. destruct (H m). repeat split; [lia|exact E].
  - destruct (b <? v) eqn:E1; [|reflexivity]. destruct (String.eqb f field) eqn:E; [|reflexivity]. apply String.eqb_eq in E. destruct (H m). repeat split; [lia|exact E].
  - congruence.
Qed.
Lemma records_get e c field msg : records c field msg -> map_get (perform e c) field = Some msg.
Proof.
  rewrite perform_get. destruct c as [f m|v b f m|v b f m|]; cbn [records]; [intros (-> & ->)|intros (Hv & -> & ->)|intros (Hv & -> & ->)|intros []].
  - rewrite String.eqb_refl. reflexivity.
  - replace (v <? b) with true by lia. rewrite String.eqb_refl. reflexivity.
  - replace (b <? v) with true by lia. rewrite String.eqb_refl. reflexivity.
Qed.
Lemma check_cases c field : c = Clear \/ spares c field \/ exists msg, records c field msg.
Proof.
  destruct c as [f m|v b f m|v b f m|]; [| | |left; reflexivity]; right; (destruct (string_dec f field) as [->|E]; [|left; split; [discriminate|]; intros msg H; cbn [records] in H; intuition]).
  - right. exists m. split; reflexivity.
  - destruct (Z_lt_dec v b); [right; exists m; cbn [records]; auto|left; split; [discriminate|intros msg (H & _); contradiction]].
  - destruct (Z_gt_dec v b); [right; exists m; cbn [records]; auto|left; split; [discriminate|intros msg (H & _); contradiction]].
Qed.
(** After any sequence of operations a field has the message recorded last for it, since the last Clear. *)
Theorem C64_last_message cs field msg : map_get (performed cs) field = Some msg <->
  exists before c after, cs = before ++ c :: after /\ records c field msg /\ Forall (fun c' => spares c' field) after.
Proof.
  unfold performed. induction cs as [|c cs IH] using rev_ind.
  - split; [discriminate|]. intros (before & c & after & E & _). destruct before; discriminate E.
  - rewrite fold_left_app. cbn [fold_left]. destruct (check_cases c field) as [->|[Hs|(m & Hm)]].
    + rewrite perform_get. split; [discriminate|]. intros (before & c & after & E & Hr & Hs). destruct after as [|x after] using rev_ind.
      * apply app_inj_tail in E as (_ & <-). destruct Hr.
      * change (before ++ c :: after ++ [x]) with (before ++ (c :: after) ++ [x]) in E. rewrite app_assoc in E. apply app_inj_tail in E as (_ & <-). apply Forall_app in Hs as (_ & Hs). inversion Hs as [|? ? (K & _)]. congruence.
    + rewrite (spares_get _ _ _ Hs), IH. split.
      * intros (before & c0 & after & -> & Hr & Ha). exists before, c0, (after ++ [c]). split; [rewrite <- app_assoc; reflexivity|]. split; [exact Hr|]. apply Forall_app. split; [exact Ha|]. constructor; [exact Hs|constructor].
      * intros (before & c0 & after & E & Hr & Ha). destruct after as [|x after] using rev_ind.
        { apply app_inj_tail in E as (_ & <-). destruct Hs as (_ & Hs). destruct (Hs msg Hr). }
        clear IHafter. change (before ++ c0 :: after ++ [x]) with (before ++ (c0 :: after) ++ [x]) in E. rewrite app_assoc in E. apply app_inj_tail in E as (-> & <-). apply Forall_app in Ha as (Ha & _).
        exists before, c0, after. auto.
    + rewrite (records_get _ _ _ _ Hm). split.
      * intros [= <-]. exists cs, c, []. auto.
      * intros (before & c0 & after & E & Hr & Ha). destruct after as [|x after] using rev_ind.
        { apply app_inj_tail in E as (_ & <-). rewrite <- (records_get new_errors _ _ _ Hm), <- (records_get new_errors _ _ _ Hr). reflexivity. }
        change (before ++ c0 :: after ++ [x]) with (before ++ (c0 :: after) ++ [x]) in E. rewrite app_assoc in E. apply app_inj_tail in E as (_ & <-). apply Forall_app in Ha as (_ & Ha). inversion Ha as [|? ? (_ & K)]. destruct (K m Hm).
Qed.
Print Assumptions C64_last_message.
(** There are messages exactly if some field has one. *)
Theorem C64_has_messages cs : has_messages (performed cs) = true <-> exists field msg, map_get (performed cs) field = Some msg.
Proof.
  unfold has_messages. destruct (performed cs) as [|(f, m) e]; cbn [length map_get].
  - split; [discriminate|]. intros (field & msg & H). discriminate H.
  - split; [intros _|intros _; reflexivity]. exists f, m. rewrite String.eqb_refl. reflexivity.
Qed.
Print Assumptions C64_has_messages.
(** Checks that all succeed leave no message. *)
Theorem C64_valid cs : (forall c, In c cs -> c = Clear \/ exists v b f m, (c = AtLeast v b f m /\ b <= v) \/ (c = AtMost v b f m /\ v <= b)) -> has_messages (performed cs) = false.
Proof.
  intros H. destruct (has_messages (performed cs)) eqn:E; [|reflexivity]. apply C64_has_messages in E as (field & msg & E). apply C64_last_message in E as (before & c & after & -> & Hr & _).
  destruct (H c) as [->|(v & b & f & m & [(-> & Hb)|(-> & Hb)])]; [apply in_elt|destruct Hr|destruct Hr; lia|destruct Hr; lia].
Qed.
Print Assumptions C64_valid.
Example C64_example : let cs := [Add "a" "1"; AtLeast 3 3 "n" "too small"; AtMost 9 8 "n" "too large"; Clear; AtLeast 2 3 "n" "small"; AtMost 8 8 "m" "large"; AtLeast 1 3 "n" "very small"]%string in
  map_get (performed cs) "n" = Some "very small"%string /\ map_get (performed cs) "a" = None /\ map_get (performed cs) "m" = None /\ has_messages (performed cs) = true.
Proof. vconj. Qed.

(** * C52: information about the games *)
Definition info_before (x y : system_info) : Prop := string_leb (si_sort_key x) (si_sort_key y) = true.
Lemma insert_info_perm x l : Permutation (x :: l) (insert_info x l).
Proof. induction l as [|y l IH]; cbn [insert_info]; [reflexivity|]. destruct (string_leb _ _); [reflexivity|]. etransitivity; [apply perm_swap|]. constructor. exact IH. Qed.
Lemma insert_info_sorted x l : StronglySorted info_before l -> StronglySorted info_before (insert_info x l).
Proof.
  intros H. induction H as [|y l H IH Hy]; cbn [insert_info]; [repeat constructor|]. destruct (string_leb (si_sort_key x) (si_sort_key y)) eqn:E.
  - constructor; [constructor; assumption|]. constructor; [exact E|]. eapply Forall_impl; [|exact Hy]. intros u Hu. unfold info_before in *. eapply string_leb_trans; eassumption.
  - constructor; [exact IH|]. apply (Permutation_Forall (insert_info_perm x l)). constructor; [apply string_leb_total, E|exact Hy].
Qed.
(** The information lists every registered bot once, ordered by sort key; the basic bot comes first if wanted. *)
Theorem C52_infos reg :
  let infos := available_game_infos reg false in
  StronglySorted (fun x y => before_or_same (si_sort_key x) (si_sort_key y)) infos /\
  Permutation infos (map (fun e => SystemInfo (db_game_id (snd e)) (db_game_name (snd e)) (db_sort_key (snd e))) reg) /\
  available_game_infos reg true = SystemInfo "DiceBot" "ダイスボット (指定無し)" "*たいすほつと" :: infos.
Proof.
  intros infos. unfold infos, available_game_infos. split; [|split; [|reflexivity]].
  - assert (StronglySorted info_before (fold_right insert_info [] (map (fun e => bot_info (snd e)) reg))) as H.
    { induction reg as [|e reg IH]; cbn [map fold_right]; [constructor|]. apply insert_info_sorted, IH. }
    induction H as [|x l H IH Hx]; constructor; [exact IH|]. eapply Forall_impl; [|exact Hx]. intros y. apply string_leb_before.
  - change (map (fun e => SystemInfo (db_game_id (snd e)) (db_game_name (snd e)) (db_sort_key (snd e))) reg) with (map (fun e : string * dicebot => bot_info (snd e)) reg).
    induction reg as [|e reg IH]; cbn [map fold_right]; [constructor|]. etransitivity; [apply Permutation_sym, insert_info_perm|]. constructor. exact IH.
Qed.
Print Assumptions C52_infos.
Example C52_infos_example : let reg := [("Cthulhu"%string, DiceBot "Cthulhu" "c" "k2"); ("Arianrhod"%string, DiceBot "Arianrhod" "a" "k1")] in
  is_map reg /\ available_game_infos reg false = [SystemInfo "Arianrhod" "a" "k1"; SystemInfo "Cthulhu" "c" "k2"]%string.
Proof. split; [|vm_compute; reflexivity]. unfold is_map. cbn. repeat constructor; cbn; intuition discriminate. Qed.

(** * C55: what the routes answer *)
(** The list of systems is that of AvailableGameIDs, the list of names that of AvailableGameInfos, both with the basic bot, for every content of the registry; the version is that of the configuration. *)
Definition field (r : option response) (k : string) : option json := match r with Some r => map_get (resp_body r) k | None => None end.
Theorem C55_contents reg api bcdice :
  field (route_in reg api bcdice "/") "message" = Some (JString "Hello. This is GoBCDiceAPI.") /\
  field (route_in reg api bcdice "/v1/version") "api" = Some (JString api) /\ field (route_in reg api bcdice "/v1/version") "bcdice" = Some (JString bcdice) /\
  field (route_in reg api bcdice "/v1/systems") "systems" = Some (JList (map JString (available_game_ids reg true))) /\
  field (route_in reg api bcdice "/v1/names") "names" = Some (JList (map (fun i => JStruct [("system", JString (si_system i)); ("name", JString (si_name i)); ("sort_key", JString (si_sort_key i))]%string) (available_game_infos reg true))).
Proof. repeat split. Qed.
Print Assumptions C55_contents.
(** There are no other routes. *)
Theorem C55_no_other_route reg api bcdice path : route_in reg api bcdice path <> None <-> In path ["/"; "/v1/version"; "/v1/systems"; "/v1/names"]%string.
Proof.
  unfold route_in. cbn [In]. split.
  - intros H. repeat match type of H with context [if String.eqb path ?s then _ else _] => destruct (String.eqb path s) eqn:?E end; repeat match goal with E : String.eqb _ _ = true |- _ => apply String.eqb_eq in E as -> end; solve [auto 10|congruence].
  - intros [<-|[<-|[<-|[<-|[]]]]]; discriminate.
Qed.
Print Assumptions C55_no_other_route.
