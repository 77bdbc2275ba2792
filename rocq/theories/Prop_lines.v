(** Property C87: what a successful command says is one line of well-formed text. *)
From Verif Require Import Grammar ProofBase SpecText Dice SpecDice DiceProofs Comp Ast Eval Notation Command BCDice BCDiceProofs SpecFiles FileProofs NumberText
  SpecSyntax SpecArith SpecRoll SpecLists SpecGrammar TextFacts PegProofs GrammarSound PegTotal PegForward ParseSound ParseFacts DecodeProofs ParseText SpecMessage ExecProofs Prop_message.
Open Scope list_scope.
Open Scope Z_scope.

(** The control characters of ASCII: line feed, carriage return, tab, escape, ... *)
Definition control (a : ascii) : Prop := byte_val a < 32 \/ byte_val a = 127.

(** ** Whatever holds of the fixed words, of numbers and of the items of a choice, and of texts put together, holds of replies *)
Section Words.
  Variable P : string -> Prop.
  Definition fixed_words : list string :=
    [""; "C"; "計算結果"; "("; ")"; "+"; "-"; "*"; "/"; "R"; "U"; "D"; "B"; "["; "]"; ","; " + "; "成功"; "失敗"; "成功数"; "="; "<>"; "<="; "<"; ">="; ">";
     " (最大/合計)"; hint_r; hint_u; hint_small; "CHOICE["; " : "; " ＞ "]%string.
  Hypothesis P_app : forall a b, P a -> P b -> P (a ++ b)%string.
  Hypothesis P_itoa : forall v, P (itoa v).
  Hypothesis P_fixed : Forall P fixed_words.
  Lemma P_word w : In w fixed_words -> P w.
  Proof. rewrite Forall_forall in P_fixed. apply P_fixed. Qed.
  Ltac w := apply P_word; cbn; tauto.
  Lemma P_op op : is_compare_op op -> P op.
  Proof. intros H. apply P_word. unfold is_compare_op in H. cbn in H |- *. tauto. Qed.
  Lemma P_join sep l : P sep -> Forall P l -> P (join sep l).
  Proof. intros Hs H. induction H as [|x l Hx H IH]; [w|]. destruct l as [|y l]; [exact Hx|]. rewrite join_cons by discriminate. apply P_app; [exact Hx|]. apply P_app; assumption. Qed.
  Lemma P_parens s : P s -> P (in_parens s).
  Proof. intros H. unfold in_parens. apply P_app; [w|]. apply P_app; [exact H|w]. Qed.
  Lemma P_put op a b : P a -> P b -> P (put op a b).
  Proof. intros Ha Hb. destruct op as [| | |[]]; cbn [put]; repeat apply P_app; try assumption; w. Qed.
  Lemma P_show {L} (word : L -> string) : (forall l, P (word l)) -> forall e b, P (show word b e).
  Proof.
    intros Hw. induction e as [l|e IH|op a IHa c IHc]; intros b; cbn [show].
    - apply Hw.
    - apply P_app; [w|]. destruct e; [apply Hw|apply P_parens, IH..].
    - apply P_put.
      + destruct a; [apply Hw| |]; match goal with |- P (if ?x then _ else _) => destruct x end; try apply P_parens; apply IHa.
      + destruct c; [apply Hw| |]; try match goal with |- P (if ?x then _ else _) => destruct x end; try apply P_parens; apply IHc.
  Qed.
  Lemma P_mword m : P (mword m).
  Proof. destruct m; cbn [mword]; [apply P_itoa|]. apply P_app; [apply P_itoa|]. apply P_app; [w|apply P_itoa]. Qed.
  Lemma P_values ds : P (values_word ds).
  Proof. unfold values_word. apply P_join; [w|]. apply Forall_map, Forall_forall. intros; apply P_itoa. Qed.
  Lemma P_sword s : P (sword s).
  Proof. destruct s; cbn [sword]; [apply P_itoa|]. apply P_app; [apply P_itoa|]. apply P_app; [w|]. apply P_app; [apply P_values|w]. Qed.
  Lemma P_rolls letter ps : P letter -> P (rolls_words letter ps).
  Proof. intros Hl. unfold rolls_words. apply P_join; [w|]. apply Forall_map, Forall_forall. intros p _. unfold roll_word. apply P_app; [apply P_itoa|]. apply P_app; [exact Hl|apply P_itoa]. Qed.
  Lemma P_group g : P (group_word g).
  Proof. unfold group_word. apply P_app; [apply P_itoa|]. destruct (1 <? Z.of_nat (length g)); [|w]. apply P_app; [w|]. apply P_app; [apply P_values|w]. Qed.
  Lemma P_modifier m : P (modifier_word m).
  Proof. unfold modifier_word. destruct (m =? 0); [w|]. destruct (0 <? m); [apply P_app; [w|apply P_itoa]|apply P_itoa]. Qed.
  Lemma P_bonus m : P (bonus_word m).
  Proof. unfold bonus_word. destruct (m =? 0); [w|]. destruct (0 <? m); (apply P_app; [w|apply P_itoa]). Qed.
  Lemma P_threshold t : P (threshold_word t).
  Proof. destruct t; cbn [threshold_word]; [|w]. apply P_app; [w|]. apply P_app; [apply P_itoa|w]. Qed.
  Lemma P_hint k t h : P k -> hint k t = Some h -> P h.
  Proof. intros Hk. destruct t as [v|]; cbn [hint]; [destruct (v <? 2); [|discriminate]|]; intros [= <-]; [w|exact Hk]. Qed.
  Lemma P_values_list gs : P (join " + " (map values_word gs)).
  Proof. apply P_join; [w|]. apply Forall_map, Forall_forall. intros; apply P_values. Qed.
  Lemma P_groups gs : P (join "," (map group_word gs)).
  Proof. apply P_join; [w|]. apply Forall_map, Forall_forall. intros; apply P_group. Qed.
  Definition op_fine (c : command) : Prop :=
    match c with DComp _ op _ | BComp _ _ op _ | RComp _ _ _ op _ | UComp _ _ _ _ op _ => is_compare_op op | _ => True end.
  Lemma op_fine_ok c c' : command_tree c = command_tree c' -> command_ok c' -> op_fine c.
  Proof.
    destruct c, c'; cbn [command_tree op_fine command_ok]; intros E H; try exact I; try discriminate E; injection E as ? ?; subst; tauto.
  Qed.
  Lemma reply_words c ds parts reported verdict : op_fine c -> (forall items, c = Choose items -> Forall P items) -> reply c ds parts reported verdict -> Forall P parts.
  Proof.
    intros Hok Hc H. destruct H; cbn [op_fine] in Hok;
      repeat match goal with H : _ /\ _ |- _ => destruct H end;
      try match goal with H : is_compare_op _ |- _ => apply P_op in H end;
      try match goal with H : hint _ _ = Some _ |- _ => apply P_hint in H; [|w] end;
      try match goal with H : max_and_total _ _ _ |- _ => destruct H as (mx & _ & ->) end;
      try (specialize (Hc _ eq_refl); match goal with H : nth_error _ _ = Some _ |- _ => apply nth_error_In in H; pose proof (proj1 (Forall_forall _ _) Hc _ H) end);
      repeat (apply Forall_cons || apply Forall_nil);
      repeat first [assumption | apply P_itoa | apply P_values | apply P_values_list | apply P_groups | apply P_modifier | apply P_bonus | apply P_threshold | apply P_parens | apply P_rolls
        | apply P_show; intros; first [apply P_itoa|apply P_mword|apply P_sword] | (apply P_join; [w|assumption]) | w | apply P_app].
  Qed.
  Lemma message_words bot input f r f' : P (db_game_id bot) -> (forall text command items, text = fst (check_secret input) -> command = text \/ command = first_part text -> parse_command command = Ok (NChoice items) -> Forall P items) ->
    execute_command_with bot input f = (Ok r, f') -> P (message r).
  Proof.
    intros Hg Hi H. destruct (C44_message _ _ _ _ _ H) as (text & secret & command & c & lost & ds & parts & H1 & H2 & H3 & _ & H4 & _ & ->).
    apply P_app; [exact Hg|]. apply P_app; [w|]. apply P_join; [w|]. destruct (parse_spelled _ _ H3) as (c' & E & Hok).
    eapply reply_words; [exact (op_fine_ok _ _ E Hok)| |exact H4]. intros items ->. apply (Hi text command items); [rewrite H1; reflexivity|exact H2|exact H3].
  Qed.
End Words.

(** ** Control characters *)
Lemma lacks_parts a s x b y : s = (x ++ b ++ y)%string -> lacks a s -> lacks a b.
Proof. intros ->. rewrite !lacks_app. tauto. Qed.
Lemma itoa_lacks a v : byte_val a < 45 \/ byte_val a > 57 -> lacks a (itoa v).
Proof.
  intros H. unfold lacks. intros K. assert (Forall (fun b => 45 <= byte_val b <= 57) (list_ascii_of_string (itoa v))) as F.
  { destruct (Z_lt_le_dec v 0) as [Hv|Hv].
    - assert (itoa v = ("-" ++ itoa (- v))%string) as ->. { unfold itoa. destruct v; try lia. reflexivity. }
      cbn [append list_ascii_of_string]. apply Forall_cons; [vm_compute; split; discriminate|]. pose proof (itoa_digits (- v) ltac:(lia)) as D. eapply Forall_impl; [|exact (proj2 D)]. intros c Hc. unfold digit in Hc. lia.
    - pose proof (itoa_digits v ltac:(lia)) as D. eapply Forall_impl; [|exact (proj2 D)]. intros c Hc. unfold digit in Hc. lia. }
  rewrite Forall_forall in F. specialize (F _ K). lia.
Qed.
Lemma encode_lacks a t : byte_val a < 128 -> Forall decoded t -> lacks a (raw_text t) -> lacks a (encode_runes t).
Proof.
  intros Ha H. induction H as [|c t Hc H IH]; intros L; [intros []|]. cbn [raw_text encode_runes] in *. apply lacks_app in L as (L1 & L2). apply lacks_app. split; [|exact (IH L2)].
  destruct (gc_bad c) eqn:E; [|rewrite encode_decoded by assumption; exact L1]. unfold gc_bad in E. apply andb_prop in E as (E & _). apply Z.eqb_eq in E. rewrite E.
  intros K. assert (Forall (fun b => 128 <= byte_val b) (list_ascii_of_string (encode_rune rune_error))) as F by (vm_compute; repeat apply Forall_cons; try apply Forall_nil; discriminate).
  rewrite Forall_forall in F. specialize (F _ K). lia.
Qed.
Lemma secret_lacks a input : byte_val a < 128 -> lacks a input -> lacks a (fst (check_secret input)).
Proof.
  intros Ha L. unfold check_secret. pose proof (decode_decoded input) as D. pose proof (raw_decode input) as R. destruct (decode input) as [|c t]; [intros []|].
  destruct ((gc_rune c =? 83) || (gc_rune c =? 115)); cbn [fst]; [|exact L]. inversion D; subst. apply encode_lacks; [exact Ha|assumption|]. cbn [raw_text] in L. apply lacks_app in L as (_ & L). exact L.
Qed.
Lemma first_part_lacks a s : lacks a s -> lacks a (first_part s).
Proof. intros L. destruct (first_part_split s) as [(_ & ->)|(p & b & x & E & _ & _ & ->)]; [exact L|]. rewrite E in L. apply lacks_app in L. tauto. Qed.
Lemma words_lack a : control a -> Forall (lacks a) fixed_words.
Proof.
  intros H. assert (Forall (fun w => Forall (fun b => 32 <= byte_val b /\ byte_val b <> 127) (list_ascii_of_string w)) fixed_words) as F.
  { assert (forallb (fun w => forallb (fun b => (32 <=? byte_val b) && negb (byte_val b =? 127)) (list_ascii_of_string w)) fixed_words = true) as E by (vm_compute; reflexivity).
    rewrite forallb_forall in E. apply Forall_forall. intros w Hw. specialize (E w Hw). rewrite forallb_forall in E. apply Forall_forall. intros b Hb. specialize (E b Hb). lia. }
  eapply Forall_impl; [|exact F]. intros w Hw K. rewrite Forall_forall in Hw. specialize (Hw _ K). unfold control in H. lia.
Qed.

(** * C87 *)
(** A message has no line feed, tab or other control character of its own: those in it come from the text of the command (an item of CHOICE) or from the name of
    the game system.  In particular the answer to a single line is a single line. *)
Theorem C87_control_characters bot input f r f' a : control a -> lacks a (db_game_id bot) -> lacks a input ->
  execute_command_with bot input f = (Ok r, f') -> lacks a (message r).
Proof.
  intros Ha Hg Hi H. revert H. apply message_words.
  - intros x y Hx Hy. apply lacks_app. split; assumption.
  - intros v. apply itoa_lacks. unfold control in Ha. lia.
  - apply words_lack, Ha.
  - exact Hg.
  - intros text command items -> Hc Hp. apply choice_items in Hp as (_ & Hp). eapply Forall_impl; [|exact Hp]. intros s (_ & x & y & E). eapply lacks_parts; [exact E|].
    assert (lacks a (fst (check_secret input))) as L by (apply secret_lacks; [unfold control in Ha; lia|exact Hi]). destruct Hc as [-> | ->]; [exact L|apply first_part_lacks, L].
Qed.
Print Assumptions C87_control_characters.
(** The message is valid UTF-8 whatever the bytes of the command. *)
Lemma valid_append a b : valid_utf8 a -> valid_utf8 b -> valid_utf8 (a ++ b)%string.
Proof. unfold valid_utf8. intros Ha Hb. rewrite decode_app by exact Ha. apply Forall_app. split; assumption. Qed.
Lemma item_valid s t : sp_item s t -> Forall decoded t -> valid t -> valid_utf8 s.
Proof.
  intros H Hd Hv. apply item_inv in H as (z & t0 & -> & -> & _). apply Forall_app in Hd as (_ & Hd). apply valid_app in Hv as (_ & Hv).
  destruct (trim_split t0) as (z1 & z2 & E & _ & _). rewrite E in Hd, Hv. apply Forall_app in Hd as (_ & Hd). apply Forall_app in Hd as (Hd & _). apply valid_app in Hv as (_ & Hv). apply valid_app in Hv as (Hv & _).
  unfold valid_utf8. rewrite decode_raw_text; assumption.
Qed.
Lemma items_valid ss t : sp_items ss t -> Forall decoded t -> valid t -> Forall valid_utf8 ss.
Proof.
  induction 1 as [|s ss o t u Ho Ht Hu IH]; intros Hd Hv; [constructor|]. apply Forall_app in Hd as (_ & Hd). apply Forall_app in Hd as (D1 & D2). apply valid_app in Hv as (_ & Hv). apply valid_app in Hv as (V1 & V2).
  constructor; [eapply item_valid; eassumption|exact (IH D2 V2)].
Qed.
Theorem C87_valid_utf8 bot input f r f' : valid_utf8 (db_game_id bot) -> execute_command_with bot input f = (Ok r, f') -> valid_utf8 (message r).
Proof.
  intros Hg. apply message_words.
  - apply valid_append.
  - intros v. unfold valid_utf8. apply valid_ascii. apply Forall_forall. intros c Hc. pose proof (itoa_lacks c v) as K. destruct (Z_lt_le_dec (byte_val c) 128) as [L|L]; [exact L|]. destruct (K ltac:(lia) Hc).
  - assert (forallb (fun w => forallb (fun c => negb (gc_bad c)) (decode w)) fixed_words = true) as E by (vm_compute; reflexivity).
    rewrite forallb_forall in E. apply Forall_forall. intros w Hw. specialize (E w Hw). rewrite forallb_forall in E. apply Forall_forall. intros b Hb. specialize (E b Hb). destruct (gc_bad b); [discriminate E|reflexivity].
  - exact Hg.
  - intros text command items _ _ Hp. apply parse_sound in Hp as (c & t & rest & E & H1 & H2 & H3 & _). symmetry in E. apply command_tree_choice in E as ->.
    pose proof (decode_split _ _ _ H2) as (_ & _ & Hd). inversion H1; subst. apply Forall_app in Hd as (_ & Hd). apply Forall_app in Hd as (D1 & Hd). apply Forall_app in Hd as (D2 & _).
    apply valid_app in H3 as (_ & H3). apply valid_app in H3 as (V1 & H3). apply valid_app in H3 as (V2 & _).
    constructor; [eapply item_valid; eassumption|eapply items_valid; eassumption].
Qed.
Print Assumptions C87_valid_utf8.
Example C87_example : (exists r, execute_command_with basic_bot "choice[あ い,b] と" (FQueue [Die 1 2]) = (Ok r, FQueue []) /\ message r = "DiceBot : (CHOICE[あ い,b]) ＞ あ い"%string /\ lacks "010" "choice[あ い,b] と" /\ valid_utf8 (db_game_id basic_bot)) /\
  (exists r, execute_command_with basic_bot ("choice[a" ++ newline ++ "b,c]") (FQueue [Die 1 2]) = (Ok r, FQueue []) /\ r_parts r = ["(CHOICE[a" ++ newline ++ "b,c])"; "a" ++ newline ++ "b"]%string) /\
  (exists r, execute_command_with basic_bot ("2D6 " ++ String "255" "") (FQueue [Die 1 6; Die 2 6]) = (Ok r, FQueue []) /\ message r = "DiceBot : (2D6) ＞ 3[1,2] ＞ 3"%string) /\
  control "010" /\ control "027".
Proof.
  split; [|split; [|split]].
  - eexists. split; [vmc|]. split; [vmc|]. split; [unfold lacks; vm_compute; intuition discriminate|unfold valid_utf8; vm_compute; repeat apply Forall_cons; try apply Forall_nil; reflexivity].
  - eexists. split; vmc.
  - eexists. split; vmc.
  - split; left; vmc.
Qed.
