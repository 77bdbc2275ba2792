(** Property C67: commands on syntax trees in memory, updated in place. *)
From Verif Require Import Grammar SpecSyntax SpecGrammar ProofBase GoMem HeapEval SpecHeap CompProofs HeapProofs HeapArgs HeapArgs2 HeapDet HeapText HeapExec HeapBuild SexpProofs ParseFacts.
Open Scope list_scope.
Open Scope nat_scope.

Lemma sim_run {A} F h (m : hm A) c s o h' s' : sim F eqr h m c -> m h s = (o, (h', s')) -> run c s = (o, s') /\ evolves F h h'.
Proof.
  intros H E. destruct (H s) as (o1 & h1 & E1 & V & Q). rewrite E in E1. injection E1 as <- <- ->. split; [|exact V]. destruct (run c s) as (o2, s2). cbn [fst snd] in *.
  destruct o, o2; cbn in Q; try contradiction; unfold eqr in Q; subst; reflexivity.
Qed.
Lemma evolves_unchanged F h h' : evolves F h h' -> unchanged_outside F h h'.
Proof. intros (_ & H) x Hx Hn. apply H; assumption. Qed.
Lemma other_tree F h h' t a G : evolves F h h' -> rep h t a G -> disjoint G F -> rep h' t a G.
Proof. intros V H D. eapply evolves_rep; eassumption. Qed.

(** C67: executing a command in place gives the reply, the error or the panic, takes the dice and logs the dice of the same
    command executed as a value ([execute], about which the other properties speak).  Whether it succeeds or not, no node
    outside the command changes, so any other tree in memory stays what it was. *)
Theorem C67_execute mr game_id fuel t a F h s o h' s' : tree_at h a t F -> length F < fuel -> h_execute mr game_id fuel a h s = (o, (h', s')) ->
  run (execute mr game_id t) s = (o, s') /\ unchanged_outside F h h' /\ (forall t' a' G, rep h t' a' G -> disjoint G F -> rep h' t' a' G).
Proof.
  intros (H & N) L E. destruct (sim_run _ _ _ _ _ _ _ _ (execute_sim mr game_id fuel t a F h H N L) E) as (Hr & V). split; [exact Hr|]. split; [apply evolves_unchanged; exact V|]. intros t' a' G Hg D. eapply other_tree; eassumption.
Qed.
(** C67: Eval, InfixNotation and SExp change no node at all, although they make and fill in nodes of their own. *)
Theorem C67_eval_reads mr fuel t a F h s o h' s' : rep h t a F -> length F < fuel -> h_eval mr fuel a h s = (o, (h', s')) -> run (eval mr t) s = (o, s') /\ unchanged_outside [] h h'.
Proof. intros H L E. destruct (sim_run _ _ _ _ _ _ _ _ (h_eval_sim mr fuel t a F h H L) E) as (Hr & V). split; [exact Hr|apply evolves_unchanged; exact V]. Qed.
Theorem C67_notation_reads fuel t a F w h s o h' s' : rep h t a F -> length F < fuel -> h_notation fuel a w h s = (o, (h', s')) -> o = infix_notation t w /\ s' = s /\ unchanged_outside [] h h'.
Proof.
  intros H L E. destruct (sim_run _ _ _ _ _ _ _ _ (notation_sim fuel t a F w h H L) E) as (Hr & V). destruct (infix_notation t w); injection Hr as <- <-; (split; [reflexivity|]); (split; [reflexivity|apply evolves_unchanged; exact V]).
Qed.
Theorem C67_sexp_reads printable fuel input t a F h s o h' s' : parse_command input = Ok t -> rep h t a F -> length F < fuel -> h_sexp printable fuel a h s = (o, (h', s')) ->
  o = Ok (sexp_with printable t) /\ s' = s /\ unchanged_outside [] h h'.
Proof.
  intros Hp H L E. assert (clonable t) as C. { apply parse_spelled in Hp as (c & -> & Hok). apply shaped_clonable, command_shaped, Hok. }
  destruct (sim_run _ _ _ _ _ _ _ _ (sexp_sim printable fuel t a F h H C L) E) as (Hr & V). injection Hr as <- <-. split; [reflexivity|]. split; [reflexivity|apply evolves_unchanged; exact V].
Qed.
(** C67: EvalVarArgs and DetermineValues update the tree in place: afterwards the tree at the same address is the one their
    value versions return, again without sharing, on its old nodes and new ones. *)
Theorem C67_var_args_in_place mr fuel t a F h s o h' s' : tree_at h a t F -> length F < fuel -> h_eval_var_args mr fuel a h s = (o, (h', s')) ->
  unchanged_outside F h h' /\
  match run (eval_var_args mr t) s with
  | (Ok t', s1) => o = Ok tt /\ s' = s1 /\ exists F', tree_at h' a t' F' /\ length F' <= length F /\ forall x, In x F' -> In x F \/ length h <= x
  | (Err e, s1) => o = Err e /\ s' = s1
  | (Panic p, s1) => o = Panic p /\ s' = s1
  end.
Proof.
  intros (H & N) L E. destruct (var_args_sim mr fuel t a F h H N L s) as (o1 & h1 & E1 & V & Q). rewrite E in E1. injection E1 as <- <- ->. split; [apply evolves_unchanged; exact V|].
  destruct (run (eval_var_args mr t) s) as (o2, s2). cbn [fst snd] in *. destruct o as [[]|e|p], o2 as [t'|e'|p']; cbn in Q; try contradiction; try (subst; split; reflexivity).
  split; [reflexivity|]. split; [reflexivity|]. destruct Q as (F' & Hr & N' & Ln & Fi). exists F'. split; [split; assumption|]. split; assumption.
Qed.
Theorem C67_determine_in_place fuel t a F h s o h' s' : tree_at h a t F -> length F < fuel -> h_determine_values fuel a h s = (o, (h', s')) ->
  unchanged_outside F h h' /\
  match run (determine_values t) s with
  | (Ok t', s1) => o = Ok tt /\ s' = s1 /\ exists F', tree_at h' a t' F' /\ length F' <= length F /\ forall x, In x F' -> In x F \/ length h <= x
  | (Err e, s1) => o = Err e /\ s' = s1
  | (Panic p, s1) => o = Panic p /\ s' = s1
  end.
Proof.
  intros (H & N) L E. destruct (determine_sim fuel t a F h H N L s) as (o1 & h1 & E1 & V & Q). rewrite E in E1. injection E1 as <- <- ->. split; [apply evolves_unchanged; exact V|].
  destruct (run (determine_values t) s) as (o2, s2). cbn [fst snd] in *. destruct o as [[]|e|p], o2 as [t'|e'|p']; cbn in Q; try contradiction; try (subst; split; reflexivity).
  split; [reflexivity|]. split; [reflexivity|]. destruct Q as (F' & Hr & N' & Ln & Fi). exists F'. split; [split; assumption|]. split; assumption.
Qed.
(** C67: a parsed command, made node by node at the end of any memory, is an unshared tree; executing it there gives
    [run_command] and leaves everything that was in memory before as it was. *)
Theorem C67_parsed input n game_id f h fuel : parse_command input = Ok n ->
  let '(h1, a) := build n h in
  length h1 < fuel ->
  exists h2 s, h_execute default_max_rerolls game_id fuel a h1 (EState f []) = (fst (run_command game_id n f), (h2, s)) /\ es_feeder s = snd (run_command game_id n f) /\
    (exists F, tree_at h1 a n F /\ forall x, In x F -> length h <= x) /\ firstn (length h) h1 = h /\ firstn (length h) h2 = h.
Proof.
  intros Hp. apply parse_spelled in Hp as (c & -> & Hok). pose proof (build_builds _ (command_shaped c Hok) h) as B. destruct (build (command_tree c) h) as (h1, a). destruct B as (F & R & (e & ->) & N & Lo & Up). intros Hf.
  assert (length F < fuel) as L. { apply Nat.le_lt_trans with (2 := Hf). rewrite <- (seq_length (length (h ++ e)) 0). apply NoDup_incl_length; [exact N|]. intros x Hx. apply in_seq. specialize (Up x Hx). lia. }
  destruct (execute_sim default_max_rerolls game_id fuel _ a F _ R N L (EState f [])) as (o & h2 & E & V & Q). exists h2. unfold run_command. destruct (run (execute default_max_rerolls game_id (command_tree c)) (EState f [])) as (o', s) eqn:Er. cbn [fst snd] in *.
  exists s. split; [rewrite E; f_equal; destruct o, o'; cbn in Q; try contradiction; unfold eqr in Q; subst; reflexivity|]. split; [reflexivity|]. split; [exists F; split; [split; assumption|exact Lo]|].
  split; [rewrite firstn_app, Nat.sub_diag, firstn_all; apply app_nil_r|]. destruct V as (Lv & V).
  assert (forall x, x < length h -> nth_error h2 x = nth_error h x) as K. { intros x Hx. rewrite V; [apply nth_error_app1; exact Hx|rewrite app_length; lia|]. intros Hi. specialize (Lo x Hi). lia. }
  rewrite app_length in Lv. clear - Lv K. revert h2 Lv K. induction h as [|y h IH]; intros h2 Lv K; [reflexivity|]. destruct h2 as [|z h2]; [cbn in Lv; lia|]. pose proof (K 0 ltac:(cbn; lia)) as K0. cbn in K0. injection K0 as ->.
  cbn [length firstn]. f_equal. apply IH; [cbn in Lv; lia|]. intros x Hx. apply (K (S x)). cbn. lia.
Qed.
(** A memory that holds the tree -1; the nodes of the command are made after it.  The first die explodes.  Afterwards the
    command has new nodes (from address 14 on), the tree -1 and the reply are as they should be. *)
Example C67_applies :
  exists n h1 h2 s r, parse_command "2U6[4]+1>=5" = Ok n /\ build n [HInt 1; HNeg 0] = (h1, 13) /\ tree_at h1 13 n [13; 12; 10; 6; 5; 4; 2; 3; 9; 7; 8; 11] /\ rep h1 (NNeg (NInt 1)) 1 [1; 0] /\
    h_execute default_max_rerolls "DiceBot" 20 13 h1 (EState (FQueue [Die 5 6; Die 2 6; Die 1 6; Die 3 6]) []) = (Ok r, (h2, s)) /\
    r_parts r = ["(2U6[4]+1>=5)"%string; "7[5,2],1+1"%string; "成功数1"%string] /\ es_feeder s = FQueue [Die 3 6] /\
    nth_error h1 4 = Some (HInfix (OpVar KU) 2 3) /\ nth_error h2 4 = Some (HInfix (OpVar KU) 15 16) /\ firstn 2 h2 = [HInt 1; HNeg 0].
Proof.
  do 5 eexists. split; [vm_compute; reflexivity|]. split; [vm_compute; reflexivity|]. split; [split|].
  - apply (rep_command _ _ _ 12 _ [12; 10; 6; 5; 4; 2; 3; 9; 7; 8; 11]); [reflexivity|]. apply (rep_infix _ _ _ 10 11 _ _ [10; 6; 5; 4; 2; 3; 9; 7; 8] [11]); [reflexivity| |apply rep_int; reflexivity].
    apply (rep_ubonus _ _ 6 9 _ _ _ _ _ [6; 5; 4; 2; 3] [9; 7; 8]); [reflexivity| |].
    + apply (rep_rlist _ _ [4] 5 _ _ [4; 2; 3] [5]); [reflexivity| |apply rep_int; reflexivity]. apply (reps_cons _ _ _ _ _ _ _ [4; 2; 3] []); [|apply reps_nil]. apply (rep_infix _ _ _ 2 3 _ _ [2] [3]); [reflexivity| |]; apply rep_int; reflexivity.
    + apply (rep_infix _ _ _ 7 8 _ _ [7] [8]); [reflexivity| |]; apply rep_int; reflexivity.
  - repeat (constructor; [cbn; lia|]). constructor.
  - split; [apply (rep_neg _ _ 0 _ [0]); [reflexivity|apply rep_int; reflexivity]|]. split; [vm_compute; reflexivity|]. repeat split.
Qed.
Print Assumptions C67_execute.
Print Assumptions C67_eval_reads.
Print Assumptions C67_notation_reads.
Print Assumptions C67_sexp_reads.
Print Assumptions C67_var_args_in_place.
Print Assumptions C67_determine_in_place.
Print Assumptions C67_parsed.
