(** The detailed engine (PegText.v) does what the engine of Peg.v does. *)
From Verif Require Import ProofBase Peg PegText.
Open Scope list_scope.
Open Scope Z_scope.

Section Erase.
  Context {R : Type}.
  Variable rules : R -> expr R.
  Implicit Types d : dstate R.
  Definition erase d : pstate := PState (d_rest d) (d_st d) (map e_text (d_errs d)) (d_env d).
  Definition erase_out (o : @dout R) : pout := match o with Some (r, d, n) => Some (r, erase d, n) | None => None end.

  Lemma erase_err d m p : erase (d_err_at d m p) = add_err (erase d) m.
  Proof. unfold erase, d_err_at, add_err. cbn. rewrite map_app. reflexivity. Qed.
  Lemma erase_fail d b p w : erase (fail_at d b p w) = erase d.
  Proof. unfold fail_at. destruct (Bool.eqb b (d_invert d)); [|reflexivity]. destruct (p_offset p <? p_offset (d_fail d)); reflexivity. Qed.
  Lemma erase_arrive d : erase (d_arrive d) = arrive (erase d).
  Proof.
    unfold d_arrive, arrive. destruct d as [p r st er en rs f ex i]. cbn [d_rest d_pt erase ps_rest]. destruct r as [|c r]; [reflexivity|]. destruct (gc_bad c); [|reflexivity].
    unfold d_add_err. rewrite erase_err. reflexivity.
  Qed.
  Lemma erase_read d : erase (d_read d) = read (erase d).
  Proof. unfold d_read, read. rewrite erase_arrive. reflexivity. Qed.
  Lemma erase_lit lit ic : forall d, let '(b, d') := d_lit_loop lit ic d in lit_loop lit ic (erase d) = (b, erase d').
  Proof.
    induction lit as [|w lit IH]; intros d; cbn [d_lit_loop lit_loop]; [reflexivity|]. change (ps_rest (erase d)) with (d_rest d). destruct (d_rest d) as [|c r]; [reflexivity|].
    destruct ((if ic then to_lower (gc_rune c) else gc_rune c) =? w); [|reflexivity]. rewrite <- erase_read. apply IH.
  Qed.
  Definition erased (p : expr R -> dstate R -> dout) (q : expr R -> pstate -> pout) : Prop := forall e d, q e (erase d) = erase_out (p e d).
  Lemma erase_seq p q : erased p q -> forall es d0 d vals n, seq_loop q es (erase d0) (erase d) vals n = erase_out (d_seq_loop p es d0 d vals n).
  Proof.
    intros H es. induction es as [|e es IH]; intros d0 d vals n; cbn [seq_loop d_seq_loop]; [reflexivity|]. rewrite H. destruct (p e d) as [((r, d'), m)|]; [|reflexivity]. cbn [erase_out].
    destruct r; [apply IH|reflexivity|reflexivity].
  Qed.
  Lemma erase_choice p q : erased p q -> forall es d n, choice_loop q es (erase d) n = erase_out (d_choice_loop p es d n).
  Proof.
    intros H es. induction es as [|e es IH]; intros d n; cbn [choice_loop d_choice_loop]; [reflexivity|]. change (set_env (erase d) []) with (erase (d_set_env d [])). rewrite H.
    destruct (p e (d_set_env d [])) as [((r, d'), m)|]; [|reflexivity]. cbn [erase_out]. destruct r; [reflexivity| |reflexivity].
    change (set_env (set_st (erase d') (ps_st (erase d))) (ps_env (erase d))) with (erase (d_set_env (d_set_st d' (d_st d)) (d_env d))). apply IH.
  Qed.
  Lemma erase_star p q : (forall d, q (erase d) = erase_out (p d)) -> forall need k d vals n, star_loop k q need (erase d) vals n = erase_out (d_star_loop k p need d vals n).
  Proof.
    intros H need k. induction k as [|k IH]; intros d vals n; cbn [star_loop d_star_loop]; [reflexivity|]. change (set_env (erase d) []) with (erase (d_set_env d [])). rewrite H.
    destruct (p (d_set_env d [])) as [((r, d'), m)|]; [|reflexivity]. cbn [erase_out]. destruct r; [|destruct vals; [destruct need|]; reflexivity|reflexivity].
    change (set_env (erase d') (ps_env (erase d))) with (erase (d_set_env d' (d_env d))). apply IH.
  Qed.
  Theorem erase_dexpr f : erased (dexpr rules f) (pexpr rules f).
  Proof.
    induction f as [|f IH]; intros e d; [reflexivity|]. destruct e; cbn [pexpr dexpr].
    - rewrite IH. destruct (dexpr rules f e d) as [((r, d'), m)|]; [|reflexivity]. cbn [erase_out]. destruct r; [|reflexivity|reflexivity].
      change (ps_env (erase d')) with (d_env d'). change (ps_rest (erase d)) with (d_rest d). change (ps_rest (erase d')) with (d_rest d'). change (ps_st (erase d')) with (d_st d').
      destruct (act (d_env d') (slice_from (d_rest d) (d_rest d')) (d_st d')); [reflexivity| |reflexivity]. cbn [dret erase_out]. rewrite erase_err. reflexivity.
    - change (set_env (erase d) []) with (erase (d_set_env d [])). rewrite IH. destruct (dexpr rules f e (d_set_env d [])) as [(([v| |], d'), m)|]; reflexivity.
    - apply erase_choice, IH.
    - apply (erase_seq _ _ IH).
    - pose proof (erase_lit lit ignore_case d) as H. destruct (d_lit_loop lit ignore_case d) as ([|], d'); rewrite H; cbn [erase_out dret].
      + rewrite erase_fail. reflexivity.
      + change (erase (d_set_point (fail_at d' false (d_pt d) (WLit lit ignore_case)) (d_pt d) (d_rest d))) with (set_rest (erase (fail_at d' false (d_pt d) (WLit lit ignore_case))) (d_rest d)). rewrite erase_fail. reflexivity.
    - change (ps_rest (erase d)) with (d_rest d). destruct (d_rest d) as [|ch r]; [cbn; rewrite erase_fail; reflexivity|]. destruct (class_match c (gc_rune ch)); cbn [erase_out dret]; rewrite erase_fail, ?erase_read; reflexivity.
    - change (ps_rest (erase d)) with (d_rest d). destruct (d_rest d) as [|ch r]; cbn [erase_out dret]; rewrite erase_fail, ?erase_read; reflexivity.
    - change (set_env (erase d) []) with (erase (d_set_rstack (d_set_env d []) (r :: d_rstack d))). rewrite IH. destruct (dexpr rules f (rules r) _) as [(([v| |], d'), m)|]; reflexivity.
    - apply (erase_star (dexpr rules f e)). intros d'. apply IH.
    - apply (erase_star (dexpr rules f e)). intros d'. apply IH.
    - change (set_env (erase d) []) with (erase (d_set_env d [])). rewrite IH. destruct (dexpr rules f e (d_set_env d [])) as [(([v| |], d'), m)|]; reflexivity.
    - change (set_env (erase d) []) with (erase (d_set_invert (d_set_env d []) (negb (d_invert d)))). rewrite IH. destruct (dexpr rules f e _) as [(([v| |], d'), m)|]; reflexivity.
    - change (ps_st (erase d)) with (d_st d). destruct (f0 (d_st d)) as ([v|m|m], st'); [reflexivity| |reflexivity]. cbn [dret erase_out]. unfold d_add_err. rewrite erase_err. reflexivity.
  Qed.
End Erase.

(** What the two versions of Parse return. *)
Lemma parse_text_command filename input :
  match parse_text filename input, parse_command input with
  | Ok n, Ok n' => n = n'
  | Err _, Err _ => True
  | Panic p, Panic p' => p = p'
  | _, _ => False
  end.
Proof.
  unfold parse_text, parse_command, parse_val, parse. pose proof (erase_dexpr rules (parse_fuel input) (rules Command) (d_set_rstack (d_start input) [Command])) as E.
  assert (erase (d_set_rstack (d_start input) [Command]) = arrive (PState (decode input) None [] [])) as Es.
  { change (erase (d_set_rstack (d_start input) [Command])) with (erase (d_start (R := rule) input)). unfold d_start. rewrite erase_arrive. reflexivity. }
  rewrite Es in E. rewrite E. destruct (dexpr rules (parse_fuel input) (rules Command) (d_set_rstack (d_start input) [Command])) as [((r, d), n)|]; [|reflexivity]. cbn [erase_out].
  destruct r; [|reflexivity|reflexivity]. change (ps_errs (erase d)) with (map e_text (d_errs d)). destruct (d_errs d) as [|e es]; cbn [map]; [|reflexivity]. destruct v; reflexivity.
Qed.
