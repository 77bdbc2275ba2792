(** What an expression does to the position and to the farthest failure, on a valid text. *)
From Verif Require Import Grammar PegText ProofBase SpecGrammar SpecErrors.
Open Scope list_scope.
Open Scope Z_scope.

(** ** The terminals of the grammar *)
Definition table : list (bool * want) :=
  (true, WAny) ::
  map (fun c => (false, WClass c)) [CharClass [] [] true false false; CharClass (runes "],") [] false false true; CharClass (runes "ur") [] false true false; CharClass [] [(48, 57)] false false false] ++
  map (fun s => (false, WLit (runes s) false)) ["+"; "-"; "*"; "/"; "("; ")"; "["; "]"; ","; "..."; "="; "<>"; "<="; "<"; ">="; ">"]%string ++
  map (fun s => (false, WLit (runes s) true)) ["choice["; "c"; "d"; "b"; "r"; "u"]%string.
Definition known (x : bool * want) : Prop := In x table.

(** ** The expressions of the grammar; [b]: with the end of the text *)
Definition ok_ref (b : bool) (r : rule) : bool := b || match r with Command | CommandWithExpression | EOT => false | _ => true end.
Fixpoint plain_e (b : bool) (e : expr rule) : Prop :=
  match e with
  | EAction _ e | ELabel _ e | EStar e | EPlus e | EOpt e => plain_e b e
  | EChoice alts => alts <> [] /\ (fix go l := match l with [] => True | e :: l' => plain_e b e /\ go l' end) alts
  | ESeq es => (fix go l := match l with [] => True | e :: l' => plain_e b e /\ go l' end) es
  | ELit lit ic => known (false, WLit lit ic) /\ (length lit <= 7)%nat
  | EClass c => known (false, WClass c)
  | ERef r => ok_ref b r = true
  | ENot e => b = true /\ e = EAny
  | Peg.EState _ => True
  | EAny => False
  end.
Lemma plain_all b l : (fix go l := match l with [] => True | e :: l' => plain_e b e /\ go l' end) l -> Forall (plain_e b) l.
Proof. induction l as [|e l IH]; intros H; constructor; [apply H|apply IH, H]. Qed.
Ltac find_in := unfold known, table; cbn [map app In]; repeat (first [left; reflexivity|right]).
Lemma rules_plain b r : ok_ref b r = true -> plain_e b (rules r).
Proof.
  assert (forall s, In s ["+"; "-"; "*"; "/"; "("; ")"; "["; "]"; ","; "..."; "="; "<>"; "<="; "<"; ">="; ">"]%string -> plain_e b (lit s)) as Hl.
  { intros s H. cbn [plain_e lit]. split; [right; apply in_or_app; right; apply in_or_app; left; apply (in_map (fun s => (false, WLit (runes s) false))), H|].
    repeat (destruct H as [<-|H]; [cbn; lia|]). destruct H. }
  assert (forall s, In s ["choice["; "c"; "d"; "b"; "r"; "u"]%string -> plain_e b (lit_i s)) as Hi.
  { intros s H. cbn [plain_e lit_i]. split; [right; apply in_or_app; right; apply in_or_app; right; apply (in_map (fun s => (false, WLit (runes s) true))), H|].
    repeat (destruct H as [<-|H]; [cbn; lia|]). destruct H. }
  assert (plain_e b cls_Z) as C1 by (cbn [plain_e cls_Z]; find_in). assert (plain_e b cls_not_item) as C2 by (cbn [plain_e cls_not_item]; find_in).
  assert (plain_e b cls_ur) as C3 by (cbn [plain_e cls_ur]; find_in). assert (plain_e b cls_digit) as C4 by (cbn [plain_e cls_digit]; find_in).
  assert (forall r, ok_ref false r = true -> ok_ref b r = true) as Hr by (intros q Hq; destruct b; [reflexivity|exact Hq]).
  intros H. destruct r; cbn [rules]; unfold additive, multitive, parenthesized, unary_plus, unary_minus, roll_rule, compare_rule, r_list_rule;
    cbn [plain_e];
    repeat match goal with
    | |- _ /\ _ => split
    | |- ok_ref _ _ = true => first [exact H|apply Hr; reflexivity|destruct b; [reflexivity|discriminate H]]
    | |- _ <> [] => discriminate
    | |- True => exact I
    | |- plain_e b (lit _) => apply Hl; cbn [In]; tauto
    | |- plain_e b (lit_i _) => apply Hi; cbn [In]; tauto
    | |- plain_e b _ => assumption
    | |- EAny = EAny => reflexivity
    | |- b = true => destruct b; [reflexivity|discriminate H]
    end.
Qed.

(** ** Positions *)
Definition pos_of (p : Z * Z * Z) : position := let '(l, c, o) := p in Position l c o.
Definition off (t : text) (k : nat) : Z := Z.of_nat (String.length (raw_text (firstn k t))).
Definition spot (t : text) (k : nat) : position :=
  let before := firstn k t in
  let line := 1 + Z.of_nat (length (filter newline before)) in
  let column := 1 + Z.of_nat (length (line_tail (rev before))) in
  match skipn k t with
  | c :: _ => if newline c then Position (line + 1) 0 (off t k) else Position line column (off t k)
  | [] => Position line column (off t k)
  end.
Definition fspot (t : text) (k : nat) : position := match k with O => Position 1 1 0 | _ => spot t k end.
Lemma fspot_place t k : fspot t k = pos_of (place t k).
Proof. unfold fspot, place, spot, off. destruct k; [reflexivity|]. destruct (skipn (S k) t) as [|c l]; [reflexivity|]. destruct (newline c); reflexivity. Qed.
Lemma spot_off t k : p_offset (spot t k) = off t k.
Proof. unfold spot. destruct (skipn k t) as [|c l]; [reflexivity|]. destruct (newline c); reflexivity. Qed.
Lemma fspot_off t k : p_offset (fspot t k) = off t k.
Proof. destruct k; [reflexivity|apply spot_off]. Qed.
Lemma str_app_length a b : String.length (a ++ b) = (String.length a + String.length b)%nat.
Proof. induction a as [|x a IH]; cbn; [reflexivity|]. rewrite IH. reflexivity. Qed.
Lemma raw_app a b : raw_text (a ++ b) = (raw_text a ++ raw_text b)%string.
Proof. induction a as [|x a IH]; [reflexivity|]. cbn [app raw_text]. rewrite IH. clear. induction (gc_raw x) as [|y s IH]; cbn; [reflexivity|]. rewrite IH. reflexivity. Qed.
Lemma step_split (t : text) k c l : skipn k t = c :: l -> firstn (S k) t = firstn k t ++ [c] /\ skipn (S k) t = l /\ (k < length t)%nat.
Proof.
  revert t. induction k as [|k IH]; intros [|x t] H; cbn in H; try discriminate.
  - injection H as -> ->. cbn. repeat split. lia.
  - destruct (IH t H) as (H1 & H2 & H3). cbn [firstn skipn app length] in *. rewrite H1. repeat split; [exact H2|lia].
Qed.
Lemma off_step t k c l : skipn k t = c :: l -> off t (S k) = off t k + Z.of_nat (String.length (gc_raw c)).
Proof.
  intros H. unfold off. destruct (step_split _ _ _ _ H) as (-> & _ & _). rewrite raw_app, str_app_length. cbn [raw_text]. rewrite str_app_length. cbn. lia.
Qed.

Section Text.
  Variable all : text.
  Hypothesis all_valid : valid all.
  Hypothesis all_raw : Forall (fun c => gc_raw c <> EmptyString) all.

  Lemma off_mono i j : (i < j <= length all)%nat -> off all i < off all j.
  Proof.
    intros (H & Hj). induction H as [|j H IH].
    - destruct (skipn i all) as [|c l] eqn:E; [exfalso; apply (f_equal (@length _)) in E; rewrite skipn_length in E; cbn in E; lia|].
      rewrite (off_step _ _ _ _ E). assert (gc_raw c <> EmptyString) as Hc.
      { pose proof (proj1 (Forall_forall _ _) all_raw c) as F. apply F. rewrite <- (firstn_skipn i all), E. apply in_or_app. right. left. reflexivity. }
      destruct (gc_raw c); [congruence|cbn; lia].
    - destruct (skipn j all) as [|c l] eqn:E; [exfalso; apply (f_equal (@length _)) in E; rewrite skipn_length in E; cbn in E; lia|].
      rewrite (off_step _ _ _ _ E). specialize (IH ltac:(lia)). lia.
  Qed.
  Lemma off_lt i j : (i <= length all)%nat -> (j <= length all)%nat -> (off all i <? off all j) = (i <? j)%nat.
  Proof.
    intros Hi Hj. destruct (Nat.lt_trichotomy i j) as [H|[->|H]].
    - pose proof (off_mono i j ltac:(lia)). rewrite (proj2 (Nat.ltb_lt _ _) H). apply Z.ltb_lt. assumption.
    - rewrite Nat.ltb_irrefl. apply Z.ltb_irrefl.
    - pose proof (off_mono j i ltac:(lia)). destruct (Nat.ltb_spec i j); [lia|]. apply Z.ltb_ge. lia.
  Qed.
  Lemma off_le i j : (i <= length all)%nat -> (j <= length all)%nat -> off all i <= off all j <-> (i <= j)%nat.
  Proof. intros Hi Hj. pose proof (off_lt j i Hj Hi) as H. destruct (Nat.ltb_spec j i); [apply Z.ltb_lt in H|apply Z.ltb_ge in H]; lia. Qed.

  (** at character [i], the farthest failure at character [j] *)
  Record at_ (i j : nat) (d : dstate rule) : Prop := At {
    at_i : (i <= length all)%nat;
    at_j : (j <= length all)%nat;
    at_rest : d_rest d = skipn i all;
    at_pt : d_pt d = spot all i;
    at_fail : d_fail d = fspot all j;
    at_inv : d_invert d = false;
    at_exp : (0 < j)%nat -> d_expected d <> [];
    at_known : Forall known (d_expected d) }.

  Lemma at_set_env i j d e : at_ i j d <-> at_ i j (d_set_env d e).
  Proof. split; intros []; constructor; assumption. Qed.
  Lemma at_set_st i j d g : at_ i j d <-> at_ i j (d_set_st d g).
  Proof. split; intros []; constructor; assumption. Qed.
  Lemma at_set_rstack i j d l : at_ i j d <-> at_ i j (d_set_rstack d l).
  Proof. split; intros []; constructor; assumption. Qed.
  Lemma at_err i j d m p : at_ i j d <-> at_ i j (d_err_at d m p).
  Proof. split; intros []; constructor; assumption. Qed.
  Lemma at_set_point i j i' d : at_ i j d -> (i' <= length all)%nat -> at_ i' j (d_set_point d (spot all i') (skipn i' all)).
  Proof. intros [] Hi. constructor; try assumption; reflexivity. Qed.

  (** What does not concern positions *)
  Definition core (d : dstate rule) := (d_st d, d_errs d, d_env d, d_rstack d).
  Lemma at_read i j d c l : at_ i j d -> skipn i all = c :: l -> at_ (S i) j (d_read d) /\ core (d_read d) = core d /\ d_expected (d_read d) = d_expected d.
  Proof.
    intros A E. destruct (step_split _ _ _ _ E) as (Hf & Hs & Hi). unfold d_read. rewrite (at_rest _ _ _ A), E. cbn [tl]. unfold d_arrive. cbn [d_rest d_set_point d_pt p_line p_col p_offset].
    rewrite (at_pt _ _ _ A).
    assert (forall x, In x all -> gc_bad x = false) as Hv by (apply Forall_forall, all_valid).
    assert (p_offset (spot all i) + Z.of_nat (String.length (gc_raw c)) = off all (S i)) as Ho by (rewrite spot_off; symmetry; apply (off_step _ _ _ _ E)).
    assert (p_line (spot all i) = 1 + Z.of_nat (length (filter newline (firstn (S i) all)))) as Hl.
    { unfold spot. rewrite E, Hf, filter_app, app_length. cbn [filter]. destruct (newline c); cbn [p_line length]; lia. }
    assert (p_col (spot all i) + 1 = 1 + Z.of_nat (length (line_tail (rev (firstn (S i) all))))) as Hc.
    { unfold spot. rewrite E, Hf, rev_app_distr. cbn [rev app line_tail]. destruct (newline c); cbn [p_col length]; lia. }
    assert (match l with [] => Position (p_line (spot all i)) (p_col (spot all i) + 1) (off all (S i))
            | x :: _ => if gc_rune x =? 10 then Position (p_line (spot all i) + 1) 0 (off all (S i)) else Position (p_line (spot all i)) (p_col (spot all i) + 1) (off all (S i)) end = spot all (S i)) as Hp.
    { rewrite Hl, Hc. unfold spot. rewrite Hs. destruct l as [|x l']; [reflexivity|]. unfold newline. destruct (gc_rune x =? 10); reflexivity. }
    destruct l as [|x l'].
    - split; [|split; reflexivity]. destruct A. rewrite Ho. constructor; cbn; try assumption; symmetry; assumption.
    - assert (gc_bad x = false) as Hx. { apply Hv. rewrite <- (firstn_skipn i all), E. apply in_or_app. right. right. left. reflexivity. }
      rewrite Hx. split; [|split; reflexivity]. destruct A. rewrite Ho. constructor; cbn; try assumption; symmetry; assumption.
  Qed.

  (** a literal at the beginning of a text *)
  Fixpoint starts (lit : list Z) (ic : bool) (t : text) : bool :=
    match lit, t with
    | [], _ => true
    | w :: lit', c :: t' => ((if ic then to_lower (gc_rune c) else gc_rune c) =? w) && starts lit' ic t'
    | _ :: _, [] => false
    end.
  Lemma lit_at lit ic : forall i j d, at_ i j d -> exists i' d', d_lit_loop lit ic d = (starts lit ic (skipn i all), d') /\ at_ i' j d' /\ core d' = core d /\ d_expected d' = d_expected d /\
    (starts lit ic (skipn i all) = true -> i' = (i + length lit)%nat).
  Proof.
    induction lit as [|w lit IH]; intros i j d A; cbn [d_lit_loop starts].
    - exists i, d. repeat split; try assumption; try apply A. intros _. cbn. lia.
    - rewrite (at_rest _ _ _ A). destruct (skipn i all) as [|c l] eqn:E; [exists i, d; repeat split; try assumption; try apply A; discriminate|].
      destruct (_ =? w); cbn [andb]; [|exists i, d; repeat split; try assumption; try apply A; discriminate].
      destruct (at_read _ _ _ _ _ A E) as (A1 & C1 & X1). destruct (IH _ _ _ A1) as (i' & d' & H1 & H2 & H3 & H4 & H5). destruct (step_split _ _ _ _ E) as (_ & Hs & _). rewrite Hs in *.
      exists i', d'. split; [exact H1|]. split; [exact H2|]. split; [congruence|]. split; [congruence|]. intros Hl. rewrite (H5 Hl). cbn. lia.
  Qed.

  (** noting a failure *)
  Definition ex_note (i j : nat) (x : bool * want) (ex : list (bool * want)) : list (bool * want) :=
    if (i <? j)%nat then ex else if (j <? i)%nat then [x] else ex ++ [x].
  Lemma at_note i0 i j d w : at_ i0 j d -> (i <= length all)%nat -> known (false, w) ->
    at_ i0 (Nat.max i j) (fail_at d false (spot all i) w) /\ core (fail_at d false (spot all i) w) = core d /\
    d_expected (fail_at d false (spot all i) w) = ex_note i j (false, w) (d_expected d) /\
    d_pt (fail_at d false (spot all i) w) = d_pt d /\ d_rest (fail_at d false (spot all i) w) = d_rest d.
  Proof.
    intros A Hi Hw. unfold fail_at. rewrite (at_inv _ _ _ A). cbn [Bool.eqb]. rewrite (at_fail _ _ _ A), spot_off, fspot_off.
    rewrite (off_lt _ _ Hi (at_j _ _ _ A)), (off_lt _ _ (at_j _ _ _ A) Hi). unfold ex_note.
    destruct (Nat.ltb_spec i j) as [Hij|Hij].
    - rewrite Nat.max_r by lia. repeat split; try apply A.
    - destruct (Nat.ltb_spec j i) as [Hji|Hji].
      + rewrite Nat.max_l by lia. split; [|repeat split]. destruct A. constructor; cbn; try assumption; try reflexivity; [|intros _; discriminate|constructor; [exact Hw|constructor]].
        destruct i; [lia|reflexivity].
      + replace j with i in * by lia. rewrite Nat.max_id. split; [|repeat split]. destruct A. constructor; cbn; try assumption; try reflexivity.
        * intros _ Hx. apply app_eq_nil in Hx as (_ & Hx). discriminate.
        * apply Forall_app. split; [assumption|]. constructor; [exact Hw|constructor].
  Qed.
  Lemma at_keep i0 i j d w : at_ i0 j d -> fail_at d true (spot all i) w = d.
  Proof. intros A. unfold fail_at. rewrite (at_inv _ _ _ A). reflexivity. Qed.
  Lemma ex_note_nonempty i j x ex : ((0 < j)%nat -> ex <> []) -> ex_note i j x ex <> [].
  Proof. intros H. unfold ex_note. destruct (Nat.ltb_spec i j); [apply H; lia|]. destruct (j <? i)%nat; [discriminate|]. intros E. apply app_eq_nil in E as (_ & E). discriminate. Qed.

  (** ** One run *)
  Definition grown (d d' : dstate rule) : Prop := d_rstack d' = d_rstack d /\ (d_expected d <> [] -> d_expected d' <> []) /\ exists added, d_errs d' = d_errs d ++ added.
  Definition run_ok (i0 i j : nat) (d : dstate rule) (o : @dout rule) : Prop :=
    match o with
    | Some (PMatch _, d', _) => exists i' j', at_ i' j' d' /\ (i <= i')%nat /\ (j <= j')%nat /\ grown d d'
    | Some (PFail, d', _) => exists j', at_ i0 j' d' /\ (i <= j')%nat /\ (j <= j')%nat /\ grown d d' /\ d_expected d' <> []
    | _ => True
    end.
  Lemma grown_refl d : grown d d.
  Proof. repeat split; [auto|]. exists []. symmetry. apply app_nil_r. Qed.
  Lemma grown_trans d d' d'' : grown d d' -> grown d' d'' -> grown d d''.
  Proof. intros (H1 & H2 & a & H3) (G1 & G2 & b & G3). repeat split; [congruence|auto|]. exists (a ++ b). rewrite G3, H3, app_assoc. reflexivity. Qed.
  Definition good (b : bool) (p : expr rule -> dstate rule -> @dout rule) : Prop := forall e i j d, plain_e b e -> at_ i j d -> run_ok i i j d (p e d).

  Lemma seq_good b p : good b p -> forall es i0 d0 i j d vals n, Forall (plain_e b) es -> at_ i0 j d0 \/ (exists j0, at_ i0 j0 d0) -> at_ i j d -> (i0 <= i)%nat ->
    run_ok i0 i j d (d_seq_loop p es d0 d vals n).
  Proof.
    intros Hp es. induction es as [|e es IH]; intros i0 d0 i j d vals n Hes A0 A Hi; cbn [d_seq_loop].
    - exists i, j. split; [exact A|]. split; [lia|]. split; [lia|apply grown_refl].
    - inversion Hes as [|? ? He Hes']; subst. pose proof (Hp e i j d He A) as H. destruct (p e d) as [[[[v| |m] d'] n']|]; [| |exact I|exact I]; cbn [run_ok] in H.
      + destruct H as (i' & j' & A' & Hi' & Hj' & G). specialize (IH i0 d0 i' j' d' (vals ++ [v]) (n + n')%N Hes'). assert (exists j0, at_ i0 j0 d0) as A1 by (destruct A0 as [A0|A0]; eauto).
        specialize (IH (or_intror A1) A' ltac:(lia)). destruct (d_seq_loop p es d0 d' (vals ++ [v]) (n + n')) as [[[[v'| |m] d''] n'']|]; [| |exact I|exact I]; cbn [run_ok] in *.
        * destruct IH as (i'' & j'' & A'' & H1 & H2 & H3). exists i'', j''. split; [exact A''|]. split; [lia|]. split; [lia|eapply grown_trans; eassumption].
        * destruct IH as (j'' & A'' & H1 & H2 & H3 & H4). exists j''. split; [exact A''|]. split; [lia|]. split; [lia|]. split; [eapply grown_trans; eassumption|exact H4].
      + destruct H as (j' & A' & H1 & H2 & H3 & H4). exists j'. split; [|split; [lia|split; [lia|split; [exact H3|exact H4]]]].
        assert (exists j0, at_ i0 j0 d0) as (j0 & A1) by (destruct A0 as [A0|A0]; eauto). rewrite (at_pt _ _ _ A1), (at_rest _ _ _ A1).
        apply at_set_point with (i := i); [|apply A1]. apply -> at_set_st. exact A'.
  Qed.
  Lemma choice_good b p : good b p -> forall es i j d n, Forall (plain_e b) es -> at_ i j d -> (es <> [] \/ (i <= j)%nat /\ d_expected d <> []) -> run_ok i i j d (d_choice_loop p es d n).
  Proof.
    intros Hp es. induction es as [|e es IH]; intros i j d n Hes A Hne; cbn [d_choice_loop].
    - destruct Hne as [Hne|(Hne & Hx)]; [congruence|]. exists j. split; [exact A|]. split; [lia|]. split; [lia|]. split; [apply grown_refl|exact Hx].
    - inversion Hes as [|? ? He Hes']; subst. pose proof (Hp e i j (d_set_env d []) He (proj1 (at_set_env _ _ _ _) A)) as H. destruct (p e (d_set_env d [])) as [[[[v| |m] d'] n']|]; [| |exact I|exact I]; cbn [run_ok] in H.
      + destruct H as (i' & j' & A' & H1 & H2 & H3). exists i', j'. split; [apply -> at_set_env; exact A'|]. split; [lia|]. split; [lia|exact H3].
      + destruct H as (j' & A' & H1 & H2 & H3 & H4).
        assert (at_ i j' (d_set_env (d_set_st d' (d_st d)) (d_env d))) as A2 by (apply -> at_set_env; apply -> at_set_st; exact A').
        specialize (IH i j' _ (n + n')%N Hes' A2 (or_intror (conj H1 H4))).
        destruct (d_choice_loop p es (d_set_env (d_set_st d' (d_st d)) (d_env d)) (n + n')) as [[[[v'| |m] d''] n'']|]; [| |exact I|exact I]; cbn [run_ok] in *.
        * destruct IH as (i'' & j'' & A'' & K1 & K2 & K3). exists i'', j''. split; [exact A''|]. split; [lia|]. split; [lia|eapply grown_trans; [exact H3|exact K3]].
        * destruct IH as (j'' & A'' & K1 & K2 & K3 & K4). exists j''. split; [exact A''|]. split; [lia|]. split; [lia|]. split; [eapply grown_trans; [exact H3|exact K3]|exact K4].
  Qed.
  Lemma star_good b p e : (forall i j d, at_ i j d -> run_ok i i j d (p d)) -> plain_e b e -> forall need k i0 i j d vals n, at_ i j d -> (vals = [] -> i = i0) -> run_ok i0 i j d (d_star_loop k p need d vals n).
  Proof.
    intros Hp He need k. induction k as [|k IH]; intros i0 i j d vals n A Hv; cbn [d_star_loop]; [exact I|].
    pose proof (Hp i j (d_set_env d []) (proj1 (at_set_env _ _ _ _) A)) as H. destruct (p (d_set_env d [])) as [[[[v| |m] d'] n']|]; [| |exact I|exact I]; cbn [run_ok] in H.
    - destruct H as (i' & j' & A' & H1 & H2 & H3). assert (at_ i' j' (d_set_env d' (d_env d))) as A2 by (apply -> at_set_env; exact A').
      specialize (IH i0 i' j' _ (vals ++ [v]) (n + n')%N A2). assert (vals ++ [v] = [] -> i' = i0) as Hv' by (intros E; apply app_eq_nil in E as (_ & E); discriminate). specialize (IH Hv').
      destruct (d_star_loop k p need (d_set_env d' (d_env d)) (vals ++ [v]) (n + n')) as [[[[v'| |m] d''] n'']|]; [| |exact I|exact I]; cbn [run_ok] in *.
      + destruct IH as (i'' & j'' & A'' & K1 & K2 & K3). exists i'', j''. split; [exact A''|]. split; [lia|]. split; [lia|eapply grown_trans; [exact H3|exact K3]].
      + destruct IH as (j'' & A'' & K1 & K2 & K3 & K4). exists j''. split; [exact A''|]. split; [lia|]. split; [lia|]. split; [eapply grown_trans; [exact H3|exact K3]|exact K4].
    - destruct H as (j' & A' & H1 & H2 & H3 & H4). cbv zeta. assert (at_ i j' (d_set_env d' (d_env d))) as A2 by (apply -> at_set_env; exact A').
      assert (run_ok i0 i j d (dret (PMatch (VSlice vals)) (d_set_env d' (d_env d)) (n + n'))) as Hm by (exists i, j'; split; [exact A2|split; [lia|split; [lia|exact H3]]]).
      destruct vals as [|v vals]; [|exact Hm]. destruct need; [|exact Hm]. rewrite <- (Hv eq_refl). exists j'. split; [exact A2|]. split; [lia|]. split; [lia|]. split; [exact H3|exact H4].
  Qed.
  Lemma dexpr_good b f : good b (dexpr rules f).
  Proof.
    induction f as [|f IH]; intros e i j d He A; [exact I|]. destruct e as [act e|l e|alts|es|lt ic|c| |r|e|e|e|e|g]; cbn [dexpr]; cbn [plain_e] in He.
    - pose proof (IH e i j d He A) as H. destruct (dexpr rules f e d) as [[[[v| |m] d'] n]|]; [|exact H|exact I|exact I]. cbn [run_ok] in H. destruct H as (i' & j' & A' & H1 & H2 & H3).
      destruct (act _ _ _) as [v'|m|m]; [exists i', j'; auto| |exact I]. exists i', j'. split; [apply -> at_err; exact A'|]. split; [lia|]. split; [lia|]. eapply grown_trans; [exact H3|]. repeat split; [auto|]. exists [PErr (d_pt d) (hd_error (d_rstack d')) m]. reflexivity.
    - pose proof (IH e i j (d_set_env d []) He (proj1 (at_set_env _ _ _ _) A)) as H. destruct (dexpr rules f e (d_set_env d [])) as [[[[v| |m] d'] n]|]; [| |exact I|exact I]; cbn [run_ok dret] in *.
      + destruct H as (i' & j' & A' & H1 & H2 & H3). exists i', j'. split; [apply -> at_set_env; exact A'|]. auto.
      + destruct H as (j' & A' & H1 & H2 & H3 & H4). exists j'. split; [apply -> at_set_env; exact A'|]. auto.
    - destruct He as (Hne & He). apply (choice_good b _ IH); [apply plain_all, He|exact A|left; exact Hne].
    - apply (seq_good b _ IH); [apply plain_all, He|left; exact A|exact A|lia].
    - destruct He as (Hk & _). destruct (lit_at lt ic i j d A) as (i' & d' & -> & A' & C' & X' & Hl). rewrite (at_pt _ _ _ A). destruct (starts lt ic (skipn i all)).
      + rewrite (at_keep i' i j d' _ A'). exists i', j. split; [exact A'|]. split; [rewrite (Hl eq_refl); lia|]. split; [lia|]. unfold core in C'. injection C' as E1 E2 E3 E4. repeat split; [exact E4|rewrite X'; auto|]. exists []. rewrite E2, app_nil_r. reflexivity.
      + destruct (at_note i' i j d' (WLit lt ic) A' (at_i _ _ _ A) Hk) as (A2 & C2 & X2 & _). rewrite (at_rest _ _ _ A). exists (Nat.max i j). split; [eapply at_set_point; [exact A2|apply A]|]. split; [lia|]. split; [lia|].
        unfold core in C', C2. injection C' as E1 E2 E3 E4. injection C2 as E1' E2' E3' E4'.
        assert (d_expected (fail_at d' false (spot all i) (WLit lt ic)) <> []) as Hne by (rewrite X2; apply ex_note_nonempty, A').
        split; [|exact Hne]. split; [cbn; congruence|]. split; [intros _; exact Hne|]. exists []. cbn. rewrite app_nil_r. congruence.
    - assert (run_ok i i j d (dret PFail (fail_at d false (d_pt d) (WClass c)) 1)) as Hf.
      { rewrite (at_pt _ _ _ A). destruct (at_note i i j d (WClass c) A (at_i _ _ _ A) He) as (A2 & C2 & X2 & _). exists (Nat.max i j). split; [exact A2|]. split; [lia|]. split; [lia|].
        unfold core in C2. injection C2 as E1' E2' E3' E4'. assert (d_expected (fail_at d false (spot all i) (WClass c)) <> []) as Hne by (rewrite X2; apply ex_note_nonempty, A).
        split; [|exact Hne]. split; [congruence|]. split; [intros _; exact Hne|]. exists []. rewrite app_nil_r. congruence. }
      rewrite (at_rest _ _ _ A). destruct (skipn i all) as [|ch l] eqn:E; [exact Hf|]. destruct (class_match c (gc_rune ch)); [|exact Hf].
      destruct (at_read _ _ _ _ _ A E) as (A1 & C1 & X1). rewrite (at_pt _ _ _ A), (at_keep _ _ _ _ _ A1). exists (S i), j. split; [exact A1|]. split; [lia|]. split; [lia|].
      unfold core in C1. injection C1 as E1 E2 E3 E4. split; [congruence|]. split; [rewrite X1; auto|]. exists []. rewrite app_nil_r. congruence.
    - destruct He.
    - assert (at_ i j (d_set_rstack (d_set_env d []) (r :: d_rstack d))) as A1 by (apply -> at_set_rstack; apply -> at_set_env; exact A).
      pose proof (IH (rules r) i j _ (rules_plain b r He) A1) as H. destruct (dexpr rules f (rules r) _) as [[[[v| |m] d'] n]|]; [| |exact I|exact I]; cbn [run_ok dret] in *.
      + destruct H as (i' & j' & A' & H1 & H2 & (G1 & G2 & G3)). exists i', j'. split; [apply -> at_set_rstack; apply -> at_set_env; exact A'|]. split; [lia|]. split; [lia|]. repeat split; [exact G2|exact G3].
      + destruct H as (j' & A' & H1 & H2 & (G1 & G2 & G3) & H4). exists j'. split; [apply -> at_set_rstack; apply -> at_set_env; exact A'|]. split; [lia|]. split; [lia|]. split; [|exact H4]. repeat split; [exact G2|exact G3].
    - apply (star_good b (dexpr rules f e) e); [intros; apply IH; assumption|exact He|exact A|reflexivity].
    - apply (star_good b (dexpr rules f e) e); [intros; apply IH; assumption|exact He|exact A|reflexivity].
    - pose proof (IH e i j (d_set_env d []) He (proj1 (at_set_env _ _ _ _) A)) as H. destruct (dexpr rules f e (d_set_env d [])) as [[[[v| |m] d'] n]|]; [| |exact I|exact I]; cbn [run_ok dret] in *.
      + destruct H as (i' & j' & A' & H1 & H2 & H3). exists i', j'. split; [apply -> at_set_env; exact A'|]. auto.
      + destruct H as (j' & A' & H1 & H2 & H3 & H4). exists i, j'. split; [apply -> at_set_env; exact A'|]. auto.
    - destruct He as (-> & ->). destruct f as [|f]; [exact I|]. cbn [dexpr d_rest d_set_invert d_set_env]. rewrite (at_rest _ _ _ A), (at_inv _ _ _ A). cbn [negb]. destruct (skipn i all) as [|ch l] eqn:E.
      + unfold fail_at. cbn [d_invert d_set_invert Bool.eqb dret]. exists i, j. split; [|split; [lia|split; [lia|split; [reflexivity|split; [auto|exists []; cbn; symmetry; apply app_nil_r]]]]]. destruct A. constructor; cbn; try assumption; try reflexivity. symmetry. exact E.
      + cbn [dret]. set (d1 := d_set_invert (d_set_env d []) true). assert (at_ i j (d_set_env d [])) as A1 by (apply -> at_set_env; exact A).
        (* reading does not look at the mark *)
        assert (d_read d1 = d_set_invert (d_read (d_set_env d [])) true) as Hr.
        { unfold d_read, d1, d_arrive. cbn [d_rest d_set_invert d_set_env d_pt d_set_point]. rewrite (at_rest _ _ _ A), E. cbn [tl]. destruct l as [|x l]; [reflexivity|]. destruct (gc_bad x); reflexivity. }
        rewrite Hr. destruct (at_read _ _ _ _ _ A1 E) as (A2 & C2 & X2). set (d2 := d_read (d_set_env d [])) in *. change (d_pt d1) with (d_pt d). rewrite (at_pt _ _ _ A).
        assert (known (true, WAny)) as Hk by (left; reflexivity).
        unfold fail_at. cbn [d_invert d_set_invert Bool.eqb d_fail d_expected d_pt d_rest d_st d_errs d_env d_rstack]. rewrite (at_fail _ _ _ A2), spot_off, fspot_off, (off_lt _ _ (at_i _ _ _ A) (at_j _ _ _ A2)), (off_lt _ _ (at_j _ _ _ A2) (at_i _ _ _ A)).
        unfold core in C2. injection C2 as E1 E2 E3 E4. cbn in E1, E2, E3, E4, X2.
        destruct (Nat.ltb_spec i j) as [Hij|Hij]; [|destruct (Nat.ltb_spec j i) as [Hji|Hji]].
        * exists j. destruct A, A2. split; [constructor; cbn; try assumption; try reflexivity; symmetry; exact E|]. split; [lia|]. split; [lia|]. split; [|cbn; rewrite X2; apply at_exp0; lia].
          repeat split; [exact E4|cbn; rewrite X2; auto|]. exists []. cbn. rewrite E2, app_nil_r. reflexivity.
        * exists i. destruct A, A2. split; [constructor; cbn; try assumption; try reflexivity; [symmetry; exact E|destruct i; [lia|reflexivity]|intros _; discriminate|constructor; [exact Hk|constructor]]|]. split; [lia|]. split; [lia|]. split; [|discriminate].
          repeat split; [exact E4|intros _; discriminate|]. exists []. cbn. rewrite E2, app_nil_r. reflexivity.
        * replace j with i in * by lia. exists i. assert (forall x : list (bool * want), x ++ [(true, WAny)] <> []) as Hx by (intros x Hx; apply app_eq_nil in Hx as (_ & Hx); discriminate).
          destruct A, A2. split; [constructor; cbn; try assumption; try reflexivity; [symmetry; exact E|intros _; apply Hx|apply Forall_app; split; [assumption|constructor; [exact Hk|constructor]]]|]. split; [lia|]. split; [lia|]. split; [|apply Hx].
          repeat split; [exact E4|intros _; apply Hx|]. exists []. cbn. rewrite E2, app_nil_r. reflexivity.
    - destruct (g (d_st d)) as ([v|m|m], st'); [| |exact I].
      + exists i, j. split; [apply -> at_set_st; exact A|]. split; [lia|]. split; [lia|]. repeat split; [auto|]. exists []. symmetry. apply app_nil_r.
      + exists i, j. split; [apply -> at_err; apply -> at_set_st; exact A|]. split; [lia|]. split; [lia|]. repeat split; [auto|]. eexists. reflexivity.
  Qed.

End Text.

  (** ** The start *)
  Lemma at_start all l : valid all -> at_ all 0 0 (d_set_rstack (d_arrive (DState (Position 1 0 0) all None [] [] [] (Position 1 1 0) [] false)) l) /\
    d_errs (d_arrive (R := rule) (DState (Position 1 0 0) all None [] [] [] (Position 1 1 0) [] false)) = [] /\
    d_expected (d_arrive (R := rule) (DState (Position 1 0 0) all None [] [] [] (Position 1 1 0) [] false)) = [].
  Proof.
    intros Hv. unfold d_arrive. cbn [d_rest d_pt p_line p_col p_offset]. destruct all as [|c t].
    - split; [|split; reflexivity]. constructor; cbn; try reflexivity; try lia. constructor.
    - assert (gc_bad c = false) as -> by (inversion Hv; assumption). split; [|split; reflexivity].
      constructor; cbn [d_set_rstack d_set_point d_rest d_pt d_fail d_invert d_expected]; try reflexivity; try (cbn; lia); try constructor.
  Qed.
