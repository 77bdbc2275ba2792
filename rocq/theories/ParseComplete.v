(** Completeness of the parser: every text spelled by the grammar of SpecGrammar.v is accepted. *)
From Verif Require Import Grammar ProofBase SpecSyntax SpecGrammar TextFacts PegProofs GrammarSound PegTotal PegForward.
Open Scope list_scope.
Open Scope Z_scope.

Lemma M_j e l D v l' j j' : M e l D v l' j -> j = j' -> M e l D v l' j'.
Proof. intros H <-. exact H. Qed.
Lemma M_D e l D D' v l' j j' : M e l D v l' j -> D = D' -> j = j' -> M e l D' v l' j'.
Proof. intros H <- <-. exact H. Qed.
Lemma M_v e l D v w l' j j' : M e l D v l' j -> v = w -> j = j' -> M e l D w l' j'.
Proof. intros H <- <-. exact H. Qed.

(** Validly encoded text as it comes from the decoder *)
Definition good (t : text) : Prop := valid t /\ Forall plain t.
Lemma good_app a b : good (a ++ b) <-> good a /\ good b.
Proof. unfold good. rewrite valid_app, Forall_app. tauto. Qed.
Lemma good_nil : good [].
Proof. split; constructor. Qed.
Lemma good_head l : good l -> valid_head l.
Proof. intros (H & _). destruct H; [exact I|assumption]. Qed.
Lemma good_vh a b : good a -> valid_head b -> valid_head (a ++ b).
Proof. intros (H & _) Hb. apply valid_head_app; assumption. Qed.

Lemma word_one a o : word (String a EmptyString) o -> exists c, o = [c] /\ gc_rune c = Z.of_N (N_of_ascii a).
Proof. unfold word. destruct o as [|c [|d o]]; try discriminate. cbn. injection 1 as H. exists c. auto. Qed.
Lemma word_i_one a o : word_i (String a EmptyString) o -> exists c, o = [c] /\ to_lower (gc_rune c) = Z.of_N (N_of_ascii a).
Proof. unfold word_i. change small_letter with to_lower. destruct o as [|c [|d o]]; try discriminate. cbn. injection 1 as H. exists c. auto. Qed.

Ltac norm_eq E := match type of E with _ = ?r => let r' := eval vm_compute in r in change r with r' in E end.
Tactic Notation "sym" hyp(H) "as" ident(c) ident(E) := apply word_one in H as (c & -> & E); norm_eq E; cbn [app not_head runes].
Tactic Notation "symi" hyp(H) "as" ident(c) ident(E) := apply word_i_one in H as (c & -> & E); norm_eq E; cbn [app not_head runes].

Lemma lower_ascii r : 0 <= r -> r < 65 -> to_lower r = r.
Proof. intros H1 H2. unfold to_lower, in_range. destruct (_ && _) eqn:E; [lia|]. destruct (r =? 304) eqn:E1; [lia|]. destruct (r =? 8490) eqn:E2; lia. Qed.
Lemma lower_ascii' r : 90 < r -> r < 128 -> to_lower r = r.
Proof. intros H1 H2. unfold to_lower, in_range. destruct (_ && _) eqn:E; [lia|]. destruct (r =? 304) eqn:E1; [lia|]. destruct (r =? 8490) eqn:E2; lia. Qed.

(** a class of one or two letters *)
Lemma ur_class c : class_match (CharClass (runes "ur") [] false true false) (gc_rune c) = true <-> to_lower (gc_rune c) = 117 \/ to_lower (gc_rune c) = 114.
Proof.
  unfold class_match, class_hit. cbn [xorb cc_inverted cc_ignore_case cc_chars cc_ranges cc_Z existsb runes].
  change (Z.of_N (N_of_ascii "u")) with 117. change (Z.of_N (N_of_ascii "r")) with 114.
  destruct (Z.eqb_spec (to_lower (gc_rune c)) 117), (Z.eqb_spec (to_lower (gc_rune c)) 114); cbn; split; intros; try discriminate; try reflexivity; lia.
Qed.

(** ** Integers *)
Lemma Mr_digits t l : Forall is_digit t -> good t -> valid_head l -> not_head is_digit l -> exists vs, Mr cls_digit (t ++ l) vs l 0 /\ length vs = length t.
Proof.
  intros Hd Hg Hv Hn. induction Hd as [|c t Hc _ IH].
  - exists []. split; [|reflexivity]. apply Mr_stop, Fl_class. destruct l; [exact I|]. cbn in *. intros H. apply Hn, digit_class, H.
  - apply (good_app [c] t) in Hg as (H1 & H2). destruct (IH H2) as (vs & Hr & Hl). exists (VBytes (gc_raw c) :: vs). split; [|cbn; lia].
    change 0 with (0 + 0). eapply Mr_more; [|exact Hr]. apply M_class; [apply digit_class, Hc|]. apply good_vh; assumption.
Qed.
Lemma integer_match x t l : sp_number x t -> good t -> valid_head l -> not_head is_digit l -> M (ERef Integer) (t ++ l) [] (VNode (NInt x)) l 0.
Proof.
  intros (Hne & Hd & ->) Hg Hv Hn. destruct (Mr_digits t l Hd Hg Hv Hn) as (vs & Hr & Hl).
  eapply M_rule; [reflexivity|apply M_plus; [exact Hr|]|].
  - intros ->. destruct t; [congruence|discriminate].
  - intros st. unfold act_integer. rewrite slice_from_app. unfold atoi_digits. rewrite decimal_digits. reflexivity.
Qed.
Lemma Fl_integer l : not_head is_digit l -> Fl (ERef Integer) l.
Proof. intros H. eapply Fl_rule; [reflexivity|]. apply Fl_plus, Fl_class. destruct l; [exact I|]. cbn in *. intros X. apply H, digit_class, X. Qed.

(** ** What may follow *)
Definition nP (c : gochar) : Prop := is_digit c \/ to_lower (gc_rune c) = 100.
Definition is_ur (c : gochar) : Prop := to_lower (gc_rune c) = 117 \/ to_lower (gc_rune c) = 114.
Definition nI (c : gochar) : Prop := nP c \/ is_ur c.
Definition nM (c : gochar) : Prop := nI c \/ gc_rune c = 42 \/ gc_rune c = 47.
Definition nA (c : gochar) : Prop := nM c \/ gc_rune c = 43 \/ gc_rune c = 45.
Lemma not_head_sub (P Q : gochar -> Prop) l : (forall c, P c -> Q c) -> not_head Q l -> not_head P l.
Proof. destruct l; cbn; auto. Qed.
(** ASCII characters outside the letters *)
Lemma nP_symbol c : 0 <= gc_rune c < 48 \/ 57 < gc_rune c < 65 \/ 90 < gc_rune c < 97 -> ~ nP c.
Proof. intros H. unfold nP, is_digit. destruct H as [H|[H|H]]; [rewrite lower_ascii by lia|rewrite lower_ascii by lia|rewrite lower_ascii' by lia]; lia. Qed.
Lemma nI_symbol c : 0 <= gc_rune c < 48 \/ 57 < gc_rune c < 65 \/ 90 < gc_rune c < 97 -> ~ nI c.
Proof. intros H. unfold nI, nP, is_ur, is_digit. destruct H as [H|[H|H]]; [rewrite lower_ascii by lia|rewrite lower_ascii by lia|rewrite lower_ascii' by lia]; lia. Qed.
Lemma nA_symbol c : 0 <= gc_rune c < 42 \/ gc_rune c = 44 \/ gc_rune c = 46 \/ 57 < gc_rune c < 65 \/ 90 < gc_rune c < 97 -> ~ nA c.
Proof. intros H [[H1|H1]|H1]; [|lia|lia]. revert H1. apply nI_symbol. lia. Qed.

(** literals fail at another character *)
Lemma Fl_lit w l : match runes w with r :: _ => not_head (fun c => gc_rune c = r) l | [] => False end -> Fl (lit w) l.
Proof. unfold lit. destruct (runes w) as [|r rs]; [contradiction|]. intros H. apply Fl_ELit. exact H. Qed.
Lemma Fl_lit_i w l : match runes w with r :: _ => not_head (fun c => to_lower (gc_rune c) = r) l | [] => False end -> Fl (lit_i w) l.
Proof. unfold lit_i. destruct (runes w) as [|r rs]; [contradiction|]. intros H. apply Fl_ELit. exact H. Qed.
Lemma M_one a o l : word (String a EmptyString) o -> (N_of_ascii a <? 128)%N = true -> good o -> valid_head l -> M (lit (String a EmptyString)) (o ++ l) [] (VBytes (String a EmptyString)) l 0.
Proof. intros H Ha (G1 & G2) Hl. apply M_lit; [exact H| |exact G2|exact G1|exact Hl]. cbn. rewrite andb_true_r. apply Z.ltb_lt. apply N.ltb_lt in Ha. lia. Qed.

(** ** Arithmetic over some leaves *)
Section Family.
  Context {L : Type} (leaf : L -> text -> Prop) (tr : L -> node) (lc : L -> Z).
  Variables (X A Mu P Par UP UM : rule) (V : text -> Prop).
  Hypothesis HX : rules X = ERef A.
  Hypothesis HA : rules A = additive Mu.
  Hypothesis HMu : rules Mu = multitive P.
  Hypothesis HPar : rules Par = parenthesized X.
  Hypothesis HUP : rules UP = unary_plus P.
  Hypothesis HUM : rules UM = unary_minus P.
  Hypothesis V_head : forall l, V l -> valid_head l.
  Hypothesis V_app : forall t l, good t -> V l -> V (t ++ l).
  Hypothesis leaf_match : forall x t l, leaf x t -> good t -> V l -> not_head nP l -> M (ERef P) (t ++ l) [] (VNode (tr x)) l (lc x).
  Hypothesis plus_match : forall o t l v j, word "+" o -> good (o ++ t) -> V l -> M (ERef UP) (o ++ t ++ l) [] v l j -> M (ERef P) (o ++ t ++ l) [] v l j.
  Hypothesis minus_match : forall o t l v j, word "-" o -> good (o ++ t) -> V l -> M (ERef UM) (o ++ t ++ l) [] v l j -> M (ERef P) (o ++ t ++ l) [] v l j.
  Hypothesis paren_match : forall e o t c l v j, word "(" o -> sp_add leaf e t -> word ")" c -> good (o ++ t ++ c) -> V l -> not_head nP l ->
    M (ERef Par) (o ++ t ++ c ++ l) [] v l j -> M (ERef P) (o ++ t ++ c ++ l) [] v l j.

  Definition prim_ok (e : ae L) (t : text) : Prop := good t -> forall l, V l -> not_head nP l -> M (ERef P) (t ++ l) [] (VNode (tree tr e)) l (total lc e).
  Definition mul_rest : expr rule := EChoice [ESeq [lit "/"; ERef P; cls_ur]; ESeq [EChoice [lit "*"; lit "/"]; ERef P]].
  Definition add_rest : expr rule := ESeq [EChoice [lit "+"; lit "-"]; ERef Mu].
  Definition mul_ok (e : ae L) (t : text) : Prop := good t -> exists e0 t0 u vs,
    t = t0 ++ u /\ prim_ok e0 t0 /\ (forall vs', multitive_loop (tree tr e0) (vs ++ vs') = multitive_loop (tree tr e) vs') /\
    (forall l, not_head nI l -> not_head nI (u ++ l)) /\
    (forall l vs' l' j', V l -> not_head nI l -> Mr mul_rest l vs' l' j' -> Mr mul_rest (u ++ l) (vs ++ vs') l' (total lc e - total lc e0 + j')).
  Lemma mul_match e t : mul_ok e t -> good t -> forall l, V l -> not_head nM l -> M (ERef Mu) (t ++ l) [] (VNode (tree tr e)) l (total lc e).
  Proof.
    intros H Hg l Hv Hn. destruct (H Hg) as (e0 & t0 & u & vs & -> & H1 & H2 & H3 & H4). apply good_app in Hg as (G1 & G2).
    assert (not_head nI l) as Hi by (eapply not_head_sub; [|exact Hn]; unfold nM; tauto).
    assert (Mr mul_rest l [] l 0) as H0.
    { apply Mr_stop, Fl_choice. repeat constructor; apply Fl_seq0.
      - apply Fl_lit. cbn. eapply not_head_sub; [|exact Hn]. unfold nM. tauto.
      - apply Fl_choice. repeat constructor; apply Fl_lit; cbn; (eapply not_head_sub; [|exact Hn]); unfold nM; tauto. }
    specialize (H4 l [] l 0 Hv Hi H0). rewrite app_nil_r, Z.add_0_r in H4. rewrite <- app_assoc.
    eapply M_j with (j := total lc e0 + ((total lc e - total lc e0) + 0)); [|lia].
    eapply M_rule; [exact HMu| |].
    - apply M_seq. eapply Ms_cons; [eapply M_label, H1; [exact G1|apply V_app; assumption|]|eapply Ms_cons; [eapply M_label, M_star, H4|apply Ms_nil]].
      eapply not_head_sub; [|apply H3, Hi]. unfold nI; tauto.
    - intros st. cbn [app]. unfold act_first_rest. cbn [lookup String.eqb Ascii.eqb Bool.eqb]. unfold left_assoc_multitive. cbn [as_node abind to_iface_slice slice_elems].
      specialize (H2 []). rewrite app_nil_r in H2. rewrite H2. reflexivity.
  Qed.
  Definition add_ok (e : ae L) (t : text) : Prop := good t -> exists e0 t0 u vs,
    t = t0 ++ u /\ mul_ok e0 t0 /\ (forall vs', additive_loop (tree tr e0) (vs ++ vs') = additive_loop (tree tr e) vs') /\
    (forall l, not_head nM l -> not_head nM (u ++ l)) /\
    (forall l vs' l' j', V l -> not_head nM l -> Mr add_rest l vs' l' j' -> Mr add_rest (u ++ l) (vs ++ vs') l' (total lc e - total lc e0 + j')).
  Lemma add_match_A e t : add_ok e t -> good t -> forall l, V l -> not_head nA l -> M (ERef A) (t ++ l) [] (VNode (tree tr e)) l (total lc e).
  Proof.
    intros H Hg l Hv Hn. destruct (H Hg) as (e0 & t0 & u & vs & -> & H1 & H2 & H3 & H4). apply good_app in Hg as (G1 & G2).
    assert (not_head nM l) as Hi by (eapply not_head_sub; [|exact Hn]; unfold nA; tauto).
    assert (Mr add_rest l [] l 0) as H0.
    { apply Mr_stop, Fl_seq0, Fl_choice. repeat constructor; apply Fl_lit; cbn; (eapply not_head_sub; [|exact Hn]); unfold nA; tauto. }
    specialize (H4 l [] l 0 Hv Hi H0). rewrite app_nil_r, Z.add_0_r in H4. rewrite <- app_assoc.
    eapply M_j with (j := total lc e0 + ((total lc e - total lc e0) + 0)); [|lia].
    eapply M_rule; [exact HA| |].
    - apply M_seq. eapply Ms_cons; [eapply M_label, (mul_match e0 t0 H1 G1); [apply V_app; assumption|]|eapply Ms_cons; [eapply M_label, M_star, H4|apply Ms_nil]].
      apply H3, Hi.
    - intros st. cbn [app]. unfold act_first_rest. cbn [lookup String.eqb Ascii.eqb Bool.eqb]. unfold left_assoc_additive. cbn [as_node abind to_iface_slice slice_elems].
      specialize (H2 []). rewrite app_nil_r in H2. rewrite H2. reflexivity.
  Qed.
  Lemma add_match_X e t : add_ok e t -> good t -> forall l, V l -> not_head nA l -> M (ERef X) (t ++ l) [] (VNode (tree tr e)) l (total lc e).
  Proof. intros H Hg l Hv Hn. eapply M_ref. rewrite HX. apply add_match_A; assumption. Qed.

  Lemma par_match e o t c : word "(" o -> add_ok e t -> word ")" c -> good (o ++ t ++ c) -> forall l, V l ->
    M (ERef Par) (o ++ t ++ c ++ l) [] (VNode (tree tr e)) l (total lc e).
  Proof.
    intros Ho Ht Hc Hg l Hv. apply good_app in Hg as (G1 & Hg). apply good_app in Hg as (G2 & G3).
    pose proof (V_app c l G3 Hv) as V1.
    eapply M_j with (j := 0 + (total lc e + (0 + 0))); [|lia]. eapply M_rule; [exact HPar| |].
    - apply M_seq. eapply Ms_cons; [apply M_one; [exact Ho|reflexivity|exact G1|]|eapply Ms_cons; [eapply M_label, add_match_X; [exact Ht|exact G2|exact V1|]|eapply Ms_cons; [|apply Ms_nil]]].
      + apply good_vh; [exact G2|apply V_head, V1].
      + sym Hc as d E. apply nA_symbol. lia.
      + apply M_one; [exact Hc|reflexivity|exact G3|apply V_head, Hv].
    - intros st. reflexivity.
  Qed.

  Lemma item_match e o t l (sym : string) : (word "*" o /\ sym = "*"%string) \/ (word "/" o /\ sym = "/"%string) -> prim_ok e t -> good (o ++ t) -> V l -> not_head nI l ->
    M mul_rest (o ++ t ++ l) [] (VSlice [VBytes sym; VNode (tree tr e)]) l (total lc e).
  Proof.
    intros Ho Ht Hg Hv Hn. apply good_app in Hg as (G1 & G2). pose proof (V_app t l G2 Hv) as V1.
    assert (not_head nP l) as HnP by (eapply not_head_sub; [|exact Hn]; unfold nI; tauto). specialize (Ht G2 l Hv HnP).
    apply M_choice, Mc_next.
    - destruct Ho as [(Ho & _)|(Ho & _)].
      + apply Fl_seq0, Fl_lit. sym Ho as c E. rewrite E. discriminate.
      + eapply (Fl_seq [lit "/"; ERef P] cls_ur []).
        * eapply Ms_cons; [apply M_one; [exact Ho|reflexivity|exact G1|exact (V_head _ V1)]|eapply Ms_cons; [exact Ht|apply Ms_nil]].
        * apply Fl_class. eapply not_head_sub; [|exact Hn]. intros c Hc. apply ur_class in Hc. unfold nI, is_ur. tauto.
    - eapply Mc_here. eapply M_j with (j := 0 + (total lc e + 0)); [|lia]. apply M_seq.
      eapply Ms_cons; [|eapply Ms_cons; [exact Ht|apply Ms_nil]].
      apply M_choice. destruct Ho as [(Ho & ->)|(Ho & ->)].
      + eapply Mc_here, M_one; [exact Ho|reflexivity|exact G1|exact (V_head _ V1)].
      + apply Mc_next; [apply Fl_lit; sym Ho as c E; rewrite E; discriminate|].
        eapply Mc_here, M_one; [exact Ho|reflexivity|exact G1|exact (V_head _ V1)].
  Qed.
  Lemma suffix_match e o t u l : word "/" o -> prim_ok e t -> word_i "u" u \/ word_i "r" u -> good (o ++ t ++ u) -> V l ->
    M mul_rest (o ++ t ++ u ++ l) [] (VSlice [VBytes "/"; VNode (tree tr e); VBytes (raw_text u)]) l (total lc e).
  Proof.
    intros Ho Ht Hu Hg Hv. apply good_app in Hg as (G1 & Hg). apply good_app in Hg as (G2 & G3). pose proof (V_app u l G3 Hv) as V1. pose proof (V_app t _ G2 V1) as V2.
    assert (exists c, u = [c] /\ is_ur c) as (c & -> & Hc).
    { destruct Hu as [Hu|Hu]; symi Hu as c E; exists c; (split; [reflexivity|]); unfold is_ur; rewrite E; [left|right]; reflexivity. }
    assert (not_head nP ([c] ++ l)) as HnP.
    { cbn. intros [Hd|Hd]; unfold is_ur in Hc; [|lia]. unfold is_digit in Hd. rewrite lower_ascii in Hc by lia. lia. }
    specialize (Ht G2 _ V1 HnP). apply M_choice. eapply Mc_here. eapply M_j with (j := 0 + (total lc e + (0 + 0))); [|lia]. apply M_seq.
    eapply Ms_cons; [apply M_one; [exact Ho|reflexivity|exact G1|exact (V_head _ V2)]|eapply Ms_cons; [exact Ht|eapply Ms_cons; [|apply Ms_nil]]].
    cbn [app]. replace (raw_text [c]) with (gc_raw c). 2:{ unfold raw_text. cbn. induction (gc_raw c); cbn; congruence. }
    apply M_class; [apply ur_class; exact Hc|apply V_head, Hv].
  Qed.

  Lemma plus_item e (o t l : text) (sym : string) : (word "+" o /\ sym = "+"%string) \/ (word "-" o /\ sym = "-"%string) -> mul_ok e t -> good (o ++ t) -> V l -> not_head nM l ->
    M add_rest (o ++ t ++ l) [] (VSlice [VBytes sym; VNode (tree tr e)]) l (total lc e).
  Proof.
    intros Ho Ht Hg Hv Hn. apply good_app in Hg as (G1 & G2). pose proof (V_app t l G2 Hv) as V1.
    pose proof (mul_match e t Ht G2 l Hv Hn) as Hm.
    eapply M_D with (D := ([] ++ []) ++ []) (j := 0 + (total lc e + 0)); [|reflexivity|lia]. apply M_seq. eapply Ms_cons; [|eapply Ms_cons; [exact Hm|apply Ms_nil]].
    apply M_choice. destruct Ho as [(Ho & ->)|(Ho & ->)].
    - eapply Mc_here, M_one; [exact Ho|reflexivity|exact G1|exact (V_head _ V1)].
    - apply Mc_next; [apply Fl_lit; sym Ho as c E; rewrite E; discriminate|].
      eapply Mc_here, M_one; [exact Ho|reflexivity|exact G1|exact (V_head _ V1)].
  Qed.

  Scheme sp_prim_mut := Minimality for sp_prim Sort Prop
    with sp_mul_mut := Minimality for sp_mul Sort Prop
    with sp_add_mut := Minimality for sp_add Sort Prop.
  Combined Scheme sp_arith_mut from sp_prim_mut, sp_mul_mut, sp_add_mut.

  (** one more operation at the end of a product *)
  Lemma mul_more op a b s i v : mul_ok a s -> (good i -> exists sym o, i = o ++ sym /\ (word "*" o \/ word "/" o)) ->
    (forall vs', multitive_loop (tree tr a) (v :: vs') = multitive_loop (tree tr (Bin op a b)) vs') ->
    (good i -> forall l, V l -> not_head nI l -> M mul_rest (i ++ l) [] v l (total lc b)) -> mul_ok (Bin op a b) (s ++ i).
  Proof.
    intros Ha Hi Hl Hm Hg. apply good_app in Hg as (G1 & G2). destruct (Ha G1) as (e0 & t0 & u & vs & -> & H1 & H2 & H3 & H4).
    specialize (Hm G2). destruct (Hi G2) as (w & o & Ei & Ho).
    assert (forall l, not_head nI (i ++ l)) as Hh.
    { intros l. rewrite Ei. destruct Ho as [Ho|Ho]; sym Ho as c E; apply nI_symbol; lia. }
    exists e0, t0, (u ++ i), (vs ++ [v]). split; [apply app_assoc_reverse|]. split; [exact H1|]. split; [|split].
    - intros vs'. rewrite <- app_assoc. cbn [app]. rewrite H2. apply Hl.
    - intros l _. rewrite <- app_assoc. apply H3, Hh.
    - intros l vs' l' j' Hv Hn Hr. rewrite <- !app_assoc. cbn [app total].
      replace (total lc a + total lc b - total lc e0 + j') with (total lc a - total lc e0 + (total lc b + j')) by lia.
      apply H4; [apply V_app; assumption|apply Hh|]. eapply Mr_more; [apply Hm; assumption|exact Hr].
  Qed.
  Lemma add_more op a b s i v : add_ok a s -> (good i -> exists sym o, i = o ++ sym /\ (word "+" o \/ word "-" o)) ->
    (forall vs', additive_loop (tree tr a) (v :: vs') = additive_loop (tree tr (Bin op a b)) vs') ->
    (good i -> forall l, V l -> not_head nM l -> M add_rest (i ++ l) [] v l (total lc b)) -> add_ok (Bin op a b) (s ++ i).
  Proof.
    intros Ha Hi Hl Hm Hg. apply good_app in Hg as (G1 & G2). destruct (Ha G1) as (e0 & t0 & u & vs & -> & H1 & H2 & H3 & H4).
    specialize (Hm G2). destruct (Hi G2) as (w & o & Ei & Ho).
    assert (forall l, not_head nM (i ++ l)) as Hh.
    { intros l. rewrite Ei. destruct Ho as [Ho|Ho]; sym Ho as c E; intros [Hn|Hn]; try lia; revert Hn; apply nI_symbol; lia. }
    exists e0, t0, (u ++ i), (vs ++ [v]). split; [apply app_assoc_reverse|]. split; [exact H1|]. split; [|split].
    - intros vs'. rewrite <- app_assoc. cbn [app]. rewrite H2. apply Hl.
    - intros l _. rewrite <- app_assoc. apply H3, Hh.
    - intros l vs' l' j' Hv Hn Hr. rewrite <- !app_assoc. cbn [app total].
      replace (total lc a + total lc b - total lc e0 + j') with (total lc a - total lc e0 + (total lc b + j')) by lia.
      apply H4; [apply V_app; assumption|apply Hh|]. eapply Mr_more; [apply Hm; assumption|exact Hr].
  Qed.

  Theorem family : (forall e t, sp_prim leaf e t -> sp_prim leaf e t /\ prim_ok e t) /\ (forall e t, sp_mul leaf e t -> sp_mul leaf e t /\ mul_ok e t) /\
    (forall e t, sp_add leaf e t -> sp_add leaf e t /\ add_ok e t).
  Proof.
    apply sp_arith_mut.
    - intros x t Hx. split; [constructor; exact Hx|]. intros Hg l Hv Hn. apply leaf_match; assumption.
    - intros e o t Ho _ (Hs & He). split; [constructor; assumption|]. intros Hg l Hv Hn. rewrite <- app_assoc. apply plus_match; try assumption.
      apply good_app in Hg as (G1 & G2). eapply M_j with (j := 0 + (total lc e + 0)); [|lia]. eapply M_rule; [exact HUP| |].
      + apply M_seq. eapply Ms_cons; [apply M_one; [exact Ho|reflexivity|exact G1|apply V_head, V_app; assumption]|eapply Ms_cons; [eapply M_label, He; assumption|apply Ms_nil]].
      + intros st. reflexivity.
    - intros e o t Ho _ (Hs & He). split; [constructor; assumption|]. intros Hg l Hv Hn. rewrite <- app_assoc. apply minus_match; try assumption.
      apply good_app in Hg as (G1 & G2). cbn [total]. eapply M_j with (j := 0 + (total lc e + 0)); [|lia]. eapply M_rule; [exact HUM| |].
      + apply M_seq. eapply Ms_cons; [apply M_one; [exact Ho|reflexivity|exact G1|apply V_head, V_app; assumption]|eapply Ms_cons; [eapply M_label, He; assumption|apply Ms_nil]].
      + intros st. reflexivity.
    - intros e o t c Ho _ (Hs & He) Hc. split; [constructor; assumption|]. intros Hg l Hv Hn. rewrite <- !app_assoc. eapply paren_match; try eassumption.
      eapply par_match; try eassumption.
    - intros e t _ (Hs & He). split; [constructor; assumption|]. intros Hg. exists e, t, [], []. rewrite app_nil_r. split; [reflexivity|]. split; [exact He|]. split; [reflexivity|]. split; [auto|].
      intros l vs' l' j' _ _ H. cbn [app]. replace (total lc e - total lc e + j') with j' by lia. exact H.
    - intros a b s t o _ (Sa & Ha) Ho _ (Sb & Hb). split; [constructor; assumption|]. eapply mul_more with (v := VSlice [VBytes "*"; VNode (tree tr b)]); [exact Ha|eauto|reflexivity|].
      intros Hg l Hv Hn. rewrite <- app_assoc. apply item_match; auto.
    - intros a b s t o _ (Sa & Ha) Ho _ (Sb & Hb). split; [constructor; assumption|]. eapply mul_more with (v := VSlice [VBytes "/"; VNode (tree tr b)]); [exact Ha|eauto|reflexivity|].
      intros Hg l Hv Hn. rewrite <- app_assoc. apply item_match; auto.
    - intros a b s t o u _ (Sa & Ha) Ho _ (Sb & Hb) Hu. split; [constructor; assumption|]. intros Hg. pose proof Hg as Hg'. apply good_app in Hg' as (_ & Hg'). apply good_app in Hg' as (_ & Hg'). apply good_app in Hg' as (_ & Hg').
      revert Hg. fold (mul_ok (Bin (Over RoundUp) a b) (s ++ o ++ t ++ u)). eapply mul_more with (v := VSlice [VBytes "/"; VNode (tree tr b); VBytes (raw_text u)]); [exact Ha|eauto| |].
      + intros vs'. cbn [multitive_loop to_iface_slice abind slice_elems index nth_error as_bytes as_node]. replace (to_upper_ur (raw_text u)) with "U"%string; [reflexivity|].
        symi Hu as c E. destruct (to_lower_letter (gc_rune c) 117 ltac:(lia) ltac:(lia) ltac:(lia) E) as [E1|E1]; destruct Hg' as (_ & Hp); inversion Hp as [|? ? P1 _]; cbn; rewrite P1 by lia; rewrite E1; reflexivity.
      + intros Hg l Hv Hn. rewrite <- !app_assoc. apply suffix_match; auto.
    - intros a b s t o u _ (Sa & Ha) Ho _ (Sb & Hb) Hu. split; [constructor; assumption|]. intros Hg. pose proof Hg as Hg'. apply good_app in Hg' as (_ & Hg'). apply good_app in Hg' as (_ & Hg'). apply good_app in Hg' as (_ & Hg').
      revert Hg. fold (mul_ok (Bin (Over RoundHalf) a b) (s ++ o ++ t ++ u)). eapply mul_more with (v := VSlice [VBytes "/"; VNode (tree tr b); VBytes (raw_text u)]); [exact Ha|eauto| |].
      + intros vs'. cbn [multitive_loop to_iface_slice abind slice_elems index nth_error as_bytes as_node]. replace (to_upper_ur (raw_text u)) with "R"%string; [reflexivity|].
        symi Hu as c E. destruct (to_lower_letter (gc_rune c) 114 ltac:(lia) ltac:(lia) ltac:(lia) E) as [E1|E1]; destruct Hg' as (_ & Hp); inversion Hp as [|? ? P1 _]; cbn; rewrite P1 by lia; rewrite E1; reflexivity.
      + intros Hg l Hv Hn. rewrite <- !app_assoc. apply suffix_match; auto.
    - intros e t _ (Hs & He). split; [constructor; assumption|]. intros Hg. exists e, t, [], []. rewrite app_nil_r. split; [reflexivity|]. split; [exact He|]. split; [reflexivity|]. split; [auto|].
      intros l vs' l' j' _ _ H. cbn [app]. replace (total lc e - total lc e + j') with j' by lia. exact H.
    - intros a b s t o _ (Sa & Ha) Ho _ (Sb & Hb). split; [constructor; assumption|]. eapply add_more with (v := VSlice [VBytes "+"; VNode (tree tr b)]); [exact Ha|eauto|reflexivity|].
      intros Hg l Hv Hn. rewrite <- app_assoc. apply plus_item; auto.
    - intros a b s t o _ (Sa & Ha) Ho _ (Sb & Hb). split; [constructor; assumption|]. eapply add_more with (v := VSlice [VBytes "-"; VNode (tree tr b)]); [exact Ha|eauto|reflexivity|].
      intros Hg l Hv Hn. rewrite <- app_assoc. apply plus_item; auto.
  Qed.
  Lemma add_match e t : sp_add leaf e t -> good t -> forall l, V l -> not_head nA l -> M (ERef X) (t ++ l) [] (VNode (tree tr e)) l (total lc e).
  Proof. intros H. apply add_match_X. apply family. exact H. Qed.
  Lemma addA_match e t : sp_add leaf e t -> good t -> forall l, V l -> not_head nA l -> M (ERef A) (t ++ l) [] (VNode (tree tr e)) l (total lc e).
  Proof. intros H. apply add_match_A. apply family. exact H. Qed.
  Lemma parens_match e o t c : word "(" o -> sp_add leaf e t -> word ")" c -> good (o ++ t ++ c) -> forall l, V l ->
    M (ERef Par) (o ++ t ++ c ++ l) [] (VNode (tree tr e)) l (total lc e).
  Proof. intros Ho H. apply par_match; [exact Ho|]. apply family. exact H. Qed.
End Family.
