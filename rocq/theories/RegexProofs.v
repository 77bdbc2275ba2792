(** Backtracking on character classes, and characters versus bytes. *)
From Verif Require Import ProofBase Regex SpecText SpecSyntax DecodeProofs.
Open Scope list_scope.
Open Scope Z_scope.

(** The longest beginning whose characters are all in a class *)
Fixpoint span (p : Z -> bool) (t : list gochar) : list gochar * list gochar :=
  match t with
  | c :: t' => if p (gc_rune c) then let '(a, b) := span p t' in (c :: a, b) else ([], t)
  | [] => ([], [])
  end.
Lemma span_app p t : t = fst (span p t) ++ snd (span p t).
Proof. induction t as [|c t IH]; [reflexivity|]. cbn [span]. destruct (p (gc_rune c)); [|reflexivity]. destruct (span p t). cbn in *. congruence. Qed.
Lemma span_head p t : match snd (span p t) with c :: _ => p (gc_rune c) = false | [] => True end.
Proof. induction t as [|c t IH]; [exact I|]. cbn [span]. destruct (p (gc_rune c)) eqn:E; [|exact E]. destruct (span p t). exact IH. Qed.
Lemma slice_app a b : slice_from (a ++ b) b = a.
Proof. unfold slice_from. rewrite app_length. replace (length a + length b - length b)%nat with (length a) by lia. rewrite firstn_app, firstn_all, Nat.sub_diag, firstn_O, app_nil_r. reflexivity. Qed.
Lemma slice_span p t : slice_from t (snd (span p t)) = fst (span p t).
Proof. rewrite (span_app p t) at 1. apply slice_app. Qed.

Section Star.
  Context {A : Type}.
  Implicit Types k : nat -> list gochar -> option A.
  (** Greedy repetition of a class: the longest first *)
  Fixpoint star_try (p : Z -> bool) (i : nat) (t : list gochar) (k : nat -> list gochar -> option A) : option A :=
    match t with
    | c :: t' => if p (gc_rune c) then match star_try p (S i) t' k with Some x => Some x | None => k i t end else k i t
    | [] => k i t
    end.
  Lemma star_class p i t cs (k : nat -> list gochar -> captures -> option A) : backtrack (RStar (RChar p)) i t cs k = star_try p i t (fun i t => k i t cs).
  Proof.
    cbn [backtrack]. assert (forall n i t, (length t <= n)%nat ->
      (fix loop (n : nat) (i : nat) (t : list gochar) (cs : captures) : option A :=
           match n with
           | O => k i t cs
           | S n' =>
               match (match t with c :: t' => if p (gc_rune c) then (if Nat.eqb (S i) i then None else loop n' (S i) t' cs) else None | [] => None end) with
               | Some x => Some x
               | None => k i t cs
               end
           end) n i t cs = star_try p i t (fun i t => k i t cs)) as H; [|apply H; lia].
    clear. induction n as [|n IH]; intros i t Hn.
    - destruct t; [reflexivity|cbn in Hn; lia].
    - destruct t as [|c t]; [reflexivity|]. cbn in Hn. assert (Nat.eqb (S i) i = false) as E by (apply Nat.eqb_neq; lia). rewrite E. cbn [star_try]. destruct (p (gc_rune c)); [|reflexivity]. rewrite IH by lia. reflexivity.
  Qed.
  (** If what follows cannot begin inside the class, only the longest counts. *)
  Lemma star_longest p i t k : (forall i c t, p (gc_rune c) = true -> k i (c :: t) = None) -> star_try p i t k = k (i + length (fst (span p t)))%nat (snd (span p t)).
  Proof.
    intros H. revert i. induction t as [|c t IH]; intros i; cbn [star_try span]; [rewrite Nat.add_0_r; reflexivity|].
    destruct (p (gc_rune c)) eqn:E; [|cbn; rewrite Nat.add_0_r; reflexivity]. rewrite IH, (H i c t E). destruct (span p t) as (a, b). cbn [fst snd length].
    replace (S i + length a)%nat with (i + S (length a))%nat by lia. destruct (k _ b); reflexivity.
  Qed.
  (** If what follows succeeds after the longest, that is it. *)
  Lemma star_wins p i t k x : k (i + length (fst (span p t)))%nat (snd (span p t)) = Some x -> star_try p i t k = Some x.
  Proof.
    revert i. induction t as [|c t IH]; intros i; cbn [star_try span]; [rewrite Nat.add_0_r; trivial|].
    destruct (p (gc_rune c)) eqn:E; [|cbn; rewrite Nat.add_0_r; trivial]. specialize (IH (S i)). destruct (span p t) as (a, b). cbn [fst snd length] in *.
    replace (i + S (length a))%nat with (S i + length a)%nat by lia. intros H. rewrite (IH H). reflexivity.
  Qed.
  Lemma plus_class p i t cs (k : nat -> list gochar -> captures -> option A) :
    backtrack (RPlus (RChar p)) i t cs k = match t with c :: t' => if p (gc_rune c) then star_try p (S i) t' (fun i t => k i t cs) else None | [] => None end.
  Proof. cbn [RPlus backtrack]. destruct t as [|c t]; [reflexivity|]. destruct (p (gc_rune c)); [|reflexivity]. exact (star_class p (S i) t cs k). Qed.
  Lemma plus_longest p i t cs (k : nat -> list gochar -> captures -> option A) : (forall i c t, p (gc_rune c) = true -> k i (c :: t) cs = None) ->
    backtrack (RPlus (RChar p)) i t cs k = match fst (span p t) with [] => None | _ => k (i + length (fst (span p t)))%nat (snd (span p t)) cs end.
  Proof.
    intros H. rewrite plus_class. destruct t as [|c t]; [reflexivity|]. cbn [span]. destruct (p (gc_rune c)) eqn:E; [|reflexivity].
    rewrite star_longest by exact H. destruct (span p t) as (a, b). cbn [fst snd length]. f_equal. lia.
  Qed.
  Lemma plus_wins p i t cs (k : nat -> list gochar -> captures -> option A) x : fst (span p t) <> [] -> k (i + length (fst (span p t)))%nat (snd (span p t)) cs = Some x ->
    backtrack (RPlus (RChar p)) i t cs k = Some x.
  Proof.
    rewrite plus_class. destruct t as [|c t]; cbn [span]; [intros H; destruct (H eq_refl)|]. destruct (p (gc_rune c)) eqn:E; [|intros H; destruct (H eq_refl)].
    intros _ H. apply star_wins. destruct (span p t) as (a, b). cbn [fst snd length] in *. replace (S i + length a)%nat with (i + S (length a))%nat by lia. exact H.
  Qed.
End Star.
(** An expression that begins with \A only matches at the beginning. *)
Lemma leftmost_begin r t : leftmost (RSeq RBegin r) 0 t = match backtrack r 0 t [] (fun j t' cs => Some (j, t', cs)) with Some x => Some ([], x) | None => None end.
Proof.
  assert (forall t i, leftmost (RSeq RBegin r) (S i) t = None) as H.
  { induction t0 as [|c t0 IH]; intros i; [reflexivity|]. cbn [leftmost backtrack Nat.eqb]. rewrite IH. reflexivity. }
  destruct t as [|c t]; cbn [leftmost backtrack Nat.eqb]; [reflexivity|]. rewrite H. reflexivity.
Qed.
Lemma find_begin r s : find_submatch (RSeq RBegin r) s = backtrack r 0 (decode s) [] (fun _ _ cs => Some cs).
Proof.
  unfold find_submatch. rewrite leftmost_begin.
  assert (forall A B (f : A -> B) r i t cs (k : nat -> list gochar -> captures -> option A), backtrack r i t cs (fun i t cs => option_map f (k i t cs)) = option_map f (backtrack r i t cs k)) as H.
  { clear. intros A B f. assert (forall r i t cs k (k' : nat -> list gochar -> captures -> option B), (forall i t cs, k' i t cs = option_map f (k i t cs)) -> backtrack r i t cs k' = option_map f (backtrack r i t cs k)) as H; [|intros; apply H; reflexivity].
    induction r as [p| |a IHa b IHb|a IH|a IH|n a IH| |]; intros i t cs k k' Hk; cbn [backtrack].
    - destruct t as [|c t]; [reflexivity|]. destruct (p _); [apply Hk|reflexivity].
    - apply Hk.
    - apply IHa. intros. apply IHb, Hk.
    - generalize (length t). intros n. revert i t cs. induction n as [|n IHn]; intros i t cs; [apply Hk|].
      rewrite (IH i t cs (fun i' t' cs' => if Nat.eqb i' i then None else (fix loop (n : nat) (i : nat) (t : list gochar) (cs : captures) : option A := match n with O => k i t cs | S n' => match backtrack a i t cs (fun i' t' cs' => if Nat.eqb i' i then None else loop n' i' t' cs') with Some x => Some x | None => k i t cs end end) n i' t' cs')).
      + destruct (backtrack a i t cs _); [reflexivity|apply Hk].
      + intros i' t' cs'. destruct (Nat.eqb i' i); [reflexivity|apply IHn].
    - rewrite (IH i t cs k k' Hk). destruct (backtrack a i t cs k); [reflexivity|apply Hk].
    - apply IH. intros. apply Hk.
    - destruct (Nat.eqb i 0); [apply Hk|reflexivity].
    - destruct t; [apply Hk|reflexivity]. }
  pose proof (H _ _ snd r 0%nat (decode s) [] (fun j t' cs => Some (j, t', cs))) as K. cbn [option_map snd] in K. rewrite K. match goal with |- context [option_map _ ?b] => destruct b as [[[j t'] cs]|] end; reflexivity.
Qed.

(** ** Characters and bytes *)
Fixpoint span_bytes (q : ascii -> bool) (s : string) : string * string :=
  match s with
  | String a s' => if q a then let '(d, r) := span_bytes q s' in (String a d, r) else (EmptyString, s)
  | EmptyString => (EmptyString, EmptyString)
  end.
(** A class of characters and a class of bytes that agree on ASCII, and are constant beyond it *)
Definition agree (p : Z -> bool) (q : ascii -> bool) : Prop :=
  (forall a, byte_val a < 128 -> p (byte_val a) = q a) /\ exists v, (forall r, 128 <= r -> p r = v) /\ (forall a, 128 <= byte_val a -> q a = v).
Lemma bytes_one s a : bytes s = [byte_val a] -> s = String a EmptyString.
Proof.
  destruct s as [|b [|c s]]; cbn; intros H; try discriminate H. injection H as H. f_equal. rewrite <- (byte_of_val a), <- (byte_of_val b), H. reflexivity.
Qed.
Lemma raw_nonempty c : decoded c -> gc_raw c <> EmptyString.
Proof. intros (s & s' & E). destruct s as [|a s]; [discriminate E|]. revert E. cbn [first_char]. cbv zeta. split_chars; intros [= <- <-]; discriminate. Qed.
Lemma span_decode p q s : agree p q -> exists t, decode s = fst (span p (decode s)) ++ t /\ snd (span p (decode s)) = t /\ decode (raw_text t) = t /\ span_bytes q s = (raw_text (fst (span p (decode s))), raw_text t).
Proof.
  intros (H1 & v & H2 & H3). exists (snd (span p (decode s))). split; [apply span_app|]. split; [reflexivity|]. split; [exact (proj1 (proj2 (decode_split _ _ _ (span_app p (decode s)))))|].
  induction s as [|s c s' E IH] using decode_ind; [reflexivity|]. rewrite decode_first, E. cbn [span]. rewrite (first_raw _ _ _ E). assert (decoded c) as Hc by (exists s, s'; exact E).
  assert (forall x, Forall (fun b => 128 <= b) (bytes x) -> v = true -> span_bytes q (x ++ s') = ((x ++ fst (span_bytes q s'))%string, snd (span_bytes q s'))) as Hx.
  { intros x Hx ->. induction x as [|a x IHx]; [cbn; destruct (span_bytes q s'); reflexivity|]. inversion Hx. cbn [append span_bytes]. rewrite (H3 a) by assumption. rewrite IHx by assumption. reflexivity. }
  destruct (decoded_bytes c Hc) as [(Eb & Hr)|(Hr & Hb)].
  - destruct (gc_raw c) as [|a [|b r]] eqn:Er; cbn in Eb; try discriminate Eb. injection Eb as Eb. cbn [append span_bytes]. rewrite <- Eb, H1 by lia. destruct (q a).
    + rewrite IH. destruct (span p (decode s')) as (x, y). cbn [fst snd raw_text]. rewrite Er. reflexivity.
    + cbn [fst snd raw_text append]. rewrite Er, raw_decode. reflexivity.
  - rewrite H2 by exact Hr. destruct v.
    + rewrite Hx by (assumption || reflexivity). rewrite IH. destruct (span p (decode s')) as (x, y). cbn [fst snd raw_text]. reflexivity.
    + cbn [fst snd raw_text append]. rewrite raw_decode. destruct (gc_raw c) as [|a r] eqn:Er; cbn [append].
      * destruct (raw_nonempty c Hc Er).
      * cbn [span_bytes]. inversion Hb. rewrite H3 by assumption. reflexivity.
Qed.
