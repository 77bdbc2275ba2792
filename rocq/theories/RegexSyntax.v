(** The pattern texts of the code and the trees that stand for them in the model.

    The trees of [Regex.re] in BCDice.v, Repl.v and TestCase.v are written next to the patterns of the Go source.  Here the
    patterns are read by a function, the part of Go's package regexp/syntax (not in /repo; documentation "Syntax" of that
    package) that the six patterns need, and every pattern is shown to match every text as its tree does. *)
From Verif Require Import Repl.
From Coq Require Import Lia.
Open Scope list_scope.
Open Scope Z_scope.

Definition is_meta (a : ascii) : bool := existsb (Ascii.eqb a) (list_ascii_of_string "\.+*?()|[]{}^$").
Definition between (lo hi r : Z) : bool := (lo <=? r) && (r <=? hi).

(** Escapes for a set of characters: \s, \d, and a punctuation character for itself *)
Definition escaped_set (a : ascii) : option (Z -> bool) :=
  match a with
  | "s" => Some re_space
  | "d" => Some re_digit
  | _ => if is_meta a || Ascii.eqb a "-" || Ascii.eqb a "/" then Some (between (byte_val a) (byte_val a)) else None
  end%char.
(** The rest of a class after [[] or [[^]: ranges, single characters, escapes, up to []].
    (Simplified: a range ends in a plain character; no classes by name.) *)
Fixpoint read_class (s : string) : option ((Z -> bool) * string) :=
  match s with
  | String "]" s' => Some (fun _ => false, s')
  | String "\" (String a s') =>
      match escaped_set a, read_class s' with Some p, Some (q, rest) => Some (fun r => p r || q r, rest) | _, _ => None end
  | String a (String "-" (String "]" s')) => Some (fun r => between (byte_val a) (byte_val a) r || between 45 45 r, s')
  | String a (String "-" (String b s')) =>
      match read_class s' with Some (q, rest) => Some (fun r => between (byte_val a) (byte_val b) r || q r, rest) | None => None end
  | String a s' => match read_class s' with Some (q, rest) => Some (fun r => between (byte_val a) (byte_val a) r || q r, rest) | None => None end
  | EmptyString => None
  end%char.
(** [x*], [x+], [x?] *)
Definition quantified (a : re) (s : string) : re * string :=
  match s with
  | String "*" s' => (RStar a, s')
  | String "+" s' => (RPlus a, s')
  | String "?" s' => (ROpt a, s')
  | _ => (a, s)
  end%char.
Definition starts_quantifier (s : string) : bool :=
  match s with String "*" _ | String "+" _ | String "?" _ => true | _ => false end%char.

(** A sequence of terms up to a closing parenthesis or the end; [n] groups have been opened before; [dotall] is the flag s.
    (Alternatives, repetition counts, lazy quantifiers, line anchors and other flags are refused: no pattern of the code has them.) *)
Fixpoint read_terms (fuel : nat) (dotall : bool) (n : nat) (s : string) : option (re * nat * string) :=
  match fuel with
  | O => None
  | S f =>
      let next (a : re) (n : nat) (s' : string) :=
        let '(b, s2) := quantified a s' in
        if starts_quantifier s2 then None
        else match read_terms f dotall n s2 with Some (c, n', s3) => Some (RSeq b c, n', s3) | None => None end in
      match s with
      | EmptyString => Some (REps, n, s)
      | String ")" _ => Some (REps, n, s)
      | String "(" (String "?" (String ":" s')) =>
          match read_terms f dotall n s' with Some (a, n', String ")" s2) => next a n' s2 | _ => None end
      | String "(" (String "?" _) => None
      | String "(" s' =>
          match read_terms f dotall (S n) s' with Some (a, n', String ")" s2) => next (RGroup (S n) a) n' s2 | _ => None end
      | String "[" (String "^" s') =>
          match read_class s' with Some (p, s2) => next (RChar (fun r => negb (p r))) n s2 | None => None end
      | String "[" s' => match read_class s' with Some (p, s2) => next (RChar p) n s2 | None => None end
      | String "." s' => next (RChar (if dotall then re_any else re_dot)) n s'
      | String "\" (String "A" s') => next RBegin n s'
      | String "\" (String "z" s') => next REnd n s'
      | String "\" (String a s') => match escaped_set a with Some p => next (RChar p) n s' | None => None end
      | String a s' => if is_meta a then None else next (RChar (between (byte_val a) (byte_val a))) n s'
      end%char
  end.
(** [regexp.MustCompile] on a pattern; [None]: refused here *)
Definition read_pattern (s : string) : option re :=
  let body (dotall : bool) (s : string) :=
    match read_terms (S (String.length s)) dotall 0 s with Some (r, _, EmptyString) => Some r | _ => None end in
  match s with
  | String "(" (String "?" (String "s" (String ")" s'))) => body true s'
  | _ => body false s
  end%char.

(** ** Trees that match alike *)

(** The continuation matters only by its values *)
Lemma backtrack_ext : forall A r i t cs (k k' : nat -> list gochar -> captures -> option A),
  (forall i t cs, k i t cs = k' i t cs) -> backtrack r i t cs k = backtrack r i t cs k'.
Proof.
  intros A r. induction r; intros i t cs k k' E; cbn.
  - destruct t; auto. destruct (p (gc_rune g)); auto.
  - auto.
  - apply IHr1. intros. apply IHr2. auto.
  - generalize (length t). intros m. revert i t cs. induction m; intros i t cs; auto.
    rewrite (IHr i t cs _ (fun i' t' cs' => if Nat.eqb i' i then None else
       (fix loop (n i : nat) (t : list gochar) (cs : captures) {struct n} : option A :=
          match n with
          | O => k' i t cs
          | S n' => match backtrack r i t cs (fun i' t' cs' => if Nat.eqb i' i then None else loop n' i' t' cs') with Some x => Some x | None => k' i t cs end
          end) m i' t' cs')).
    + rewrite E. reflexivity.
    + intros i' t' cs'. destruct (Nat.eqb i' i); auto.
  - rewrite (IHr _ _ _ _ _ E), E. reflexivity.
  - apply IHr. auto.
  - destruct (Nat.eqb i 0); auto.
  - destruct t; auto.
Qed.

(** Two trees match alike at every place, whatever follows *)
Definition alike (a b : re) : Prop :=
  forall A i t cs (k : nat -> list gochar -> captures -> option A), backtrack a i t cs k = backtrack b i t cs k.

Lemma alike_refl a : alike a a. Proof. intros A i t cs k. reflexivity. Qed.
Lemma alike_sym a b : alike a b -> alike b a. Proof. intros H A i t cs k. symmetry. apply H. Qed.
Lemma alike_trans a b c : alike a b -> alike b c -> alike a c.
Proof. intros H H' A i t cs k. rewrite (H A i t cs k). apply H'. Qed.
Lemma alike_char p q : (forall r, p r = q r) -> alike (RChar p) (RChar q).
Proof. intros E A i t cs k. cbn. destruct t; auto. rewrite E. reflexivity. Qed.
Lemma alike_seq a a' b b' : alike a a' -> alike b b' -> alike (RSeq a b) (RSeq a' b').
Proof.
  intros H H' A i t cs k. cbn. rewrite (H A i t cs _). apply backtrack_ext. intros. apply H'.
Qed.
Lemma alike_assoc a b c : alike (RSeq (RSeq a b) c) (RSeq a (RSeq b c)). Proof. intros A i t cs k. reflexivity. Qed.
Lemma alike_eps a : alike (RSeq REps a) a. Proof. intros A i t cs k. reflexivity. Qed.
Lemma alike_eps_r a : alike (RSeq a REps) a. Proof. intros A i t cs k. cbn. apply backtrack_ext. reflexivity. Qed.
Lemma alike_group n a a' : alike a a' -> alike (RGroup n a) (RGroup n a').
Proof. intros H A i t cs k. cbn. apply H. Qed.
Lemma alike_opt a a' : alike a a' -> alike (ROpt a) (ROpt a').
Proof. intros H A i t cs k. cbn. rewrite (H A i t cs k). reflexivity. Qed.
Lemma alike_star a a' : alike a a' -> alike (RStar a) (RStar a').
Proof.
  intros H A i t cs k. cbn. generalize (length t). intros m. revert i t cs. induction m; intros i t cs; auto.
  rewrite (H A i t cs _).
  rewrite (backtrack_ext A a' i t cs _ (fun i' t' cs' => if Nat.eqb i' i then None else
       (fix loop (n i : nat) (t : list gochar) (cs : captures) {struct n} : option A :=
          match n with
          | O => k i t cs
          | S n' => match backtrack a' i t cs (fun i' t' cs' => if Nat.eqb i' i then None else loop n' i' t' cs') with Some x => Some x | None => k i t cs end
          end) m i' t' cs')).
  - reflexivity.
  - intros i' t' cs'. destruct (Nat.eqb i' i); auto.
Qed.
Lemma alike_plus a a' : alike a a' -> alike (RPlus a) (RPlus a').
Proof. intros H. apply alike_seq; [assumption | apply alike_star; assumption]. Qed.

Lemma alike_leftmost a b : alike a b -> forall t i, leftmost a i t = leftmost b i t.
Proof.
  intros H t. induction t as [|c t IH]; intros i; cbn; rewrite (H _ i _ [] _); [reflexivity|]. rewrite IH. reflexivity.
Qed.
(** Trees that match alike give the same groups for every text, and the same text with the matches removed *)
Theorem alike_find a b : alike a b -> forall s, find_submatch a s = find_submatch b s.
Proof. intros H s. unfold find_submatch. rewrite (alike_leftmost a b H). reflexivity. Qed.
Theorem alike_remove a b : alike a b -> forall s, remove_all a s = remove_all b s.
Proof.
  intros H s. unfold remove_all. f_equal. generalize (S (String.length s)) as m, 0%nat as i, (decode s) as t.
  induction m; intros i t; cbn; [reflexivity|]. rewrite (alike_leftmost a b H). destruct (leftmost b i t) as [[? [[? ?] ?]]|]; [|reflexivity].
  rewrite IHm. reflexivity.
Qed.

(** A sequence as the list of its members, for comparing *)
Fixpoint flat (a : re) (rest : re) : re :=
  match a with REps => rest | RSeq x y => flat x (flat y rest) | _ => RSeq a rest end.
Lemma flat_alike a : forall rest, alike (flat a rest) (RSeq a rest).
Proof.
  induction a; intros rest; cbn; try apply alike_refl.
  - apply alike_sym, alike_eps.
  - eapply alike_trans; [apply IHa1|]. eapply alike_trans; [apply alike_seq; [apply alike_refl | apply IHa2]|].
    apply alike_sym, alike_assoc.
Qed.
Lemma by_flat a b : alike (flat a REps) (flat b REps) -> alike a b.
Proof.
  intros H. eapply alike_trans; [apply alike_sym, alike_eps_r|]. eapply alike_trans; [apply alike_sym, flat_alike|].
  eapply alike_trans; [apply H|]. eapply alike_trans; [apply flat_alike|]. apply alike_eps_r.
Qed.

(** ** The patterns of the code *)
Lemma between_single c r : between c c r = (r =? c).
Proof. unfold between. destruct (r =? c) eqn:E; lia. Qed.

Ltac sets := intros ?r; cbn; rewrite ?between_single; unfold re_name, re_any, between; cbn; rewrite ?Bool.orb_false_r; reflexivity.
Ltac flatten := cbv [flat RSeqs RText RPlus append nl command_first_part_re command_re tail_spaces_re roll_dice_re source_re dice_re].
Ltac alikes :=
  match goal with
  | |- alike ?a ?a => apply alike_refl
  | |- alike (RChar _) (RChar _) => apply alike_char; sets
  | |- alike (RSeq _ REps) (RSeq _ REps) => apply alike_seq; [alikes | apply alike_refl]
  | |- alike (RSeq _ _) (RSeq _ _) => apply alike_seq; alikes
  | |- alike (RGroup _ _) (RGroup _ _) => apply alike_group, by_flat; flatten; alikes
  | |- alike (RStar _) (RStar _) => apply alike_star, by_flat; flatten; alikes
  | |- alike (ROpt _) (ROpt _) => apply alike_opt, by_flat; flatten; alikes
  end.
Ltac pattern_is := eexists; split; [reflexivity |]; apply by_flat; flatten; alikes.

(** bcdice.go:60 *)
Theorem command_first_part_pattern : exists r, read_pattern "\A([^\s]*)(\s.*)?" = Some r /\ alike r command_first_part_re.
Proof. pattern_is. Qed.
(** repl.go:89, 91, 357 *)
Theorem command_pattern : exists r, read_pattern "\A\.([-a-z]+)(?:\s+(.+))*" = Some r /\ alike r command_re.
Proof. pattern_is. Qed.
Theorem tail_spaces_pattern : exists r, read_pattern "\s+\z" = Some r /\ alike r tail_spaces_re.
Proof. pattern_is. Qed.
Theorem roll_dice_pattern : exists r, read_pattern "\A(\d+)\s+(\d+)\z" = Some r /\ alike r roll_dice_re.
Proof. pattern_is. Qed.
(** testcase.go:28, 30 *)
Theorem source_pattern : exists r, read_pattern ("(?s)\Ainput:" ++ nl ++ "(.+)" ++ nl ++ "output:(.*)" ++ nl ++ "rand:(.*)") = Some r /\ alike r source_re.
Proof. pattern_is. Qed.
Theorem dice_pattern : exists r, read_pattern "\A\s*(\d+)/(\d+)\s*\z" = Some r /\ alike r dice_re.
Proof. pattern_is. Qed.
