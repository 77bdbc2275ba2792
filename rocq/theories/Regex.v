(** The subset of Go's package regexp that the code uses: leftmost-first matching, "the match that a backtracking engine
    would have found" (documentation of package regexp), on the characters of a byte string. *)
From Verif Require Export Peg.
Open Scope list_scope.
Open Scope Z_scope.

(** Syntax: one character of a set of runes, sequence, greedy [x*] and [x?], group, [\A], [\z] *)
Inductive re :=
| RChar (p : Z -> bool)
| REps
| RSeq (a b : re)
| RStar (a : re)
| ROpt (a : re)
| RGroup (n : nat) (a : re)
| RBegin
| REnd.
(** [x+] is [xx*] *)
Definition RPlus (a : re) : re := RSeq a (RStar a).
(** The text of a fixed string (of ASCII characters) *)
Fixpoint RText (s : string) : re :=
  match s with
  | EmptyString => REps
  | String a s' => RSeq (RChar (fun r => r =? byte_val a)) (RText s')
  end.
Fixpoint RSeqs (l : list re) : re := match l with [] => REps | [a] => a | a :: l' => RSeq a (RSeqs l') end.
(** [\s]: \t \n \f \r and blank; [\d]: 0-9; [.]: anything but a line feed, with the flag s anything *)
Definition re_space (r : Z) : bool := (r =? 9) || (r =? 10) || (r =? 12) || (r =? 13) || (r =? 32).
Definition re_digit (r : Z) : bool := (48 <=? r) && (r <=? 57).
Definition re_dot (r : Z) : bool := negb (r =? 10).
Definition re_any (r : Z) : bool := true.

(** Groups matched so far, the latest first *)
Definition captures := list (nat * string).
Fixpoint group (cs : captures) (n : nat) : string :=
  match cs with
  | [] => EmptyString
  | (m, s) :: cs' => if Nat.eqb m n then s else group cs' n
  end.

Section Backtrack.
  Context {A : Type}.
  (** Match [r] at character [i], where [t] is the rest of the text, then go on with [k]; the first success in order of
      preference.  A turn of a star must consume something (no starred expression in the code matches the empty text). *)
  Fixpoint backtrack (r : re) (i : nat) (t : list gochar) (cs : captures) (k : nat -> list gochar -> captures -> option A) : option A :=
    match r with
    | RChar p => match t with c :: t' => if p (gc_rune c) then k (S i) t' cs else None | [] => None end
    | REps => k i t cs
    | RSeq a b => backtrack a i t cs (fun i t cs => backtrack b i t cs k)
    | RStar a =>
        (fix loop (n : nat) (i : nat) (t : list gochar) (cs : captures) : option A :=
           match n with
           | O => k i t cs
           | S n' =>
               match backtrack a i t cs (fun i' t' cs' => if Nat.eqb i' i then None else loop n' i' t' cs') with
               | Some x => Some x
               | None => k i t cs
               end
           end) (length t) i t cs
    | ROpt a => match backtrack a i t cs k with Some x => Some x | None => k i t cs end
    | RGroup n a => backtrack a i t cs (fun i' t' cs' => k i' t' ((n, raw_text (slice_from t t')) :: cs'))
    | RBegin => if Nat.eqb i 0 then k i t cs else None
    | REnd => match t with [] => k i t cs | _ => None end
    end.
End Backtrack.

(** The leftmost place where [r] matches: the characters before it, where the match ends, what follows it, its groups *)
Fixpoint leftmost (r : re) (i : nat) (t : list gochar) : option (list gochar * (nat * list gochar * captures)) :=
  match backtrack r i t [] (fun j t' cs => Some (j, t', cs)) with
  | Some x => Some ([], x)
  | None => match t with [] => None | c :: t' => match leftmost r (S i) t' with Some (b, x) => Some (c :: b, x) | None => None end end
  end.
(** [FindStringSubmatch]: nil, or the groups *)
Definition find_submatch (r : re) (s : string) : option captures :=
  match leftmost r 0 (decode s) with Some (_, (_, _, cs)) => Some cs | None => None end.
(** [ReplaceAllString(s, "")] (simplified: an expression that does not match the empty text) *)
Fixpoint remove_all_loop (fuel : nat) (r : re) (i : nat) (t : list gochar) : list gochar :=
  match fuel with
  | O => t
  | S f => match leftmost r i t with Some (b, (j, t', _)) => b ++ remove_all_loop f r j t' | None => t end
  end.
Definition remove_all (r : re) (s : string) : string := raw_text (remove_all_loop (S (String.length s)) r 0 (decode s)).
