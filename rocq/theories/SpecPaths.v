(** Where a path leads, by names alone (no symbolic links). *)
From Coq Require Import String Ascii List.
Import ListNotations.
Open Scope list_scope.

(** The names between the slashes *)
Fixpoint pieces (p : string) : list string :=
  match p with
  | EmptyString => [EmptyString]
  | String a p' => if Ascii.eqb a "/" then EmptyString :: pieces p' else match pieces p' with n :: l => String a n :: l | [] => [] end
  end.
(** A place: the names of the directories from the innermost one to the root.  One step from there: *)
Definition step (here : list string) (n : string) : list string :=
  if (String.eqb n "" || String.eqb n ".")%bool then here            (* stay *)
  else if String.eqb n ".." then tl here                              (* up; the root is above itself *)
  else n :: here.                                                     (* down *)
Definition walk (p : string) (here : list string) : list string := fold_left step (pieces p) here.
Definition rooted (p : string) : Prop := exists p', p = String "/" p'.
Definition is_rooted (p : string) : bool := match p with String a _ => Ascii.eqb a "/" | EmptyString => false end.
(** The place a path names, seen from the current directory *)
Definition reach (p : string) (cwd : list string) : list string := walk p (if is_rooted p then [] else cwd).

(** A name of a file or directory *)
Definition plain (n : string) : Prop := n <> EmptyString /\ n <> "."%string /\ n <> ".."%string /\ ~ In "/"%char (list_ascii_of_string n).
(** The shortest way to write a path *)
Inductive canonical : string -> Prop :=
| canonical_here : canonical "."
| canonical_rooted ns : Forall plain ns -> canonical (String "/" (String.concat "/" ns))
| canonical_relative k ns : Forall plain ns -> repeat ".."%string k ++ ns <> [] -> canonical (String.concat "/" (repeat ".."%string k ++ ns)).
