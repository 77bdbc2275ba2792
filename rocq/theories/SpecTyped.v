(** What a user types: an optional mark for a secret roll, a command, and an optional comment. *)
From Verif Require Import GoBase Utf8 Ast SpecSyntax SpecText SpecGrammar.
Open Scope list_scope.
Open Scope Z_scope.

(** The mark of a secret roll *)
Definition mark (secret : bool) (m : string) : Prop := if secret then m = "s"%string \/ m = "S"%string else m = EmptyString.
(** What may follow the text of a command: nothing, or a comment set off by white space; after C(...) and CHOICE[...] any text. *)
Definition follows (c : command) (tail : string) : Prop :=
  tail = EmptyString \/ (exists a comment, tail = String a comment /\ white a) \/ may_be_followed c.
(** [typed input c secret]: the input is the mark (if any), the text of the command c (SpecGrammar.v) and what may follow it. *)
Definition typed (input : string) (c : command) (secret : bool) : Prop :=
  exists m text tail, input = (m ++ text ++ tail)%string /\ mark secret m /\ spells c (decode text) /\ follows c tail /\
    valid_utf8 text /\ valid_utf8 tail.
