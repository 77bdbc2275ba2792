(** Texts that are not valid UTF-8: which characters are broken, the text with "?" in their places, the message about one. *)
From Verif Require Import GoBase Utf8 SpecGrammar SpecErrors.
Open Scope list_scope.
Open Scope Z_scope.

(** The [k]-th character of the text is a byte that does not belong to any character. *)
Definition broken (t : text) (k : nat) : Prop := exists c, nth_error t k = Some c /\ gc_bad c = true.
Definition mend_char (c : gochar) : gochar := if gc_bad c then GoChar 63 "?" else c.
(** The text with a question mark instead of every broken byte *)
Definition mend (s : string) : string := raw_text (map mend_char (decode s)).
(** The message about a broken byte; [rule]: which rule of the grammar was being read (none before the first) *)
Definition encoding_error (filename : string) (p : Z * Z * Z) (rule : option string) : string :=
  (file_prefix filename ++ place_text p ++ match rule with Some r => ": rule " ++ r | None => "" end ++ ": invalid encoding")%string.
