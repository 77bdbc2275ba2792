(** Vocabulary about texts as byte strings. *)
From Verif Require Import GoBase Utf8.
Open Scope list_scope.
Open Scope Z_scope.

(** The bytes of a text *)
Definition bytes (s : string) : list Z := map byte_val (list_ascii_of_string s).
(** ASCII texts *)
Definition ascii_text (s : string) : Prop := Forall (fun a => byte_val a < 128) (list_ascii_of_string s).
(** Lower case of the ASCII letters; all other bytes unchanged *)
Definition lower_ascii_letter (a : ascii) : ascii :=
  if in_range 65 90 (byte_val a) then byte_of (byte_val a + 32) else a.
Fixpoint lowercase (s : string) : string :=
  match s with EmptyString => EmptyString | String a s' => String (lower_ascii_letter a) (lowercase s') end.
(** Two texts that differ at most in the case of ASCII letters *)
Definition same_but_case (s s' : string) : Prop := lowercase s = lowercase s'.

(** White space between a command and a comment: blank, tab, newline, form feed, carriage return *)
Definition white (a : ascii) : Prop := In (byte_val a) [32; 9; 10; 12; 13].
Definition no_white (s : string) : Prop := Forall (fun a => ~ white a) (list_ascii_of_string s).

(** Valid UTF-8 *)
Definition valid_utf8 (s : string) : Prop := Forall (fun c => gc_bad c = false) (decode s).

(** A decimal number as a byte string *)
Definition digit (a : ascii) : Prop := 48 <= byte_val a <= 57.
Definition digits (s : string) : Prop := s <> EmptyString /\ Forall digit (list_ascii_of_string s).
Definition number_value (s : string) : Z := fold_left (fun n a => 10 * n + (byte_val a - 48)) (list_ascii_of_string s) 0.
