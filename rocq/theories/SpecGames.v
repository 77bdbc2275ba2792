(** Vocabulary for the list of games and the API. *)
From Coq Require Import Sorted Permutation.
From Verif Require Import GoBase Utf8 BCDice Api.
Open Scope list_scope.
Open Scope Z_scope.

(** Bytewise lexicographic order: t extends s, or at the first difference s has the smaller byte *)
Definition before_or_same (s t : string) : Prop :=
  (exists u, t = (s ++ u)%string) \/
  (exists p a b u v, s = (p ++ String a u)%string /\ t = (p ++ String b v)%string /\ byte_val a < byte_val b).
(** A registry is a Go map: every identifier has at most one bot *)
Definition is_map (reg : registry) : Prop := NoDup (map fst reg).
(** The selections made one after the other, and the result of the last *)
Definition select_all (reg : registry) (b : bcdice) (ids : list string) : bcdice :=
  fold_left (fun b id => snd (set_dice_bot_in reg b id)) ids b.
(** The bot of an identifier *)
Definition bot_of (reg : registry) (id : string) (bot : dicebot) : Prop :=
  (id = "DiceBot"%string /\ bot = basic_bot) \/ (id <> "DiceBot"%string /\ In (id, bot) reg).
(** The response says that it is ok *)
Definition says_ok (r : response) (b : bool) : Prop := map_get (resp_body r) "ok" = Some (JBool b).
