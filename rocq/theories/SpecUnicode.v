(** The encoding UTF-8 (RFC 3629), independently of the decoder. *)
From Verif Require Import GoBase Utf8 SpecText.
Open Scope list_scope.
Open Scope Z_scope.

(** Unicode scalar values: the code points without the surrogates D800 - DFFF *)
Definition scalar (r : Z) : Prop := 0 <= r <= 55295 \/ 57344 <= r <= 1114111.
(** The bytes of a code point: the shortest of the four forms that can hold it, 6 bits in every byte after the first *)
Inductive encodes (r : Z) : list Z -> Prop :=
| one_byte : 0 <= r < 128 -> encodes r [r]
| two_bytes x y : 128 <= r < 2048 -> 0 <= y < 64 -> r = 64 * x + y -> encodes r [192 + x; 128 + y]
| three_bytes x y z : 2048 <= r < 65536 -> 0 <= y < 64 -> 0 <= z < 64 -> r = 4096 * x + 64 * y + z -> encodes r [224 + x; 128 + y; 128 + z]
| four_bytes x y z w : 65536 <= r <= 1114111 -> 0 <= y < 64 -> 0 <= z < 64 -> 0 <= w < 64 -> r = 262144 * x + 4096 * y + 64 * z + w ->
    encodes r [240 + x; 128 + y; 128 + z; 128 + w].
(** A character of a text: a scalar value written in UTF-8 *)
Definition character (r : Z) (e : string) : Prop := scalar r /\ encodes r (bytes e).
(** Text [s] is [rs], written in UTF-8 *)
Inductive writes : list Z -> string -> Prop :=
| writes_nil : writes [] ""
| writes_cons r rs e s : character r e -> writes rs s -> writes (r :: rs) (e ++ s).
