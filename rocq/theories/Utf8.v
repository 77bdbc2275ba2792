(** UTF-8 decoding as done by Go's unicode/utf8, and the few unicode predicates used. *)
From Verif Require Export GoBase.
Open Scope list_scope.
Open Scope Z_scope.

(** One step of decoding: the rune and the bytes it was read from.  An invalid byte is read
    as U+FFFD with width 1 (utf8.DecodeRune). *)
Record gochar := GoChar { gc_rune : Z; gc_raw : string }.

Definition rune_error : Z := 65533.

(** rn == utf8.RuneError && n == 1 (parser.go:2990) *)
Definition gc_bad (c : gochar) : bool :=
  (gc_rune c =? rune_error) && (Nat.eqb (String.length (gc_raw c)) 1).

Definition byte_val (a : ascii) : Z := Z.of_N (N_of_ascii a).

Definition in_range (lo hi x : Z) : bool := (lo <=? x) && (x <=? hi).

(** Admissible second byte for a leading byte (utf8.acceptRanges) *)
Definition second_ok (b0 b1 : Z) : bool :=
  if b0 =? 224 then in_range 160 191 b1
  else if b0 =? 237 then in_range 128 159 b1
  else if b0 =? 240 then in_range 144 191 b1
  else if b0 =? 244 then in_range 128 143 b1
  else in_range 128 191 b1.

Definition cont_ok (b : Z) : bool := in_range 128 191 b.

Definition bytes2 (a b : ascii) : string := String a (String b EmptyString).
Definition bytes3 (a b c : ascii) : string := String a (bytes2 b c).
Definition bytes4 (a b c d : ascii) : string := String a (bytes3 b c d).

Definition bad_char (a : ascii) : gochar := GoChar rune_error (String a EmptyString).

(** Repeated utf8.DecodeRune *)
Fixpoint decode (s : string) : list gochar :=
  match s with
  | EmptyString => []
  | String a0 s1 =>
      let b0 := byte_val a0 in
      if b0 <? 128 then GoChar b0 (String a0 EmptyString) :: decode s1
      else if in_range 194 223 b0 then
        match s1 with
        | String a1 s2 =>
            let b1 := byte_val a1 in
            if cont_ok b1 then GoChar ((b0 - 192) * 64 + (b1 - 128)) (bytes2 a0 a1) :: decode s2
            else bad_char a0 :: decode s1
        | EmptyString => bad_char a0 :: decode s1
        end
      else if in_range 224 239 b0 then
        match s1 with
        | String a1 (String a2 s3) =>
            let b1 := byte_val a1 in
            let b2 := byte_val a2 in
            if second_ok b0 b1 && cont_ok b2
            then GoChar ((b0 - 224) * 4096 + (b1 - 128) * 64 + (b2 - 128)) (bytes3 a0 a1 a2) :: decode s3
            else bad_char a0 :: decode s1
        | _ => bad_char a0 :: decode s1
        end
      else if in_range 240 244 b0 then
        match s1 with
        | String a1 (String a2 (String a3 s4)) =>
            let b1 := byte_val a1 in
            let b2 := byte_val a2 in
            let b3 := byte_val a3 in
            if second_ok b0 b1 && cont_ok b2 && cont_ok b3
            then GoChar ((b0 - 240) * 262144 + (b1 - 128) * 4096 + (b2 - 128) * 64 + (b3 - 128))
                        (bytes4 a0 a1 a2 a3) :: decode s4
            else bad_char a0 :: decode s1
        | _ => bad_char a0 :: decode s1
        end
      else bad_char a0 :: decode s1
  end.

(** The bytes of a sequence of decoded characters (a slice of the input). *)
Fixpoint raw_text (l : list gochar) : string :=
  match l with
  | [] => EmptyString
  | c :: l' => (gc_raw c ++ raw_text l')%string
  end.

(** Encoding of a rune (utf8.EncodeRune) for the runes that [decode] can produce; used for
    string(runes) in util/secret_roll.go:17. *)
Definition byte_of (z : Z) : ascii := ascii_of_N (Z.to_N z).
Definition encode_rune (r : Z) : string :=
  if r <? 128 then String (byte_of r) EmptyString
  else if r <? 2048 then bytes2 (byte_of (192 + r / 64)) (byte_of (128 + r mod 64))
  else if r <? 65536 then
    bytes3 (byte_of (224 + r / 4096)) (byte_of (128 + (r / 64) mod 64)) (byte_of (128 + r mod 64))
  else bytes4 (byte_of (240 + r / 262144)) (byte_of (128 + (r / 4096) mod 64))
              (byte_of (128 + (r / 64) mod 64)) (byte_of (128 + r mod 64)).
Fixpoint encode_runes (l : list gochar) : string :=
  match l with
  | [] => EmptyString
  | c :: l' => (encode_rune (gc_rune c) ++ encode_runes l')%string
  end.

(** unicode.ToLower, as far as the parser can observe it: it is only compared with ASCII letters
    (parser.go:3351-3366, 3468-3473).  Besides A-Z the only runes with an ASCII lower case are
    U+0130 (to 'i') and U+212A (to 'k'); every other rune maps outside ASCII letters and is left unchanged here. *)
Definition to_lower (r : Z) : Z :=
  if in_range 65 90 r then r + 32
  else if r =? 304 then 105
  else if r =? 8490 then 107
  else r.

(** unicode category Z (the class \pZ of the grammar) *)
Definition is_Z (r : Z) : bool :=
  (r =? 32) || (r =? 160) || (r =? 5760) || in_range 8192 8202 r || (r =? 8232) || (r =? 8233)
  || (r =? 8239) || (r =? 8287) || (r =? 12288).

(** unicode.IsSpace, used by strings.TrimSpace *)
Definition is_space (r : Z) : bool :=
  in_range 9 13 r || (r =? 32) || (r =? 133) || (r =? 160) || (r =? 5760) || in_range 8192 8202 r
  || (r =? 8232) || (r =? 8233) || (r =? 8239) || (r =? 8287) || (r =? 12288).

(** strings.TrimSpace on decoded text *)
Fixpoint trim_left (l : list gochar) : list gochar :=
  match l with
  | c :: l' => if is_space (gc_rune c) then trim_left l' else l
  | [] => []
  end.
Definition trim_space (l : list gochar) : list gochar := rev (trim_left (rev (trim_left l))).

(** strconv.Atoi on a non-empty text of decimal digits, error ignored: the value, or the largest int if
    out of range (strconv.ParseInt returns the maximum together with ErrRange). *)
Definition digit_val (c : gochar) : Z := gc_rune c - 48.
Definition digits_val (l : list gochar) : Z := fold_left (fun acc c => acc * 10 + digit_val c) l 0.
Definition atoi_digits (l : list gochar) : Z := Z.min (digits_val l) max_int.
