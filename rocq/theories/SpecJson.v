(** JSON texts (RFC 8259), as a reader of sequences of characters; independent of the code. *)
From Verif Require Import GoBase.
Open Scope list_scope.
Open Scope Z_scope.

(** What a text stands for.  Strings are sequences of characters (Unicode code points).  Of the numbers only the integers are considered: the reader
    refuses a fraction or an exponent. *)
Inductive value :=
| VNull | VBool (b : bool) | VInt (z : Z) | VString (cs : list Z) | VArray (l : list value) | VObject (l : list (list Z * value)).

Definition blank (c : Z) : bool := (c =? 32) || (c =? 9) || (c =? 10) || (c =? 13).
Fixpoint skip (cs : list Z) : list Z := match cs with c :: r => if blank c then skip r else cs | [] => [] end.

(** Strings, after the opening quotation mark (34): characters from U+0020 on stand for themselves, except the quotation mark and the backslash (92); the
    escapes are a backslash followed by one of these two, a slash (47) or one of the letters b, f, n, r, t (98, 102, 110, 114, 116), or by u (117) and four
    hexadecimal digits, where a pair of surrogates stands for one character. *)
Definition hex_value (c : Z) : option Z :=
  if (48 <=? c) && (c <=? 57) then Some (c - 48)
  else if (65 <=? c) && (c <=? 70) then Some (c - 55)
  else if (97 <=? c) && (c <=? 102) then Some (c - 87)
  else None.
Definition hex4 (a b c d : Z) : option Z :=
  match hex_value a, hex_value b, hex_value c, hex_value d with
  | Some a, Some b, Some c, Some d => Some (4096 * a + 256 * b + 16 * c + d)
  | _, _, _, _ => None
  end.
Definition short_escape (c : Z) : option Z :=
  if (c =? 34) || (c =? 92) || (c =? 47) then Some c
  else if c =? 98 then Some 8 else if c =? 102 then Some 12 else if c =? 110 then Some 10 else if c =? 114 then Some 13 else if c =? 116 then Some 9
  else None.
Definition put (c : Z) (o : option (list Z * list Z)) : option (list Z * list Z) :=
  match o with Some (s, r) => Some (c :: s, r) | None => None end.
Fixpoint read_string (cs : list Z) : option (list Z * list Z) :=
  match cs with
  | [] => None
  | c :: r =>
      if c =? 34 then Some ([], r)
      else if c =? 92 then
        match r with
        | [] => None
        | e :: r1 =>
            if e =? 117 then
              match r1 with
              | x1 :: x2 :: x3 :: x4 :: r2 =>
                  match hex4 x1 x2 x3 x4 with
                  | None => None
                  | Some u =>
                      if (55296 <=? u) && (u <=? 56319) then
                        match r2 with
                        | b :: e' :: y1 :: y2 :: y3 :: y4 :: r3 =>
                            match hex4 y1 y2 y3 y4 with
                            | Some w => if (b =? 92) && (e' =? 117) && (56320 <=? w) && (w <=? 57343)
                                        then put (65536 + (u - 55296) * 1024 + (w - 56320)) (read_string r3) else None
                            | None => None
                            end
                        | _ => None
                        end
                      else if (56320 <=? u) && (u <=? 57343) then None
                      else put u (read_string r2)
                  end
              | _ => None
              end
            else match short_escape e with Some x => put x (read_string r1) | None => None end
        end
      else if c <? 32 then None
      else put c (read_string r)
  end.

(** Integers: an optional minus and decimal digits, of which the first is 0 only if it is the only one. *)
Definition decimal (c : Z) : bool := (48 <=? c) && (c <=? 57).
Fixpoint span_digits (cs : list Z) : list Z * list Z :=
  match cs with
  | c :: r => if decimal c then let (ds, r') := span_digits r in (c :: ds, r') else ([], cs)
  | [] => ([], [])
  end.
Definition digits_value (ds : list Z) : Z := fold_left (fun n d => 10 * n + (d - 48)) ds 0.
Definition no_fraction (r : list Z) : bool := match r with c :: _ => negb ((c =? 46) || (c =? 69) || (c =? 101)) | [] => true end.
Definition read_natural (cs : list Z) : option (Z * list Z) :=
  let (ds, r) := span_digits cs in
  match ds with
  | [] => None
  | d :: ds' => if (d =? 48) && negb (match ds' with [] => true | _ => false end) then None
                else if no_fraction r then Some (digits_value ds, r) else None
  end.
Definition read_integer (cs : list Z) : option (value * list Z) :=
  match cs with
  | c :: r => if c =? 45 then match read_natural r with Some (n, r') => Some (VInt (- n), r') | None => None end
              else match read_natural cs with Some (n, r') => Some (VInt n, r') | None => None end
  | [] => None
  end.

Fixpoint after_word (word cs : list Z) : option (list Z) :=
  match word with
  | [] => Some cs
  | w :: word' => match cs with c :: r => if c =? w then after_word word' r else None | [] => None end
  end.

(** Values, the items of an array after its opening bracket or a comma, and those of an object; n limits the number of steps, and the
    number of characters is always enough. *)
Fixpoint read_value (n : nat) (cs : list Z) {struct n} : option (value * list Z) :=
  match n with
  | O => None
  | S n' =>
      match skip cs with
      | [] => None
      | c :: r =>
          if c =? 34 then match read_string r with Some (s, r') => Some (VString s, r') | None => None end
          else if c =? 91 then
            match skip r with
            | [] => None
            | c' :: r' => if c' =? 93 then Some (VArray [], r')
                          else match read_items n' r with Some (l, r'') => Some (VArray l, r'') | None => None end
            end
          else if c =? 123 then
            match skip r with
            | [] => None
            | c' :: r' => if c' =? 125 then Some (VObject [], r')
                          else match read_members n' r with Some (l, r'') => Some (VObject l, r'') | None => None end
            end
          else if c =? 110 then match after_word [117; 108; 108] r with Some r' => Some (VNull, r') | None => None end
          else if c =? 116 then match after_word [114; 117; 101] r with Some r' => Some (VBool true, r') | None => None end
          else if c =? 102 then match after_word [97; 108; 115; 101] r with Some r' => Some (VBool false, r') | None => None end
          else read_integer (c :: r)
      end
  end
with read_items (n : nat) (cs : list Z) {struct n} : option (list value * list Z) :=
  match n with
  | O => None
  | S n' =>
      match read_value n' cs with
      | None => None
      | Some (v, r) =>
          match skip r with
          | c :: r' => if c =? 93 then Some ([v], r')
                       else if c =? 44 then match read_items n' r' with Some (l, r'') => Some (v :: l, r'') | None => None end
                       else None
          | [] => None
          end
      end
  end
with read_members (n : nat) (cs : list Z) {struct n} : option (list (list Z * value) * list Z) :=
  match n with
  | O => None
  | S n' =>
      match skip cs with
      | q :: r0 =>
          if q =? 34 then
            match read_string r0 with
            | None => None
            | Some (k, r1) =>
                match skip r1 with
                | c1 :: r2 =>
                    if c1 =? 58 then
                      match read_value n' r2 with
                      | None => None
                      | Some (v, r3) =>
                          match skip r3 with
                          | c :: r' => if c =? 125 then Some ([(k, v)], r')
                                       else if c =? 44 then match read_members n' r' with Some (l, r'') => Some ((k, v) :: l, r'') | None => None end
                                       else None
                          | [] => None
                          end
                      end
                    else None
                | [] => None
                end
            end
          else None
      | [] => None
      end
  end.
(** The value of a JSON text: there is nothing but white space around it. *)
Definition read_json (cs : list Z) : option value :=
  match read_value (S (length cs)) cs with
  | Some (v, r) => match skip r with [] => Some v | _ => None end
  | None => None
  end.
