(** Package encoding/json (Go 1.14), as far as the API server uses it: cmd/GoBCDiceAPI/helpers/response.go:39 calls c.JSON of echo 3.3.10, which
    calls json.Marshal, or json.MarshalIndent with two spaces if the query of the request has the parameter "pretty" (or in echo's debug mode, which is off). *)
From Verif Require Export Api Quote.
Open Scope list_scope.
Open Scope Z_scope.

(** encoding/json encode.go [encodeState.string] with escapeHTML, for one character *)
Definition json_char (c : gochar) : string :=
  let r := gc_rune c in
  if gc_bad c then "\ufffd"%string
  else if (r =? 34) || (r =? 92) then String "\" (gc_raw c)
  else if r =? 10 then "\n"%string
  else if r =? 13 then "\r"%string
  else if r =? 9 then "\t"%string
  else if (r <? 32) || (r =? 60) || (r =? 62) || (r =? 38) || (r =? 8232) || (r =? 8233) then ("\u" ++ hex 4 r)%string
  else gc_raw c.
Fixpoint json_chars (l : list gochar) : string :=
  match l with [] => EmptyString | c :: l' => (json_char c ++ json_chars l')%string end.
Definition quote_mark : string := String """" EmptyString.
Definition json_string (s : string) : string := (quote_mark ++ json_chars (decode s) ++ quote_mark)%string.

(** encode.go [mapEncoder.encode]: the keys of a map in ascending order *)
Fixpoint insert_key {A} (x : string * A) (l : list (string * A)) : list (string * A) :=
  match l with
  | [] => [x]
  | y :: l' => if string_leb (fst x) (fst y) then x :: l else y :: insert_key x l'
  end.
Definition sort_keys {A} (l : list (string * A)) : list (string * A) := fold_right insert_key [] l.

(** White space: none (json.Marshal), or that of json.MarshalIndent (indent.go [Indent]), which is written here while walking over the tree
    instead of over the finished text: a line break with indentation after an opening bracket, after a comma and before a closing bracket
    (but not in an empty list or object), and a blank after a colon. *)
Definition line_feed : string := String "010" EmptyString.
Fixpoint indentation (d : nat) : string := match d with O => EmptyString | S d' => ("  " ++ indentation d')%string end.
Definition line_break (pretty : bool) (d : nat) : string := if pretty then (line_feed ++ indentation d)%string else EmptyString.
Definition colon (pretty : bool) : string := if pretty then ": "%string else ":"%string.
Definition in_brackets (pretty : bool) (d : nat) (op cl : string) (items : list string) : string :=
  match items with
  | [] => (op ++ cl)%string
  | _ => (op ++ line_break pretty (S d) ++ join ("," ++ line_break pretty (S d)) items ++ line_break pretty d ++ cl)%string
  end.
Definition member (pretty : bool) (kv : string * string) : string := (json_string (fst kv) ++ colon pretty ++ snd kv)%string.
(** encode.go: the encoders for nil, booleans, integers, strings, slices, maps and structs *)
Fixpoint json_text (pretty : bool) (d : nat) (j : json) : string :=
  match j with
  | JNull => "null"
  | JBool b => if b then "true" else "false"
  | JInt z => itoa z
  | JString s => json_string s
  | JList l => in_brackets pretty d "[" "]" (map (json_text pretty (S d)) l)
  | JMap m => in_brackets pretty d "{" "}" (map (member pretty) (sort_keys (map (fun kv => (fst kv, json_text pretty (S d) (snd kv))) m)))
  | JStruct m => in_brackets pretty d "{" "}" (map (member pretty) (map (fun kv => (fst kv, json_text pretty (S d) (snd kv))) m))
  end%string.
(** The body of the HTTP response *)
Definition body_text (pretty : bool) (r : response) : string := json_text pretty 0 (JMap (resp_body r)).

(** helpers/response.go:22-24 [Error] *)
Definition response_error_text (code : Z) (msg : string) : string := ("Response error: " ++ itoa code ++ " " ++ msg)%string.
(** cmd/GoBCDiceAPI/main.go:11-18 [getPort] *)
Definition get_port (env : string) : string := if String.eqb env "" then "4000"%string else env.
