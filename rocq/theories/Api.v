(** cmd/GoBCDiceAPI/helpers *)
From Verif Require Export BCDice.
Open Scope list_scope.
Open Scope Z_scope.

(** Go maps with string keys as association lists; assignment replaces. *)
Fixpoint map_set {A} (m : list (string * A)) (k : string) (v : A) : list (string * A) :=
  match m with
  | [] => [(k, v)]
  | (k', v') :: m' => if String.eqb k' k then (k, v) :: m' else (k', v') :: map_set m' k v
  end.
Fixpoint map_get {A} (m : list (string * A)) (k : string) : option A :=
  match m with
  | [] => None
  | (k', v) :: m' => if String.eqb k' k then Some v else map_get m' k
  end.

(** helpers/errors.go:4-6 *)
Definition errors := list (string * string).
(** errors.go:9-15, 37-39 *)
Definition new_errors : errors := [].
Definition errors_clear (e : errors) : errors := [].
(** errors.go:18-20 *)
Definition errors_add (e : errors) (field msg : string) : errors := map_set e field msg.
(** errors.go:23-27 *)
Definition validate_min_value (e : errors) (value min_allowed : Z) (field msg : string) : errors :=
  if value <? min_allowed then errors_add e field msg else e.
(** errors.go:30-34 *)
Definition validate_max_value (e : errors) (value max_allowed : Z) (field msg : string) : errors :=
  if max_allowed <? value then errors_add e field msg else e.
(** errors.go:42-44 *)
Definition has_messages (e : errors) : bool := 0 <? Z.of_nat (length e).

(** helpers/response.go: bodies are maps to values that package encoding/json turns into text ([JNull]: a nil slice; [JStruct]: a struct with json tags,
    the fields in their order) *)
Inductive json := JNull | JBool (b : bool) | JInt (z : Z) | JString (s : string) | JList (l : list json) | JMap (m : list (string * json)) | JStruct (m : list (string * json)).
Definition response_map := list (string * json).
Record response := Response { resp_status : Z; resp_body : response_map }.

(** response.go:33-40 [JSONResponse] *)
Definition json_response (status : Z) (body : response_map) : response :=
  Response status (map_set body "ok" (JBool (if negb (status =? 200) then false else true))).
(** response.go:42-48 [JSONResponseArray]; None: the nil slice, whose length is 0 *)
Definition json_response_array (status : Z) (collection : option (list response_map)) : response :=
  json_response status
    (map_set (map_set [] "items" (match collection with Some l => JList (map JMap l) | None => JNull end))
             "count" (JInt (match collection with Some l => Z.of_nat (length l) | None => 0 end))).
(** response.go:50-54 [JSONResponseError] *)
Definition json_response_error (code : Z) (msg : string) : response :=
  json_response code [("ok"%string, JBool false); ("message"%string, JString msg)].

(** models/names.go, systems.go, version.go, root_response.go (ToResponseMap) with the controllers
    controllers/root.go:22-27, v1/names.go:19-23, v1/systems.go:19-23, v1/version.go:22-26 *)
Definition get_root : response := json_response 200 [("message"%string, JString "Hello. This is GoBCDiceAPI.")].
Definition get_systems (reg : registry) : response :=
  json_response 200 [("systems"%string, JList (map JString (available_game_ids reg true)))].
Definition info_json (i : system_info) : json :=
  JStruct [("system"%string, JString (si_system i)); ("name"%string, JString (si_name i)); ("sort_key"%string, JString (si_sort_key i))].
Definition get_names (reg : registry) : response :=
  json_response 200 [("names"%string, JList (map info_json (available_game_infos reg true)))].
Definition get_version (api bcdice : string) : response :=
  json_response 200 [("api"%string, JString api); ("bcdice"%string, JString bcdice)].

(** helpers/response.go:27-31 [JSONResponseObject] *)
Definition json_response_object (status : Z) (object : response_map) : response := json_response status object.
(** controllers/root.go:29-31, router.go:9-26, v1 Setup: the routes; echo answers anything else itself (not modelled).
    [reg]: the content of the registry of games. *)
Definition route_in (reg : registry) (api bcdice : string) (path : string) : option response :=
  if String.eqb path "/" then Some get_root
  else if String.eqb path "/v1/version" then Some (get_version api bcdice)
  else if String.eqb path "/v1/systems" then Some (get_systems reg)
  else if String.eqb path "/v1/names" then Some (get_names reg)
  else None.
(** The routes with the registry of this commit (list/list.go:89) *)
Definition route : string -> string -> string -> option response := route_in game_registry.
