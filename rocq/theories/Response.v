(** /repo/src/core/response/{mod,parameters}.rs. *)
From Verif Require Import Base Utf8 Json JsonText Serde UrlEncoded Object Params.

(** [VpTokenItem], parameters.rs:129-134 (untagged). *)
Inductive vp_item := VpString (s : string) | VpObject (m : obj).
Definition item_to_json (i : vp_item) : json :=
  match i with VpString s => JStr s | VpObject m => JObj m end.
Definition item_of_json (j : json) : res vp_item :=
  match j with
  | JStr s => Ok (VpString s)
  | JObj m => Ok (VpObject m)
  | _ => Err "no-variant"
  end.

(** [VpToken(HashMap<String, Vec<VpTokenItem>>)], parameters.rs:57-59: entries with distinct keys in
    iteration order.  The iteration order of a [HashMap] is arbitrary. *)
Definition vp_token := list (string * list vp_item).
Definition vp_new : vp_token := [].                                    (** parameters.rs:63-65 *)
Definition vp_with_credential (id : string) (l : list vp_item) : vp_token := [(id, l)]. (** 68-75 *)
(** [insert], parameters.rs:78-80. *)
Fixpoint vp_insert (id : string) (l : list vp_item) (t : vp_token) : vp_token :=
  match t with
  | [] => [(id, l)]
  | (k, v) :: r => if String.eqb id k then (k, l) :: r else (k, v) :: vp_insert id l r
  end.
(** [get], parameters.rs:83-85. *)
Fixpoint vp_get (id : string) (t : vp_token) : option (list vp_item) :=
  match t with
  | [] => None
  | (k, v) :: r => if String.eqb id k then Some v else vp_get id r
  end.
Definition vp_is_empty (t : vp_token) : bool := match t with [] => true | _ => false end.
Definition vp_len (t : vp_token) : nat := length t.

(** The JSON members in iteration order. *)
Definition vp_members (t : vp_token) : list (string * json) :=
  map (fun e => (fst e, JArr (map item_to_json (snd e)))) t.
(** [From<VpToken> for Json], parameters.rs:121-127 ([to_value]). *)
Definition vp_to_json (t : vp_token) : json := JObj (obj_of_list (vp_members t)).
(** [serde_json::to_string(&vp_token)], response/mod.rs:122: members written as iterated. *)
Definition vp_print (t : vp_token) : string := jprint (JObj (vp_members t)).

(** Deserialising entries in order of appearance into the [HashMap]; each item goes through an
    untagged enum, so objects inside become maps (last duplicate wins). *)
Definition vp_of_entries (m : list (string * json)) : res vp_token :=
  let? l := mapM (fun kv => let? is := de_list (fun j => item_of_json (normalize j)) (snd kv) in
                            Ok (fst kv, is)) m in
  Ok (fold_left (fun t e => vp_insert (fst e) (snd e) t) l []).
(** [TryFrom<Json>], parameters.rs:113-119. *)
Definition vp_of_json (j : json) : res vp_token :=
  match j with JObj m => vp_of_entries m | _ => Err "expected-object" end.
(** [serde_json::from_str::<VpToken>], response/mod.rs:41-42. *)
Definition vp_of_text (s : string) : res vp_token :=
  match parse_raw s with Some j => vp_of_json j | None => Err "invalid-json" end.
Definition p_vp_token : tparam vp_token :=
  mk_tparam "vp_token" vp_of_json (infallible vp_to_json).
(** [IdToken], parameters.rs:14-33. *)
Definition p_id_token := p_string "id_token".

(** [UnencodedAuthorizationResponse], [JwtAuthorizationResponse], [AuthorizationResponse],
    response/mod.rs:18-23,71-82,132-136. *)
Record unencoded := mk_unencoded { ur_vp_token : vp_token; ur_state : option string }.
Inductive auth_response := Unencoded (u : unencoded) | Jwt (response : string).

(** [into_x_www_form_urlencoded], response/mod.rs:102-107,120-130. *)
Definition unencoded_pairs (u : unencoded) : list (string * string) :=
  ("vp_token", vp_print (ur_vp_token u)) ::
  match ur_state u with Some s => [("state", s)] | None => [] end.
Definition unencoded_form (u : unencoded) : string := form_serialize (unencoded_pairs u).
(** [JwtAuthorizationResponse::into_x_www_form_urlencoded], response/mod.rs:140-143. *)
Definition jwt_form (response : string) : string := form_serialize [("response", response)].

Definition field_values (k : string) (l : list (string * string)) : list string :=
  map snd (filter (fun kv => String.eqb (fst kv) k) l).

(** [from_x_www_form_urlencoded], response/mod.rs:31-50: derived struct deserialisers over the
    decoded pairs; unknown fields are ignored, a repeated field is an error. *)
Definition from_form (body : string) : res auth_response :=
  let ps := form_parse body in
  match field_values "response" ps with
  | [r] => Ok (Jwt r)
  | _ =>
      let? st := match field_values "state" ps with
                 | [] => Ok None
                 | [s] => Ok (Some s)
                 | _ => Err "duplicate field `state`"
                 end in
      let? vt := match field_values "vp_token" ps with
                 | [] => Err "missing field `vp_token`"
                 | [v] => Ok v
                 | _ => Err "duplicate field `vp_token`"
                 end in
      let? t := vp_of_text vt in
      Ok (Unencoded (mk_unencoded t st))
  end.

(** Derived [Serialize]/[Deserialize] (JSON) of the response types, response/mod.rs:18,71,132, and
    [TryFrom<UntypedObject>], 146-152. *)
Definition unencoded_to_json (u : unencoded) : json :=
  ser_struct [("vp_token", Some (vp_to_json (ur_vp_token u))); ("state", option_map JStr (ur_state u))].
Definition unencoded_of_json (j : json) : res unencoded :=
  let? fs := de_fields ["vp_token"; "state"] j in
  let? t := f_req vp_of_json (nth_fld 0 fs) in
  let? s := f_opt de_str (nth_fld 1 fs) in
  Ok (mk_unencoded t s).
Definition unencoded_of_obj (o : obj) : res unencoded := unencoded_of_json (JObj o).
Definition jwt_of_json (j : json) : res string :=
  let? fs := de_fields ["response"] j in f_req de_str (nth_fld 0 fs).
Definition response_to_json (r : auth_response) : json :=
  match r with Unencoded u => unencoded_to_json u | Jwt s => ser_struct [("response", Some (JStr s))] end.
Definition response_of_json (j : json) : res auth_response :=
  match unencoded_of_json j with
  | Ok u => Ok (Unencoded u)
  | Err _ => rmap Jwt (jwt_of_json j)
  end.
