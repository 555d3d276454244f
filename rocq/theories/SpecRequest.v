(** Specification vocabulary for authorization requests: what an object or a list of query pairs says,
    in terms of its members only. *)
From Verif Require Import Base Utf8 Json JsonText Base64 Serde Url Params Metadata Effects Request SpecObject.

(** The object has the text [s] under [k]; the object has nothing under [k]. *)
Definition text_at (k : string) (o : obj) (s : string) : Prop := obj_get k o = Some (JStr s).
Definition absent (k : string) (o : obj) : Prop := obj_get k o = None.

(** The response modes that post to a response URI, and those of the Digital Credentials API. *)
Definition says_direct_post (o : obj) : Prop :=
  absent "response_mode" o \/ text_at "response_mode" o "direct_post"
  \/ text_at "response_mode" o "direct_post.jwt".
Definition says_dc_api (o : obj) : Prop :=
  text_at "response_mode" o "dc_api" \/ text_at "response_mode" o "dc_api.jwt".

(** Acceptable request objects. *)
Definition acceptable (url_parse : string -> option url) (o : obj) : Prop :=
  (absent "client_id" o \/ exists c, text_at "client_id" o c)
  /\ (says_direct_post o /\ absent "redirect_uri" o
      /\ (exists s u, text_at "response_uri" o s /\ url_parse s = Some u)
      \/ says_dc_api o /\ absent "redirect_uri" o /\ absent "response_uri" o)
  /\ (exists t, text_at "response_type" o t)
  /\ (exists n, text_at "nonce" o n).

(** Among query pairs: [k] occurs exactly once, with value [v]; [v] is the last value of [k]. *)
Definition single (k v : string) (l : list (string * string)) : Prop :=
  exists a b, l = a ++ (k, v) :: b /\ ~ In k (map fst a) /\ ~ In k (map fst b).
Definition last_value (k v : string) (l : list (string * string)) : Prop :=
  exists a b, l = a ++ (k, v) :: b /\ ~ In k (map fst b).

(** Which request a list of query pairs denotes. *)
Definition denotes (url_parse : string -> option url) (l : list (string * string)) (r : auth_request) : Prop :=
  match ar_client_id r with
  | None => ~ In "client_id" (map fst l)
  | Some c => single "client_id" c l
  end
  /\ match ar_indirection r with
     | ByValue jwt => single "request" jwt l
     | ByReference u =>
         (forall j, ~ single "request" j l)
         /\ exists s, single "request_uri" s l /\ url_parse s = Some u
     | Direct o =>
         (forall j, ~ single "request" j l)
         /\ (forall s, single "request_uri" s l -> url_parse s = None)
         /\ keys_sorted o = true
         /\ (forall k v, obj_get k o = Some v
               <-> k <> "client_id" /\ exists s, v = JStr s /\ last_value k s l)
     end.

(** Requests a URL can carry: valid text; a URL that parses from its own text; direct parameters that are
    all text and whose names are not those of the other kinds of request. *)
Definition representable (url_parse : string -> option url) (r : auth_request) : Prop :=
  match ar_client_id r with Some c => utf8_valid c = true | None => True end
  /\ match ar_indirection r with
     | ByValue jwt => utf8_valid jwt = true
     | ByReference u => utf8_valid (url_str u) = true /\ url_parse (url_str u) = Some u
     | Direct o =>
         keys_sorted o = true
         /\ (forall k v, In (k, v) o -> exists s, v = JStr s /\ utf8_valid k = true /\ utf8_valid s = true)
         /\ ~ In "client_id" (map fst o) /\ ~ In "request" (map fst o) /\ ~ In "request_uri" (map fst o)
     end.

(** The text of a member in a URL: a string as it is, numbers and booleans as in JSON. *)
Definition in_url (v : json) (t : string) : Prop :=
  v = JStr t \/ t = jprint v /\ ((exists b, v = JBool b) \/ (exists z, v = JInt z) \/ exists f, v = JFloat f).

(** The HTTP requests and the verification hooks in a trace, in order. *)
Definition http_events (t : list wevent) : list http_req :=
  flat_map (fun e => match e with EHttp r => [r] | _ => [] end) t.
Definition hook_events (t : list wevent) : list (hook * aro * option string) :=
  flat_map (fun e => match e with EHook h a j => [(h, a, j)] | _ => [] end) t.

(** The protected header of a compact JWS, as an object. *)
Definition protected_header (jwt : string) (h : obj) : Prop :=
  exists h64 rest bytes,
    jwt = h64 +:+ "." +:+ rest /\ has_char "." h64 = false
    /\ b64url_decode h64 = Some bytes /\ json_of_text bytes = Some (JObj h).

(** The verification hook that the specification assigns to a client identifier prefix. *)
Definition known_hooks : list (string * hook) :=
  [("decentralized_identifier", HDid); ("openid_federation", HFederation); ("redirect_uri", HRedirectUri);
   ("verifier_attestation", HAttestation); ("x509_san_dns", HX509San); ("x509_hash", HX509Hash)].
Definition hook_of_prefix (prefix : option string) (h : hook) : Prop :=
  match prefix with
  | None => h = HPreregistered
  | Some p => In (p, h) known_hooks
              \/ h = HOther p /\ ~ In p (map fst known_hooks) /\ p <> "origin"
  end.

(** Client metadata of a request object; empty when the member is missing. *)
Definition client_metadata (o cm : obj) : Prop :=
  match obj_get "client_metadata" o with
  | None => cm = []
  | Some v => v = JObj cm
  end.
(** The key set, and the content encryption values (A128GCM when not given). A struct may also be
    given as the array of its fields. *)
Definition client_keys (cm : obj) (keys : list obj) : Prop :=
  exists v, obj_get "jwks" cm = Some v
    /\ ((exists o, v = JObj o /\ obj_get "keys" o = Some (JArr (map JObj keys)))
        \/ v = JArr [JArr (map JObj keys)]).
Definition client_encs (cm : obj) (encs : list string) : Prop :=
  match obj_get "encrypted_response_enc_values_supported" cm with
  | None => encs = ["A128GCM"]
  | Some v => v = JArr (map JStr encs)
  end.

(** [alg] is the algorithm of one of the keys marked for encryption. *)
Definition encryption_alg (keys : list obj) (alg : string) : Prop :=
  exists key, In key keys /\ text_at "use" key "enc" /\ text_at "alg" key alg.

(** The wallet does not restrict [k], or lists a value that satisfies [P]. *)
Definition wallet_allows (wm : wallet_metadata) (k : string) (P : string -> Prop) : Prop :=
  obj_get k (wm_obj wm) = None
  \/ exists l v, obj_get k (wm_obj wm) = Some (JArr (map JStr l)) /\ In v l /\ P v.

(** When the wallet can answer in an encrypted response mode. *)
Definition encryption_ok (wm : wallet_metadata) (cm : obj) : Prop :=
  exists keys encs, client_keys cm keys /\ client_encs cm encs
    /\ (exists alg, encryption_alg keys alg)
    /\ wallet_allows wm "authorization_encryption_alg_values_supported" (encryption_alg keys)
    /\ wallet_allows wm "authorization_encryption_enc_values_supported" (fun enc => In enc encs).

(** The prefix of the client identifier is in the wallet's list (pre-registered alone by default). *)
Definition prefix_ok (wm : wallet_metadata) (a : aro) : Prop :=
  forall prefix, ro_scheme a = Some prefix ->
    exists l, supported "client_id_prefixes_supported" ["pre-registered"] wm = Ok l /\ In prefix l.

(** The checks that come before every hook. *)
Definition metadata_accepts (wm : wallet_metadata) (a : aro) : Prop :=
  prefix_ok wm a
  /\ exists cm mode, client_metadata (aro_to_obj a) cm
     /\ text_at "response_mode" (aro_to_obj a) mode
     /\ (mode = "direct_post" \/ mode = "dc_api"
         \/ (mode = "direct_post.jwt" \/ mode = "dc_api.jwt") /\ encryption_ok wm cm).
