(** The example verifier: /repo/examples/verifier-conformance-adapter/{server/state,server/handlers,
    server/mod,crypto/jwe}.rs. *)
From Coq Require Import ZArith.
From Verif Require Import Base Utf8 Json JsonText Serde Url Object Formats Params Metadata Dcql Request Response
  Session X509 Client Builder Server.

(* ------------------------------------------------------------ external *)
(** [Uuid::from_str] (crate uuid 1.x, external), called at handlers.rs:97-99,131-133,234-236: 32 hexadecimal
    digits of either case, or the hyphenated form, also braced or as a URN. *)
Fixpoint hex_fold (s : string) (acc : N) : option N :=
  match s with
  | EmptyString => Some acc
  | String c r => match hex_val c with Some d => hex_fold r (acc * 16 + d)%N | None => None end
  end.
Definition hyphen_at (n : nat) (s : string) : bool :=
  match String.get n s with Some c => Ascii.eqb c "-" | None => false end.
Definition uuid_of_hyphenated (s : string) : option uuid :=
  if hyphen_at 8 s && hyphen_at 13 s && hyphen_at 18 s && hyphen_at 23 s then
    hex_fold (substring 0 8 s +:+ substring 9 4 s +:+ substring 14 4 s +:+ substring 19 4 s +:+ substring 24 12 s) 0
  else None.
Definition uuid_of_string (s : string) : option uuid :=
  let n := String.length s in
  if Nat.eqb n 32 then hex_fold s 0
  else if Nat.eqb n 36 then uuid_of_hyphenated s
  else if Nat.eqb n 38 then
    if starts_with "{" s && String.eqb (substring 37 1 s) "}" then uuid_of_hyphenated (substring 1 36 s) else None
  else if Nat.eqb n 45 then
    match strip_prefix "urn:uuid:" s with Some t => uuid_of_hyphenated t | None => None end
  else None.

(** [Url::join] (crate url, external) for a relative reference of one plain segment, as used at
    state.rs:93-95: the last segment of the path is replaced, query and fragment are dropped. *)
Definition join_last (u : url) (seg : string) : res url :=
  if u_opaque u then Err "relative URL with a cannot-be-a-base base"
  else
    let dir := match rsplit_once "/" (u_path u) with Some (d, _) => d | None => EmptyString end in
    Ok (mk_url (u_scheme u) (u_auth u) (dir +:+ "/" +:+ seg) false None None).

(* ------------------------------------------------------------ state *)
Definition WALLET_AUTHORIZATION_ENDPOINT :=                              (** state.rs:38-39 *)
  "https://demo.certification.openid.net/test/a/my-verifier-oid4vp1/authorize".

Definition sd_jwt_formats : format_map := [(OtherFormat "dc+sd-jwt", OtherPayload (JObj []))].

(** The published part of [generate_encryption_key], state.rs:300-305: [k] is the public key's JWK as p256
    writes it. *)
Definition published_key (k : obj) : obj :=
  obj_insert "kid" (JStr "enc-key-1") (obj_insert "alg" (JStr "ECDH-ES") (obj_insert "use" (JStr "enc") k)).
(** [build_client_metadata], state.rs:313-333. *)
Definition client_metadata_of (k : option obj) : obj :=
  let inner := uo_put p_vp_formats_supported sd_jwt_formats [] in
  match k with Some k => uo_put p_jwks [published_key k] inner | None => inner end.
(** [build_dcql_query], state.rs:135-152. *)
Definition app_query : dcql :=
  dcql_new [mk_cred "pid" (OtherFormat "dc+sd-jwt") [("vct_values", jstrs ["urn:eudi:pid:1"])]
              None None None None None].

(** [AppState], state.rs:52-58, without the displayed configuration and with the private key inside the
    decryption function below. *)
Record adapter := mk_app { ap_verifier : verifier; ap_wallet : wallet_metadata; ap_public : url }.

Section App.
Variable url_parse : string -> option url.

(** [create_wallet_metadata], state.rs:335-353. *)
Definition app_wallet (endpoint : url) : wallet_metadata :=
  let w := wm_new url_parse endpoint sd_jwt_formats None in
  mk_wm (uo_put p_client_id_prefixes [X509_SAN_DNS] (wm_obj w)) (wm_endpoint w) (wm_formats w).

(** [AppState::new], state.rs:71-133.  The certificate and the two keys, which the code generates or loads
    from its cache for the host of the public URL (state.rs:156-268,287-308), are arguments. *)
Definition app_new {key} (to_der : cert -> res string) (c : cert) (s : signer key) (k : obj)
    (public : url) (encrypted : bool) : res adapter :=
  let? endpoint := ok_or (url_parse WALLET_AUTHORIZATION_ENDPOINT) "invalid URL" in
  let? cl := x509_san_client to_der [c] s in
  let? submission := join_last public "response" in
  let? base := join_last public "request" in
  let mode := if encrypted then DirectPostJwt else DirectPost in
  let? v := vb_build
              (vb_with_default p_client_metadata (client_metadata_of (if encrypted then Some k else None))
                (vb_with_default p_response_mode mode
                  (vb_with_default p_response_type RtVpToken
                    (vb_by_reference base
                      (vb_with_submission submission
                        (vb_with_store (vb_with_client cl vb_new))))))) in
  Ok (mk_app v (app_wallet endpoint) public).

(* ------------------------------------------------------------ handlers *)
(** The answers of the server: JSON with a status code, the request object, and errors ([AppError],
    handlers.rs:279-296, whose message is not modelled). *)
Inductive reply := RJson (status : N) (body : json) | RJwt (jwt : string) | RError (status : N).

(** A program whose result, error or not, becomes an answer. *)
Fixpoint pfinish {A B} (f : res A -> B) (p : prog A) : prog B :=
  match p with
  | Done r => Done (Ok (f r))
  | Initiate s k => Initiate s (fun x => pfinish f (k x))
  | Update u st k => Update u st (fun x => pfinish f (k x))
  | Get u k => Get u (fun x => pfinish f (k x))
  | Remove u k => Remove u (fun x => pfinish f (k x))
  | Validate s r k => Validate s r (fun x => pfinish f (k x))
  end.

(** [initiate_request], handlers.rs:47-87.  [fresh] and [id] are the two UUIDs drawn (the second inside
    [build]).  The parsing of the JSON body into the optional nonce is axum's. *)
Definition initiate_nonce (nonce : option string) (fresh : uuid) : string :=
  match nonce with Some n => n | None => uuid_str fresh end.
Definition initiate_builder (a : adapter) (nonce : option string) (fresh : uuid) : request_builder :=
  rb_with_param p_nonce (initiate_nonce nonce fresh) (rb_with_dcql app_query (rb_new (ap_verifier a))).
Definition status_url (a : adapter) (id : uuid) : string := url_str (ap_public a) +:+ "/status/" +:+ uuid_str id.
Definition initiate_reply (a : adapter) (id : uuid) (r : res url) : reply :=
  match r with
  | Ok dest => RJson 200 (JObj [("authorization_url", JStr (url_str dest)); ("session_id", JStr (uuid_str id));
                                ("status_url", JStr (status_url a id))])
  | Err _ => RError 500
  end.
Definition initiate_request (a : adapter) (nonce : option string) (fresh id : uuid) : prog reply :=
  pfinish (initiate_reply a id) (build_code url_parse (initiate_builder a nonce fresh) id (ap_wallet a)).

(** [get_request_object], handlers.rs:93-120. *)
Definition request_reply (r : res string) : reply := match r with Ok jwt => RJwt jwt | Err _ => RError 404 end.
Definition get_request_object (sid : string) : prog reply :=
  match uuid_of_string sid with
  | None => Done (Ok (RError 400))
  | Some u => pfinish request_reply (retrieve_code u)
  end.

(** [receive_response], handlers.rs:126-225, up to the validator.  axum's [String] extractor answers a body
    that is not UTF-8 with 400. *)
Definition response_reply (r : res unit) : reply := match r with Ok _ => RJson 200 (JObj []) | Err _ => RError 500 end.
Definition receive_response (sid body : string) : prog reply :=
  if utf8_valid body then
    match uuid_of_string sid with
    | None => Done (Ok (RError 400))
    | Some u => match from_form body with
                | Err _ => Done (Ok (RError 400))
                | Ok r => pfinish response_reply (verify_code u r)
                end
    end
  else Done (Ok (RError 400)).

(** [get_status], handlers.rs:230-277. *)
Definition status_json (st : status) : json :=
  match st with
  | SentRequestByReference =>
      JObj [("message", JStr "Waiting for wallet to fetch request"); ("status", JStr "sent_request_by_reference")]
  | ReceivedResponse =>
      JObj [("message", JStr "Response received, processing"); ("status", JStr "received_response")]
  | SentRequest =>
      JObj [("message", JStr "Request sent to wallet, waiting for response"); ("status", JStr "sent_request")]
  | Complete (OSuccess info) =>
      JObj [("info", info); ("result", JStr "success"); ("status", JStr "complete")]
  | Complete (OFailure reason) =>
      JObj [("reason", JStr reason); ("result", JStr "failure"); ("status", JStr "complete")]
  | Complete (OError cause) =>
      JObj [("cause", JStr cause); ("result", JStr "error"); ("status", JStr "complete")]
  end.
Definition status_reply (r : res status) : reply :=
  match r with Ok st => RJson 200 (status_json st) | Err _ => RError 404 end.
Definition get_status (sid : string) : prog reply :=
  match uuid_of_string sid with
  | None => Done (Ok (RError 400))
  | Some u => pfinish status_reply (poll_code u)
  end.

(** [decrypt_jwe], jwe.rs:8-23.  [jwe_open] is josekit's decryption with the verifier's private key. *)
Variable jwe_open : string -> res string.
Definition decrypt (jwe : string) : res json :=
  let? payload := jwe_open jwe in ok_or (json_of_text payload) "Failed to parse decrypted payload".
(** The validator, handlers.rs:153-216. *)
Definition app_validator (s : session) (r : auth_response) : outcome :=
  match r with
  | Unencoded u =>
      OSuccess (JObj [("credentials_received", JInt (Z.of_nat (vp_len (ur_vp_token u))));
                      ("message", JStr "Verification successful")])
  | Jwt jwe =>
      match decrypt jwe with
      | Ok v => OSuccess (JObj [("decrypted_payload", v); ("message", JStr "JARM response decrypted and verified")])
      | Err e => OError ("Failed to decrypt JARM: " +:+ e)
      end
  end.

(* ------------------------------------------------------------ the server *)
(** HTTP requests, by route (server/mod.rs:16-27). *)
Inductive hreq :=
| HInitiate (nonce : option string) (fresh id : uuid)
| HRequest (sid : string)
| HResponse (sid body : string)
| HStatus (sid : string).
Definition handler (a : adapter) (h : hreq) : prog reply :=
  match h with
  | HInitiate nonce fresh id => initiate_request a nonce fresh id
  | HRequest sid => get_request_object sid
  | HResponse sid body => receive_response sid body
  | HStatus sid => get_status sid
  end.
(** Routing of a path to the status handler: one non-empty segment after "/status/" (server/mod.rs:24; axum's
    matching, external). *)
Definition status_route (path : string) : option string :=
  match strip_prefix "/status/" path with
  | Some seg => if String.eqb seg EmptyString || has_char "/" seg then None else Some seg
  | None => None
  end.

(** The running server: the store, the requests being handled, and what happened so far (newest first). *)
Inductive hevent := HDoes (e : event) | HReply (r : reply).
Record hsys := mk_hsys {
  hs_store : store;
  hs_tasks : list (hreq * prog reply);
  hs_log : list (hreq * hevent)
}.
(** As [step] of Server.v, with the handlers in place of the library's entry points, and the example's
    validator.  Dropping a request is a client going away or the timeout of server/mod.rs:31-34. *)
Inductive hstep (a : adapter) : hsys -> hsys -> Prop :=
| h_start : forall m ts l h, hstep a (mk_hsys m ts l) (mk_hsys m ((h, handler a h) :: ts) l)
| h_act : forall m m' pre h p p' post l e,
    act m p m' p' e ->
    (forall s r o, e = EvValidate s r o -> o = app_validator s r) ->
    hstep a (mk_hsys m (pre ++ (h, p) :: post) l) (mk_hsys m' (pre ++ (h, p') :: post) ((h, HDoes e) :: l))
| h_return : forall m pre h r post l,
    hstep a (mk_hsys m (pre ++ (h, Done (Ok r)) :: post) l) (mk_hsys m (pre ++ post) ((h, HReply r) :: l))
| h_drop : forall m pre h p post l,
    hstep a (mk_hsys m (pre ++ (h, p) :: post) l) (mk_hsys m (pre ++ post) l).
Inductive hsteps (a : adapter) : hsys -> hsys -> Prop :=
| hsteps_refl : forall x, hsteps a x x
| hsteps_snoc : forall x y z, hsteps a x y -> hstep a y z -> hsteps a x z.
Definition hs_init : hsys := mk_hsys [] [] [].
Definition hreachable (a : adapter) (x : hsys) : Prop := hsteps a hs_init x.
End App.
