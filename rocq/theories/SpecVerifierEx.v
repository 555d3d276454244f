(** Specification vocabulary for the example verifiers. *)
From Coq Require Import ZArith.
From Verif Require Import Base Utf8 Json JsonText Serde Url Effects Request Response Session Builder Server ExVerifier SpecRequest SpecJwe SpecBuilder.

(** A JSON object with exactly the given members. *)
Definition members_are (j : json) (l : list (string * json)) : Prop :=
  exists o, j = JObj o /\ keys_sorted o = true /\ forall k v, obj_get k o = Some v <-> In (k, v) l.

(** What the example verifier takes for a good response, and the information it then reports: any vp_token; and
    anything encrypted to its key that is JSON. *)
Definition taken (jwe_open : string -> res string) (r : auth_response) (info : json) : Prop :=
  (exists u, r = Unencoded u
     /\ members_are info [("message", JStr "Verification successful");
                          ("credentials_received", JInt (Z.of_nat (length (ur_vp_token u))))])
  \/ (exists jwe text v, r = Jwt jwe /\ jwe_open jwe = Ok text /\ json_of_text text = Some v
        /\ members_are info [("message", JStr "JARM response decrypted and verified"); ("decrypted_payload", v)]).

(** Something the verifier's key does not open to JSON. *)
Definition unopened (jwe_open : string -> res string) (jwe : string) : Prop :=
  forall text v, jwe_open jwe = Ok text -> json_of_text text <> Some v.

(** Answers of the status endpoint. *)
Definition says_status (j : json) (status message : string) : Prop :=
  members_are j [("status", JStr status); ("message", JStr message)].
Definition says_success (j : json) (info : json) : Prop :=
  members_are j [("status", JStr "complete"); ("result", JStr "success"); ("info", info)].
Definition says_failure (j : json) (reason : string) : Prop :=
  members_are j [("status", JStr "complete"); ("result", JStr "failure"); ("reason", JStr reason)].
Definition says_error (j : json) (cause : string) : Prop :=
  members_are j [("status", JStr "complete"); ("result", JStr "error"); ("cause", JStr cause)].
(** The answer that fits a status. *)
Definition tells (st : status) (j : json) : Prop :=
  match st with
  | SentRequestByReference => says_status j "sent_request_by_reference" "Waiting for wallet to fetch request"
  | SentRequest => says_status j "sent_request" "Request sent to wallet, waiting for response"
  | ReceivedResponse => says_status j "received_response" "Response received, processing"
  | Complete (OSuccess info) => says_success j info
  | Complete (OFailure reason) => says_failure j reason
  | Complete (OError cause) => says_error j cause
  end.

(** In the history of the server: the request was answered so; while it was handled, the response [r] was judged
    and the judgement was stored in session [u]. *)
Definition answered (l : list (hreq * hevent)) (h : hreq) (r : reply) : Prop := In (h, HReply r) l.
Definition judged (l : list (hreq * hevent)) (h : hreq) (u : uuid) (o : outcome) : Prop :=
  In (h, HDoes (EvUpdate u (Complete o) (Ok tt))) l.
(** A request that names no session, or a response that cannot be read. *)
Definition unreadable (h : hreq) : Prop :=
  match h with
  | HInitiate _ _ _ => False
  | HRequest sid | HStatus sid => uuid_of_string sid = None
  | HResponse sid body => utf8_valid body = false \/ uuid_of_string sid = None \/ forall r, from_form body <> Ok r
  end.

(** [r] is next to [base]: its last path segment replaced by [segment], without query and fragment. *)
Definition sibling (base : url) (segment : string) (r : url) : Prop :=
  u_opaque base = false /\ u_opaque r = false /\ u_scheme r = u_scheme base /\ u_auth r = u_auth base
  /\ u_query r = None /\ u_frag r = None
  /\ exists dir, u_path r = dir +:+ "/" +:+ segment
     /\ ((exists last, u_path base = dir +:+ "/" +:+ last /\ has_char "/" last = false)
         \/ has_char "/" (u_path base) = false /\ dir = "").
(** The endpoint for session [u] that belongs to [segment]. *)
Definition at_session (public : url) (segment : string) (u : uuid) (r : url) : Prop :=
  exists base, sibling public segment base /\ extended base (uuid_str u) r.

(** An object that has exactly these members. *)
Definition holds (o : obj) (l : list (string * json)) : Prop :=
  keys_sorted o = true /\ forall n v, obj_get n o = Some v <-> In (n, v) l.

(** What the example verifier says about itself: the formats it takes, and in the encrypted mode its key. *)
Definition declares (k : obj) (encrypted : bool) (meta : json) : Prop :=
  exists m key,
    meta = JObj m
    /\ holds m (("vp_formats_supported", JObj [("dc+sd-jwt", JObj [])])
                :: if encrypted then [("jwks", JObj [("keys", JArr [JObj key])])] else [])
    /\ (keys_sorted k = true -> keys_sorted key = true)
    /\ forall n, obj_get n key = if String.eqb n "kid" then Some (JStr "enc-key-1")
                                 else if String.eqb n "alg" then Some (JStr "ECDH-ES")
                                 else if String.eqb n "use" then Some (JStr "enc") else obj_get n k.

(** The request object of an initiated presentation. *)
Definition asks (o : obj) (dns nonce : string) (k : obj) (encrypted : bool) (response : url) : Prop :=
  exists meta, declares k encrypted meta
  /\ holds o [("client_id", JStr ("x509_san_dns:" +:+ dns));
              ("response_type", JStr "vp_token");
              ("response_mode", JStr (if encrypted then "direct_post.jwt" else "direct_post"));
              ("response_uri", JStr (url_str response));
              ("nonce", JStr nonce);
              ("client_metadata", meta);
              ("dcql_query",
                 JObj [("credentials", JArr [JObj [("format", JStr "dc+sd-jwt"); ("id", JStr "pid");
                                                   ("meta", JObj [("vct_values", JArr [JStr "urn:eudi:pid:1"])])]])])].

(** One HTTP request handled by the server on its own: the store before and after, and the answer. *)
Definition serves (url_parse : string -> option url) (jwe_open : string -> res string) (a : adapter)
    (h : hreq) (m m' : store) (r : reply) : Prop :=
  exists calls, run false (app_validator jwe_open) (handler url_parse a h) m = (m', calls, Ok r).
(** The HTTP response that carries an answer of the server. *)
Definition carries (x : res http_resp) (r : reply) : Prop :=
  match r with
  | RJson st j => x = Ok (mk_resp st (jprint j))
  | RJwt t => x = Ok (mk_resp 200 t)
  | RError st => exists text, x = Ok (mk_resp st text)
  end.
(** An HTTP client that talks to that server: what it fetches from the request endpoint of session [id] and what it
    then sends to the response endpoint of that session is answered by the server. *)
Definition relays (url_parse : string -> option url) (jwe_open : string -> res string) (a : adapter) (id : uuid)
    (request response : url) (m : store) (http : http_client) : Prop :=
  exists m1 r1,
    serves url_parse jwe_open a (HRequest (uuid_str id)) m m1 r1
    /\ (forall rq, rq_method rq = "GET" -> rq_uri rq = url_str request -> carries (http rq) r1)
    /\ (forall rq m2 r2, rq_method rq = "POST" -> rq_uri rq = url_str response ->
          serves url_parse jwe_open a (HResponse (uuid_str id) (rq_body rq)) m1 m2 r2 -> carries (http rq) r2).
(** A key with the key material of [k]. *)
Definition same_material (k key : obj) : Prop :=
  forall n, ~ In n ["kid"; "alg"; "use"] -> obj_get n key = obj_get n k.

(** The wallet to which the server sends the requests: the one of the conformance suite. *)
Definition conformance_wallet : string := "https://demo.certification.openid.net/test/a/my-verifier-oid4vp1/authorize".
