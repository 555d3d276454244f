(** The example wallet behind its web server (C102, C103) *)
From Coq Require Import Lia.
From Verif Require Import Base BaseFacts Utf8 Json JsonFacts JsonText Base64 Base64Facts Serde Url UrlEncoded Object Formats Params
  Metadata Dcql Effects Jwt Request Response Jwe ExMatcher ExWallet ExMetadata ExHttp SpecRequest PfRequest PfResolve SpecDcql PfDcql
  SpecResponse SpecExample PfExample SpecHttp.
From Verif Require Import PfHttp.

(** C102: the parameters are read exactly from the forms in which each known name occurs at most once, with the values
    given there. *)
Theorem c102_params :
  forall (text : string) (p : params), read_params text = Ok p <-> gives text p.
Proof. exact c102_params_pf. Qed.
Print Assumptions c102_params.

Example c102_params_witness :
  read_params "state=a%20b&other=1&other=2&nonce=&request_uri=https%3A%2F%2Fv.example%2Fr"
  = Ok (mk_params None None (Some "https://v.example/r") None (Some "") (Some "a b") None None None)
  /\ read_params "state=a&state=a" = Err "duplicate field".
Proof. exact c102_params_ex. Qed.

(** C102: the effects of the endpoint are those of the wallet; a success is answered by 200 and the redirect, everything
    else by one of seven codes with its status. *)
Theorem c102_outcome :
  forall (url_parse : string -> option url) (ssi_header : obj -> option bool) (uri_ok : string -> bool)
    (jwk_ok : obj -> bool) (jwe_encrypt : obj -> obj -> obj -> res string) (lower sign : string -> string) (now : Z)
    (http : http_client) (endpoint : url) (store : list credential) (auto_consent : bool)
    (describe : string -> string) (reason : N -> string) (p : params),
    let run := authorize url_parse ssi_header uri_ok jwk_ok jwe_encrypt lower sign now http endpoint store auto_consent p in
    let r := process url_parse ssi_header uri_ok jwk_ok jwe_encrypt lower sign now http endpoint store auto_consent describe reason p in
    fst r = fst run
    /\ (forall x, snd run = Ok x -> success_page x (snd r))
    /\ (forall e, snd run = Err e ->
          exists code state, In (hr_status (snd r), code) (early_errors ++ late_errors) /\ error_page code state (snd r)).
Proof. exact c102_outcome_pf. Qed.
Print Assumptions c102_outcome.

Example c102_outcome_witness :
  snd (hx_process hx_redirect [pid] hx_good) = success_reply (Some "https://v.example/done")
  /\ map rq_method (http_events (fst (hx_process hx_redirect [pid] hx_good))) = ["POST"; "GET"]
  /\ hr_status (snd (hx_process hx_redirect [] hx_good)) = 400%N.
Proof. exact c102_outcome_ex. Qed.

(** C102: what the status says about the presentation: 200 if and only if it was posted and accepted; 502 if and only if
    it was posted and refused or not delivered, with the code telling which; 400 and 500 if and only if nothing was
    posted. *)
Theorem c102_sent :
  forall (url_parse : string -> option url) (ssi_header : obj -> option bool) (uri_ok : string -> bool)
    (jwk_ok : obj -> bool) (jwe_encrypt : obj -> obj -> obj -> res string) (lower sign : string -> string) (now : Z)
    (http : http_client) (endpoint : url) (store : list credential) (auto_consent : bool)
    (describe : string -> string) (reason : N -> string) (p : params),
    let r := process url_parse ssi_header uri_ok jwk_ok jwe_encrypt lower sign now http endpoint store auto_consent describe reason p in
    let sent := posts (http_events (fst r)) in
    (hr_status (snd r) = 200%N <-> exists q rs, sent = [q] /\ http q = Ok rs /\ (200 <= rs_status rs < 300)%N)
    /\ ((exists state, error_page "verifier_error" state (snd r))
        <-> exists q rs, sent = [q] /\ http q = Ok rs /\ ~ (200 <= rs_status rs < 300)%N)
    /\ ((exists state, error_page "submission_failed" state (snd r)) <-> exists q e, sent = [q] /\ http q = Err e)
    /\ (hr_status (snd r) = 502%N <->
        exists code state, (code = "verifier_error" \/ code = "submission_failed") /\ error_page code state (snd r))
    /\ (hr_status (snd r) = 400%N \/ hr_status (snd r) = 500%N <-> sent = []).
Proof. exact c102_sent_pf. Qed.
Print Assumptions c102_sent.

Example c102_sent_witness :
  hr_status (snd (hx_process (serve 500 "broken") [pid] hx_good)) = 502%N
  /\ map rq_uri (posts (http_events (fst (hx_process (serve 500 "broken") [pid] hx_good)))) = ["https://v.example/resp"]
  /\ hr_status (snd (hx_process (fun _ => Err "refused") [pid] hx_good)) = 502%N
  /\ hr_status (snd (hx_process (serve 200 "") [] hx_good)) = 400%N.
Proof. exact c102_sent_ex. Qed.

(** C102: the state of an error page: the one given with the request for the errors found before an answer is made,
    after that the one of the request object, if it has a readable one. *)
Theorem c102_echo :
  forall (url_parse : string -> option url) (ssi_header : obj -> option bool) (uri_ok : string -> bool)
    (jwk_ok : obj -> bool) (jwe_encrypt : obj -> obj -> obj -> res string) (lower sign : string -> string) (now : Z)
    (http : http_client) (endpoint : url) (store : list credential) (auto_consent : bool)
    (describe : string -> string) (reason : N -> string) (p : params) (code : string) (state : option string),
    error_page code state
      (snd (process url_parse ssi_header uri_ok jwk_ok jwe_encrypt lower sign now http endpoint store auto_consent describe reason p)) ->
    (In code (map snd early_errors) /\ state = pa_state p)
    \/ (In code (map snd late_errors)
        /\ exists ar a jwt, from_url url_parse (build_request_url endpoint p) endpoint = Ok ar
             /\ snd (resolve_request url_parse ssi_header uri_ok http ar) = Ok (a, jwt) /\ state = echoed a (pa_state p)).
Proof. exact c102_echo_pf. Qed.
Print Assumptions c102_echo.

Example c102_echo_witness :
  snd (hx_process (serve 500 "broken") [pid] hx_inner)
  = error_reply 502 "verifier_error" "Verifier returned 500 Internal Server Error: broken" (Some "inner")
  /\ snd (hx_process (serve 500 "broken") [] hx_inner) = error_reply 400 "access_denied" "no matching credential" (Some "outer").
Proof. exact c102_echo_ex. Qed.

(** C102: a request is denied exactly if it can be read, with a query, and consent is not given or the credentials do not
    answer the query. *)
Theorem c102_denied :
  forall (url_parse : string -> option url) (ssi_header : obj -> option bool) (uri_ok : string -> bool)
    (jwk_ok : obj -> bool) (jwe_encrypt : obj -> obj -> obj -> res string) (lower sign : string -> string) (now : Z)
    (http : http_client) (endpoint : url) (store : list credential) (auto_consent : bool)
    (describe : string -> string) (reason : N -> string) (p : params),
    (exists state, error_page "access_denied" state
       (snd (process url_parse ssi_header uri_ok jwk_ok jwe_encrypt lower sign now http endpoint store auto_consent describe reason p)))
    <-> exists ar a jwt d, from_url url_parse (build_request_url endpoint p) endpoint = Ok ar
          /\ snd (resolve_request url_parse ssi_header uri_ok http ar) = Ok (a, jwt)
          /\ aro_dcql a = Some (Ok d) /\ ~ (auto_consent = true /\ answerable lower store d).
Proof. exact c102_denied_pf. Qed.
Print Assumptions c102_denied.

Example c102_denied_witness :
  error_page "access_denied" (Some "outer") (snd (hx_process (serve 200 "") [] hx_good)).
Proof. exact c102_denied_ex. Qed.

(** C102: the server acts only on GET, HEAD and POST to the authorization endpoint, with the parameters given there; what
    it does is what the wallet does for them, or a beginning of it when the time is up. *)
Theorem c102_effects :
  forall (url_parse : string -> option url) (ssi_header : obj -> option bool) (uri_ok : string -> bool)
    (jwk_ok : obj -> bool) (jwe_encrypt : obj -> obj -> obj -> res string) (lower sign : string -> string) (now : Z)
    (http : http_client) (endpoint : url) (store : list credential) (auto_consent : bool)
    (describe : string -> string) (reason : N -> string) (public_url : url) (point : string * string)
    (cut : option nat) (q : hrequest),
    let r := serve_http url_parse ssi_header uri_ok jwk_ok jwe_encrypt lower sign now http endpoint store auto_consent describe reason
               public_url point cut q in
    let run p := authorize url_parse ssi_header uri_ok jwk_ok jwe_encrypt lower sign now http endpoint store auto_consent p in
    (fst r <> [] ->
     hq_path q = "/authorize"
     /\ exists text p rest, form_of q text /\ gives text p /\ fst (run p) = fst r ++ rest /\ (cut = None -> rest = []))
    /\ (forall text p, hq_path q = "/authorize" -> form_of q text -> gives text p ->
          (N.of_nat (String.length (hq_body q)) <= 1048576)%N -> cut = None -> fst r = fst (run p)).
Proof. exact c102_effects_pf. Qed.
Print Assumptions c102_effects.

Example c102_effects_witness :
  snd (hx_serve hx_redirect [pid] None (hx_post hx_good)) = success_reply (Some "https://v.example/done")
  /\ fst (hx_serve hx_redirect [pid] None (hx_post hx_good)) = fst (hx_process hx_redirect [pid] hx_good)
  /\ fst (hx_serve hx_redirect [pid] None (hx_get "DELETE" hx_good)) = [].
Proof. exact c102_effects_ex. Qed.

(** C102: what is refused before the wallet sees it, and how: nothing is done, and the status says why. *)
Theorem c102_refused :
  forall (url_parse : string -> option url) (ssi_header : obj -> option bool) (uri_ok : string -> bool)
    (jwk_ok : obj -> bool) (jwe_encrypt : obj -> obj -> obj -> res string) (lower sign : string -> string) (now : Z)
    (http : http_client) (endpoint : url) (store : list credential) (auto_consent : bool)
    (describe : string -> string) (reason : N -> string) (public_url : url) (point : string * string) (q : hrequest),
    let r := serve_http url_parse ssi_header uri_ok jwk_ok jwe_encrypt lower sign now http endpoint store auto_consent describe reason
               public_url point None q in
    let refused status := r = ([], mk_hreply status None) in
    let m := hq_method q in
    ((1048576 < N.of_nat (String.length (hq_body q)))%N -> refused 413%N)
    /\ ((N.of_nat (String.length (hq_body q)) <= 1048576)%N ->
        (m = "OPTIONS" -> refused 200%N)
        /\ (m <> "OPTIONS" ->
            (~ In (hq_path q) ("/authorize" :: page_paths) -> refused 404%N)
            /\ (In (hq_path q) page_paths -> ~ In m ["GET"; "HEAD"] -> refused 405%N)
            /\ (hq_path q = "/authorize" ->
                (~ In m ["GET"; "HEAD"; "POST"] -> refused 405%N)
                /\ (forall text, In m ["GET"; "HEAD"] -> form_of q text -> repeats text -> refused 400%N)
                /\ (m = "POST" -> ~ says_form q -> refused 415%N)
                /\ (m = "POST" -> says_form q -> repeats (hq_body q) -> refused 422%N)))).
Proof. exact c102_refused_pf. Qed.
Print Assumptions c102_refused.

Example c102_refused_witness :
  hx_serve hx_redirect [pid] None (mk_hrequest "GET" "/authorize" (Some "state=1&nonce=2&state=1") None "") = ([], mk_hreply 400 None)
  /\ hx_serve hx_redirect [pid] None (mk_hrequest "POST" "/authorize" None (Some "application/json") "{}") = ([], mk_hreply 415 None)
  /\ hx_serve hx_redirect [pid] None (mk_hrequest "POST" "/health" None None "") = ([], mk_hreply 405 None)
  /\ hx_serve hx_redirect [pid] None (mk_hrequest "GET" "/authorize/" None None "") = ([], mk_hreply 404 None).
Proof. exact c102_refused_ex. Qed.

(** C103: whoever talks to the server, and is not the verifier, learns nothing about the credentials, the claim values or
    the holder's key from the replies: they are the same for any two wallets with credentials that look the same from
    outside, if the verifier answers both in the same way. *)
Theorem c103_private :
  forall (url_parse : string -> option url) (ssi_header : obj -> option bool) (uri_ok : string -> bool)
    (jwk_ok : obj -> bool) (jwe_encrypt : obj -> obj -> obj -> res string) (lower sign sign' : string -> string) (now now' : Z)
    (http : http_client) (endpoint : url) (store store' : list credential) (auto_consent : bool)
    (describe : string -> string) (reason : N -> string) (public_url : url) (point : string * string)
    (cut : option nat) (q : hrequest),
    Forall2 same_outside store store' -> blind http -> uniform jwe_encrypt ->
    snd (serve_http url_parse ssi_header uri_ok jwk_ok jwe_encrypt lower sign now http endpoint store auto_consent describe reason
           public_url point cut q)
    = snd (serve_http url_parse ssi_header uri_ok jwk_ok jwe_encrypt lower sign' now' http endpoint store' auto_consent describe reason
             public_url point cut q).
Proof. exact c103_private_pf. Qed.
Print Assumptions c103_private.

Example c103_private_witness :
  Forall2 same_outside [pid] [pid'] /\ blind hx_redirect
  /\ map rq_body (posts (http_events (fst (hx_serve hx_redirect [pid] None (hx_post hx_good)))))
     <> map rq_body (posts (http_events (fst (hx_serve hx_redirect [pid'] None (hx_post hx_good)))))
  /\ hr_status (snd (hx_serve hx_redirect [pid'] None (hx_post hx_good))) = 200%N.
Proof. exact c103_private_ex. Qed.

(** C102: HEAD does all that GET does, and answers with the same status, without a body. *)
Theorem c102_head :
  forall (url_parse : string -> option url) (ssi_header : obj -> option bool) (uri_ok : string -> bool)
    (jwk_ok : obj -> bool) (jwe_encrypt : obj -> obj -> obj -> res string) (lower sign : string -> string) (now : Z)
    (http : http_client) (endpoint : url) (store : list credential) (auto_consent : bool)
    (describe : string -> string) (reason : N -> string) (public_url : url) (point : string * string)
    (cut : option nat) (path : string) (query content_type : option string) (body : string),
    let by_method m := serve_http url_parse ssi_header uri_ok jwk_ok jwe_encrypt lower sign now http endpoint store auto_consent
                         describe reason public_url point cut (mk_hrequest m path query content_type body) in
    fst (by_method "HEAD") = fst (by_method "GET")
    /\ hr_status (snd (by_method "HEAD")) = hr_status (snd (by_method "GET")) /\ hr_json (snd (by_method "HEAD")) = None.
Proof. exact c102_head_pf. Qed.
Print Assumptions c102_head.

Example c102_head_witness :
  map rq_method (http_events (fst (hx_serve hx_redirect [pid] None (hx_get "HEAD" hx_good)))) = ["POST"; "GET"]
  /\ snd (hx_serve hx_redirect [pid] None (hx_get "HEAD" hx_good)) = mk_hreply 200 None.
Proof. exact c102_head_ex. Qed.

(** C103: the key set page holds the holder's public point and nothing secret. *)
Theorem c103_jwks :
  forall (url_parse : string -> option url) (ssi_header : obj -> option bool) (uri_ok : string -> bool)
    (jwk_ok : obj -> bool) (jwe_encrypt : obj -> obj -> obj -> res string) (lower sign : string -> string) (now : Z)
    (http : http_client) (endpoint : url) (store : list credential) (auto_consent : bool)
    (describe : string -> string) (reason : N -> string) (public_url : url) (x y : string)
    (query content_type : option string) (body : string),
    (N.of_nat (String.length body) <= 1048576)%N ->
    exists key,
      serve_http url_parse ssi_header uri_ok jwk_ok jwe_encrypt lower sign now http endpoint store auto_consent describe reason
        public_url (x, y) None (mk_hrequest "GET" "/.well-known/jwks.json" query content_type body)
      = ([], mk_hreply 200 (Some (JObj [("keys", JArr [JObj key])])))
      /\ (exists bx b_y, text_at "x" key bx /\ b64url_decode bx = Some x /\ text_at "y" key b_y /\ b64url_decode b_y = Some y)
      /\ text_at "kty" key "EC" /\ text_at "crv" key "P-256" /\ text_at "alg" key "ES256" /\ text_at "use" key "sig"
      /\ forall k, In k private_members -> absent k key.
Proof. exact c103_jwks_pf. Qed.
Print Assumptions c103_jwks.

Example c103_jwks_witness :
  snd (hx_serve hx_redirect [pid] None (mk_hrequest "GET" "/.well-known/jwks.json" None None ""))
  = mk_hreply 200 (Some (JObj [("keys", JArr [public_jwk ("X", "Y")])])).
Proof. exact c103_jwks_ex. Qed.

(** C102: a timeout says nothing about the presentation: the caller may be told 408 although it was delivered and
    accepted. *)
Theorem c102_timeout_refuted :
  exists (http : http_client) (store : list credential) (q : hrequest) (n : nat) (r : http_req) (rs : http_resp),
    hr_status (snd (hx_serve http store (Some n) q)) = 408%N
    /\ posts (http_events (fst (hx_serve http store (Some n) q))) = [r] /\ http r = Ok rs /\ rs_status rs = 200%N.
Proof. exact c102_timeout_refuted_pf. Qed.
Print Assumptions c102_timeout_refuted.
