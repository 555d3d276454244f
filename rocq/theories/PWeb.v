(** The example verifier's web server (C105) *)
From Coq Require Import Lia ZArith.
From Verif Require Import Base BaseFacts Utf8 Json JsonFacts JsonText Serde Url UrlEncoded Object Formats Params Metadata Dcql
  Request Response Session X509 Client Builder Server ExVerifier ExHttp ExWeb.
From Verif Require Import Utf8Facts Spec SpecJsonText GrammarFacts SpecEncodings PfEncodings SpecBuilder SpecSession StoreFacts PfBuilder UuidFacts
  PfSession PfServer SpecVerifierEx PfExServer SpecWeb.
From Verif Require Import PfWeb.

(** C105: each handler is called exactly for the requests it is meant for. *)
Theorem c105_routes :
  forall (json_type : string -> bool) (read_initiate : string -> initiate_body) (w : wreq),
    let q := w_http w in
    let goes_to := dispatch json_type read_initiate w in
    (forall sid, goes_to = To (HStatus sid) <-> reads (hq_method q) /\ names_session "status" (hq_path q) sid)
    /\ (forall sid, goes_to = To (HRequest sid) <-> reads (hq_method q) /\ names_session "request" (hq_path q) sid)
    /\ (forall sid body, goes_to = To (HResponse sid body) <->
          hq_method q = "POST" /\ names_session "response" (hq_path q) sid /\ body = hq_body q /\ fits q)
    /\ (forall nonce fresh id, goes_to = To (HInitiate nonce fresh id) <->
          hq_method q = "POST" /\ hq_path q = "/initiate" /\ says_json json_type q /\ fits q
          /\ read_initiate (hq_body q) = Nonce nonce /\ fresh = w_fresh w /\ id = w_id w)
    /\ (goes_to = Health <-> reads (hq_method q) /\ hq_path q = "/health").
Proof. exact c105_routes_pf. Qed.
Print Assumptions c105_routes.

Example c105_routes_witness :
  dispatch toy_json toy_initiate toy_respond = To (HResponse ("{" +:+ toy_sid +:+ "}") "response=a.b.c")
  /\ uuid_of_string ("{" +:+ toy_sid +:+ "}") = Some 7%N
  /\ dispatch toy_json toy_initiate toy_post = To (HInitiate (Some "nonce") 1%N 7%N)
  /\ dispatch toy_json toy_initiate (toy_fetch "HEAD") = To (HRequest toy_sid)
  /\ dispatch toy_json toy_initiate toy_ask = To (HStatus toy_sid)
  /\ dispatch toy_json toy_initiate (toy_http "GET" "/health" None "") = Health.
Proof. exact c105_routes_ex. Qed.

(** C105: any other request is sent back, with a status code that says why. *)
Theorem c105_refused :
  forall (json_type : string -> bool) (read_initiate : string -> initiate_body) (w : wreq),
    let q := w_http w in
    let m := hq_method q in
    let p := hq_path q in
    let sent_back n := dispatch json_type read_initiate w = Refuse n in
    let initiating := m = "POST" /\ p = "/initiate" in
    (forall n, sent_back n -> In n [200; 400; 404; 405; 413; 415; 422]%N)
    /\ (sent_back 200%N <-> m = "OPTIONS")
    /\ (sent_back 404%N <-> m <> "OPTIONS" /\ ~ known p)
    /\ (sent_back 405%N <-> m <> "OPTIONS" /\ known p /\ ~ allowed p m)
    /\ (sent_back 415%N <-> initiating /\ ~ says_json json_type q)
    /\ (sent_back 413%N <-> ~ fits q /\ (initiating /\ says_json json_type q
                                         \/ m = "POST" /\ exists sid, names_session "response" p sid))
    /\ (sent_back 422%N <-> initiating /\ says_json json_type q /\ fits q /\ read_initiate (hq_body q) = Unsuitable)
    /\ (sent_back 400%N <-> initiating /\ says_json json_type q /\ fits q /\ read_initiate (hq_body q) = Malformed
                            \/ allowed p m /\ (garbled "request" p \/ garbled "response" p \/ garbled "status" p)).
Proof. exact c105_refused_pf. Qed.
Print Assumptions c105_refused.

Example c105_refused_witness :
  map (dispatch toy_json toy_initiate)
    [toy_http "OPTIONS" "/nowhere" None ""; toy_http "GET" "/status/%ff" None ""; toy_http "GET" "/status/a/b" None "";
     toy_http "GET" "/status/" None ""; toy_http "DELETE" "/status/a" None ""; toy_http "POST" "/initiate" None "{}";
     toy_http "POST" "/initiate" (Some "application/json") "{""nonce"":1}"; toy_http "POST" "/initiate" (Some "application/json") "{"]
  = map Refuse [200; 400; 404; 404; 405; 415; 422; 400]%N.
Proof. exact c105_refused_ex. Qed.

(** C105: whatever happens at the web server, it does what the handlers do when they are called for the requests that
    reach them, in some execution of the handlers: the sessions are the same, the same operations are done for the same
    requests in the same order, and the answers are those of the handlers, except that requests may be answered with a
    timeout and that those that reach no handler are answered without one, health checks with the text that all is well. *)
Theorem c105_behaves :
  forall (url_parse : string -> option url) (jwe_open : string -> res string) (json_type : string -> bool)
    (read_initiate : string -> initiate_body) (a : adapter) (x : wsys),
    wreachable url_parse jwe_open json_type read_initiate a x ->
    exists y, hreachable url_parse jwe_open a y /\ hs_store y = ws_store x
      /\ records (fun w h => dispatch json_type read_initiate w = To h)
           (fun w x => (exists n, dispatch json_type read_initiate w = Refuse n /\ x = (n, CNone))
                       \/ dispatch json_type read_initiate w = Health /\ healthy (w_http w) x)
           (ws_log x) (hs_log y).
Proof. exact c105_behaves_pf. Qed.
Print Assumptions c105_behaves.

Example c105_behaves_witness :
  exists x, wreachable simple_parse toy_open toy_json toy_initiate (toy_adapter true) x
    /\ In (toy_ask, WReply (200%N, CJson (status_json (Complete (app_validator toy_open (toy_session 7%N) (Jwt "a.b.c")))))) (ws_log x).
Proof. exact c105_behaves_ex. Qed.

(** C105: over HTTP, too, success is reported for a session only if a POST to that session's response endpoint carried
    a response that the verifier takes for good, the report is about that response, and the verdict was recorded for
    that request. *)
Theorem c105_success :
  forall (url_parse : string -> option url) (jwe_open : string -> res string) (json_type : string -> bool)
    (read_initiate : string -> initiate_body) (a : adapter) (x : wsys) (w : wreq) (u : uuid) (j info : json),
    wreachable url_parse jwe_open json_type read_initiate a x ->
    fetches "status" (w_http w) u -> In (w, WReply (200%N, CJson j)) (ws_log x) -> says_success j info ->
    exists w' r, responds (w_http w') u
      /\ In (w', WDoes (EvUpdate u (Complete (OSuccess info)) (Ok tt))) (ws_log x)
      /\ from_form (hq_body (w_http w')) = Ok r /\ taken jwe_open r info.
Proof. exact c105_success_pf. Qed.
Print Assumptions c105_success.

Example c105_success_witness :
  exists x w j info, wreachable simple_parse toy_open toy_json toy_initiate (toy_adapter true) x
    /\ fetches "status" (w_http w) 7%N /\ In (w, WReply (200%N, CJson j)) (ws_log x) /\ says_success j info.
Proof. exact c105_success_ex. Qed.

(** C105: a request leads to operations on the session it names only (or on the one it creates), and only to those its
    endpoint is for: creating at /initiate, reading at the status endpoint, reading and marking as sent at the request
    endpoint, reading and completing, with the response in its body, at the response endpoint. *)
Theorem c105_business :
  forall (url_parse : string -> option url) (jwe_open : string -> res string) (json_type : string -> bool)
    (read_initiate : string -> initiate_body) (a : adapter) (x : wsys) (w : wreq) (e : event),
    wreachable url_parse jwe_open json_type read_initiate a x -> In (w, WDoes e) (ws_log x) -> its_business w e.
Proof. exact c105_business_pf. Qed.
Print Assumptions c105_business.

Example c105_business_witness :
  exists x w e, wreachable simple_parse toy_open toy_json toy_initiate (toy_adapter true) x /\ In (w, WDoes e) (ws_log x).
Proof. exact c105_business_ex. Qed.

(** C105: the request and response URLs handed out for a session are ones that the server answers for that session,
    exactly when the public URL has no directory in its path; otherwise it answers 404 to them. *)
Theorem c105_links :
  forall (public r : url) (id : uuid) (endpoint : string),
    endpoint = "request" \/ endpoint = "response" -> at_session public endpoint id r ->
    (at_top public -> names_session endpoint (u_path r) (uuid_str id))
    /\ (~ at_top public -> ~ known (u_path r)).
Proof. exact c105_links_pf. Qed.
Print Assumptions c105_links.

Example c105_links_witness :
  at_top (toy_url "https://v.example/") /\ ~ at_top (toy_url "https://v.example/app/")
  /\ (exists r, at_session (toy_url "https://v.example/") "response" 7%N r /\ u_path r = "/response/00000000-0000-0000-0000-000000000007")
  /\ exists r, at_session (toy_url "https://v.example/app/") "response" 7%N r /\ u_path r = "/app/response/00000000-0000-0000-0000-000000000007".
Proof. exact c105_links_ex. Qed.

(** C105: a HEAD request, which carries no request object back, marks the session's request as sent to the wallet: the
    status endpoint then says that the verifier waits for a response to a request nobody has received. *)
Theorem c105_head_refuted :
  forall (url_parse : string -> option url) (jwe_open : string -> res string) (json_type : string -> bool)
    (read_initiate : string -> initiate_body) (a : adapter) (w : wreq) (u : uuid) (m : store) (s : session),
    fetches "request" (w_http w) u -> hq_method (w_http w) = "HEAD" ->
    st_get u m = Some s -> s_status s = SentRequestByReference ->
    exists m' s', run false (app_validator jwe_open) (web url_parse json_type read_initiate a w) m = (m', [], Ok (200%N, CNone))
      /\ st_get u m' = Some s' /\ s_status s' = SentRequest.
Proof. exact c105_head_refuted_pf. Qed.
Print Assumptions c105_head_refuted.

Example c105_head_refuted_witness :
  exists m s, fst (toy_web [toy_post] []) = m /\ st_get 7%N m = Some s /\ s_status s = SentRequestByReference
    /\ fetches "request" (w_http (toy_fetch "HEAD")) 7%N.
Proof. exact c105_head_refuted_ex. Qed.

(** C105: a response that is answered with a timeout may have been accepted all the same: whatever session there is,
    the server can answer 408 to a readable response to it and have recorded the verdict on that very response. *)
Theorem c105_timeout_refuted :
  forall (url_parse : string -> option url) (jwe_open : string -> res string) (json_type : string -> bool)
    (read_initiate : string -> initiate_body) (a : adapter) (x : wsys) (w : wreq) (u : uuid) (s : session) (r : auth_response),
    wreachable url_parse jwe_open json_type read_initiate a x ->
    responds (w_http w) u -> fits (w_http w) -> utf8_valid (hq_body (w_http w)) = true -> from_form (hq_body (w_http w)) = Ok r ->
    st_get u (ws_store x) = Some s ->
    exists y l s', wsteps url_parse jwe_open json_type read_initiate a x y
      /\ ws_log y = (w, WReply (408%N, CNone)) :: l ++ ws_log x /\ (forall w' z, ~ In (w', WReply z) l)
      /\ st_get u (ws_store y) = Some s' /\ s_status s' = Complete (app_validator jwe_open s r).
Proof. exact c105_timeout_refuted_pf. Qed.
Print Assumptions c105_timeout_refuted.

Example c105_timeout_refuted_witness :
  responds (w_http toy_respond) 7%N /\ fits (w_http toy_respond) /\ utf8_valid (hq_body (w_http toy_respond)) = true
  /\ from_form (hq_body (w_http toy_respond)) = Ok (Jwt "a.b.c")
  /\ exists x s, wreachable simple_parse toy_open toy_json toy_initiate (toy_adapter true) x /\ st_get 7%N (ws_store x) = Some s.
Proof. exact c105_timeout_refuted_ex. Qed.
