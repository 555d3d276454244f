(** The library's own HTTP client: redirects (C111) *)
From Coq Require Import Lia.
From Verif Require Import Base BaseFacts Utf8 Json JsonText Url Object Params Metadata Effects Request Verify Response Wallet
  SpecRequest SpecResponse PfRequest PfResponse SpecWallet PfResolve PfWallet SpecEncodings PfEncodings Reqwest SpecReqwest.
From Verif Require SpecExample PfExample ExWallet ExMatcher.
From Verif Require Import PfReqwest.

(** C111: the library's own client sends nothing for a URI that is no http(s) URL.  Otherwise it sends the given request
    to that URL and then follows redirects: each later request is made because the answer to the one before it names its
    URL, they are at most one more than the limit, the answer returned is the answer to the last, is no redirect, and it
    stops early only for that, for a failure or for a URL that is not http(s). *)
Theorem c111_execute :
  forall (url_parse : string -> option url) (join : url -> string -> option url) (uri_ok : string -> bool)
    (net : http_req -> res exchange) (limit : nat) (r : http_req),
    let run := execute url_parse join uri_ok net limit r in
    ((forall u, url_parse (rq_uri r) = Some u -> ~ http_url u) -> fst run = [] /\ exists e, snd run = Err e)
    /\ forall u, url_parse (rq_uri r) = Some u -> http_url u ->
       exists w z, chain join uri_ok net u (at_uri (sent_to u) r) (fst run) w z
       /\ (length (fst run) <= S limit)%nat
       /\ (forall rs, snd run = Ok rs <->
             exists x, net z = Ok x /\ rs_status rs = x_status x /\ x_body x = Ok (rs_body rs)
               /\ ~ exists v, sends_to join uri_ok w x v)
       /\ (forall x v, net z = Ok x -> sends_to join uri_ok w x v -> http_url v -> length (fst run) = S limit).
Proof. exact c111_execute_pf. Qed.
Print Assumptions c111_execute.

Example c111_execute_witness :
  toy_execute (toy_net 303 "/done") toy_post
    = ([toy_post; mk_req "GET" "https://v.example/done" [("Prefer", "OID4VP-1.0.0"); ("referer", "https://v.example/resp")] ""],
       Ok (mk_resp 200 ""))
  /\ (length (fst (toy_execute loop_net toy_post)) = 11)%nat /\ snd (toy_execute loop_net toy_post) = Err "too many redirects"
  /\ toy_execute (toy_net 302 "ftp://v.example/x") toy_post = ([toy_post], Err "URL scheme is not allowed")
  /\ toy_execute (toy_net 200 "/done") toy_post = ([toy_post], Ok (mk_resp 200 "moved"))
  /\ fst (toy_execute loop_net (form_post "openid4vp://x" "a=b")) = [].
Proof. exact c111_execute_ex. Qed.

(** C111: the body and the method of a request reach other URLs only by way of 307 and 308 answers of servers that got
    them; after any other redirect only GETs without a body are sent. *)
Theorem c111_body :
  forall (url_parse : string -> option url) (join : url -> string -> option url) (uri_ok : string -> bool)
    (net : http_req -> res exchange) (limit : nat) (r : http_req) (before : list http_req) (q : http_req) (after : list http_req),
    rq_method r <> "HEAD" ->
    fst (execute url_parse join uri_ok net limit r) = before ++ q :: after ->
    ((forall p, In p before -> hands_on net p) /\ rq_method q = rq_method r /\ rq_body q = rq_body r)
    \/ ((exists p x, In p before /\ net p = Ok x /\ plain_redirect (x_status x)) /\ bare_get q).
Proof. exact c111_body_pf. Qed.
Print Assumptions c111_body.

Example c111_body_witness :
  map (fun q => (rq_method q, rq_body q)) (fst (toy_execute (toy_net 308 "https://o.example/") toy_post))
    = [("POST", "vp_token=%7B%7D"); ("POST", "vp_token=%7B%7D")]
  /\ map (fun q => (rq_method q, rq_body q)) (fst (toy_execute (toy_net 301 "https://o.example/") toy_post))
    = [("POST", "vp_token=%7B%7D"); ("GET", "")].
Proof. exact c111_body_ex. Qed.

(** C111: a wallet with the library's own client that submits a response sends it to the URL of the response_uri first,
    and to other URLs only as those who got it hand it on with 307 or 308; every other request is a GET without body,
    and all requests together are at most one more than the redirect limit. *)
Theorem c111_submit :
  forall (url_parse : string -> option url) (join : url -> string -> option url) (uri_ok : string -> bool)
    (net : http_req -> res exchange) (limit : nat) (o : obj) (a : aro) (resp : auth_response),
    aro_of_obj url_parse o = Ok a ->
    let sent := wire url_parse join uri_ok net limit
                  (fst (submit_response url_parse uri_ok (reqwest_client url_parse join uri_ok net limit) a resp)) in
    (length sent <= S limit)%nat
    /\ (forall q l, sent = q :: l ->
          exists s u u' body, text_at "response_uri" o s /\ url_parse s = Some u /\ url_parse (url_str u) = Some u' /\ http_url u'
            /\ q = form_post (sent_to u') body /\ (sendable resp -> from_form body = Ok resp))
    /\ (forall before q after, sent = before ++ q :: after ->
          ((forall p, In p before -> hands_on net p) /\ rq_method q = "POST" /\ (sendable resp -> from_form (rq_body q) = Ok resp))
          \/ ((exists p x, In p before /\ net p = Ok x /\ plain_redirect (x_status x)) /\ bare_get q)).
Proof. exact c111_submit_pf. Qed.
Print Assumptions c111_submit.

Example c111_submit_witness :
  exists a, toy_aro_mode "direct_post" = Some a
  /\ map (fun q => (rq_method q, rq_uri q, rq_body q)) (toy_sent (toy_net 303 "/thanks") a)
     = [("POST", "https://v.example/resp", "vp_token=%7B%7D"); ("GET", "https://v.example/thanks", "")]
  /\ snd (toy_submit (toy_net 303 "/thanks") a) = Ok None.
Proof. exact c111_submit_ex. Qed.

(** C111: validating a request with the library's own client sends only GETs without a body, at most one more than the
    redirect limit, the first to the request_uri, and none unless the request is by reference; a request object got by
    reference is the body of a 2xx answer to the last of them. *)
Theorem c111_validate :
  forall (url_parse : string -> option url) (ssi_header : obj -> option bool) (uri_ok : string -> bool)
    (join : url -> string -> option url) (net : http_req -> res exchange) (limit : nat) (w : wallet) (r : auth_request),
    w_http w = reqwest_client url_parse join uri_ok net limit ->
    let sent := wire url_parse join uri_ok net limit (fst (validate url_parse ssi_header uri_ok w r)) in
    (length sent <= S limit)%nat
    /\ (forall q, In q sent -> bare_get q)
    /\ (forall q l, sent = q :: l -> exists u u', ar_indirection r = ByReference u
          /\ url_parse (url_str u) = Some u' /\ http_url u' /\ rq_uri q = sent_to u' /\ rq_headers q = [("Prefer", "OID4VP-1.0.0")])
    /\ (forall u a jwt, ar_indirection r = ByReference u ->
          snd (resolve_request url_parse ssi_header uri_ok (w_http w) r) = Ok (a, Some jwt) ->
          exists l q x, sent = l ++ [q] /\ net q = Ok x /\ (200 <= x_status x < 300)%N /\ x_body x = Ok jwt).
Proof. exact c111_validate_pf. Qed.
Print Assumptions c111_validate.

Example c111_validate_witness :
  let r := mk_ar (Some "redirect_uri:https://v.example/resp") (ByReference sample_uri) in
  (exists a, snd (resolve_request simple_parse any_header (fun _ => true) (w_http moved_wallet) r) = Ok (a, Some moved_jwt))
  /\ map rq_uri (wire simple_parse toy_join (fun _ => true) (moved_net moved_jwt) 10
       (fst (validate simple_parse any_header (fun _ => true) moved_wallet r)))
     = ["https://v.example/req"; "http://elsewhere.example/r"].
Proof. exact c111_validate_ex. Qed.

(** C111: the response does leave the response_uri: a server there that answers 307 has the wallet repeat the POST, VP
    token included, to any host, in the clear, and the submission succeeds. *)
Theorem c111_elsewhere_refuted :
  exists (join : url -> string -> option url) (net : http_req -> res exchange) (o : obj) (a : aro) (resp : auth_response) (q : http_req),
    let run := submit_response simple_parse (fun _ => true) (reqwest_client simple_parse join (fun _ => true) net 10) a resp in
    aro_of_obj simple_parse o = Ok a /\ text_at "response_uri" o "https://v.example/resp" /\ snd run = Ok None
    /\ In q (wire simple_parse join (fun _ => true) net 10 (fst run))
    /\ rq_method q = "POST" /\ rq_uri q = "http://elsewhere.example/take" /\ from_form (rq_body q) = Ok resp.
Proof. exact c111_elsewhere_refuted_pf. Qed.
Print Assumptions c111_elsewhere_refuted.

(** C111: whatever the servers it talks to do, the example wallet answers an authorization request after at most three
    times the redirect limit and three requests, those with a body being POSTs of one and the same body, as handed on. *)
Theorem c111_example :
  forall (url_parse : string -> option url) (ssi_header : obj -> option bool) (uri_ok : string -> bool)
    (jwk_ok : obj -> bool) (jwe_encrypt : obj -> obj -> obj -> res string) (lower sign : string -> string) (now : Z)
    (join : url -> string -> option url) (net : http_req -> res exchange) (limit : nat)
    (endpoint : url) (store : list ExMatcher.credential) (auto_consent : bool) (p : ExWallet.params),
    let run := ExWallet.authorize url_parse ssi_header uri_ok jwk_ok jwe_encrypt lower sign now
                 (reqwest_client url_parse join uri_ok net limit) endpoint store auto_consent p in
    let sent := wire url_parse join uri_ok net limit (fst run) in
    (length sent <= 3 * S limit)%nat
    /\ exists body, forall q, In q sent -> bare_get q \/ (rq_method q = "POST" /\ rq_body q = body).
Proof. exact c111_example_pf. Qed.
Print Assumptions c111_example.

Example c111_example_witness :
  map (fun q => (rq_method q, rq_uri q)) (sent_by_example (toy_net 307 "https://v.example/new"))
    = [("POST", "https://v.example/resp"); ("POST", "https://v.example/new")]
  /\ map (fun q => (rq_method q, rq_uri q)) (sent_by_example (toy_net 302 "/new"))
    = [("POST", "https://v.example/resp"); ("GET", "https://v.example/new")]
  /\ (length (sent_by_example loop_net) = 11)%nat.
Proof. exact c111_example_ex. Qed.
