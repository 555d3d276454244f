(** Submitting responses (C45, C46) *)
From Coq Require Import Lia.
From Verif Require Import Base BaseFacts Utf8 Utf8Facts Json JsonFacts JsonText JsonTextFacts Base64Facts Url
  Object Params Metadata Effects Request Verify Response Wallet SpecRequest PfRequest SpecResponse PfResponse SpecWallet.
From Verif Require Import PfWallet.

(** C45: when the mode asks for the given kind of response (and the return URI is one HTTP can address),
    exactly one request is sent: a form POST to the request's return URI whose body the verifier reads as
    that very response.  Otherwise nothing is sent. *)
Theorem c45_traffic :
  forall (url_parse : string -> option url) (uri_ok : string -> bool) (http : http_client) (a : aro)
         (r : auth_response),
    (kind_matches (ro_mode a) r -> uri_ok (url_str (ro_return a)) = true ->
       exists body, fst (submit_response url_parse uri_ok http a r)
                    = [EHttp (form_post (url_str (ro_return a)) body)]
         /\ (sendable r -> from_form body = Ok r))
    /\ (~ kind_matches (ro_mode a) r \/ uri_ok (url_str (ro_return a)) = false ->
       fst (submit_response url_parse uri_ok http a r) = []).
Proof. exact c45_traffic_pf. Qed.
Print Assumptions c45_traffic.

Example c45_traffic_witness :
  (exists a, toy_aro_mode "direct_post" = Some a /\ kind_matches (ro_mode a) (Unencoded (mk_unencoded toy_token (Some "s"))))
  /\ (exists a, toy_aro_mode "direct_post.jwt" = Some a /\ kind_matches (ro_mode a) (Jwt "x"))
  /\ sendable (Unencoded (mk_unencoded toy_token (Some "&vp_token={}"))) /\ sendable (Jwt "x").
Proof. exact c45_traffic_ex. Qed.

(** C45: in a Digital Credentials API mode nothing is sent and there is no redirect; a response of the wrong
    kind and an unsupported mode are errors. *)
Theorem c45_silent :
  forall (url_parse : string -> option url) (uri_ok : string -> bool) (http : http_client) (a : aro)
         (r : auth_response),
    (ro_mode a = DcApi \/ ro_mode a = DcApiJwt -> submit_response url_parse uri_ok http a r = ([], Ok None))
    /\ (ro_mode a <> DcApi -> ro_mode a <> DcApiJwt -> ~ kind_matches (ro_mode a) r ->
        exists e, submit_response url_parse uri_ok http a r = ([], Err e)).
Proof. exact c45_silent_pf. Qed.
Print Assumptions c45_silent.

Example c45_silent_witness :
  exists a, toy_aro_mode "direct_post" = Some a /\ ro_mode a <> DcApi /\ ro_mode a <> DcApiJwt
  /\ ~ kind_matches (ro_mode a) (Jwt "x").
Proof. exact c45_silent_ex. Qed.

(** C45: for a request object as received, whatever is sent goes to its response_uri. *)
Theorem c45_response_uri :
  forall (url_parse : string -> option url) (uri_ok : string -> bool) (http : http_client) (o : obj) (a : aro)
         (r : auth_response) (e : wevent),
    aro_of_obj url_parse o = Ok a -> In e (fst (submit_response url_parse uri_ok http a r)) ->
    exists s u body, text_at "response_uri" o s /\ url_parse s = Some u /\ e = EHttp (form_post (url_str u) body).
Proof. exact c45_response_uri_pf. Qed.
Print Assumptions c45_response_uri.

Example c45_response_uri_witness :
  exists a, toy_aro_mode "direct_post" = Some a
  /\ fst (submit_response simple_parse (fun _ => true) (toy_answer "") a (Unencoded (mk_unencoded [] None)))
     = [EHttp (form_post "https://v.example/resp" "vp_token=%7B%7D")].
Proof. exact c45_response_uri_ex. Qed.

(** C46: submission returns a redirect URL exactly when a request was sent and the server answered it with a
    2xx status and a JSON object whose redirect_uri is the text of that URL. *)
Theorem c46_redirect :
  forall (url_parse : string -> option url) (uri_ok : string -> bool) (http : http_client) (a : aro)
         (r : auth_response) (u : url),
    snd (submit_response url_parse uri_ok http a r) = Ok (Some u) <->
    exists rq status body, fst (submit_response url_parse uri_ok http a r) = [EHttp rq]
      /\ http rq = Ok (mk_resp status body) /\ (200 <= status < 300)%N /\ utf8_valid body = true
      /\ redirects_to url_parse body u.
Proof. exact c46_redirect_pf. Qed.
Print Assumptions c46_redirect.

Example c46_redirect_witness :
  exists a u, toy_aro_mode "direct_post" = Some a
  /\ snd (submit_response simple_parse (fun _ => true) (toy_answer "{""redirect_uri"":""https://v.example/done""}") a
            (Unencoded (mk_unencoded [] None))) = Ok (Some u)
  /\ url_str u = "https://v.example/done".
Proof. exact c46_redirect_ex. Qed.

(** C46: submission succeeds without a redirect exactly when nothing had to be sent (Digital Credentials
    API), or the server answered with a 2xx status and a blank body or JSON without a textual
    redirect_uri. Every other outcome is an error. *)
Theorem c46_no_redirect :
  forall (url_parse : string -> option url) (uri_ok : string -> bool) (http : http_client) (a : aro)
         (r : auth_response),
    snd (submit_response url_parse uri_ok http a r) = Ok None <->
    ro_mode a = DcApi \/ ro_mode a = DcApiJwt
    \/ exists rq status body, fst (submit_response url_parse uri_ok http a r) = [EHttp rq]
         /\ http rq = Ok (mk_resp status body) /\ (200 <= status < 300)%N /\ utf8_valid body = true
         /\ no_redirect body.
Proof. exact c46_no_redirect_pf. Qed.
Print Assumptions c46_no_redirect.

Example c46_no_redirect_witness :
  no_redirect " 
" /\ no_redirect "[1]" /\ no_redirect "{""redirect_uri"":3}" /\ ~ no_redirect "x".
Proof. exact c46_no_redirect_ex. Qed.
