(** The example verifier's server (C76, C78) *)
From Coq Require Import Lia ZArith.
From Verif Require Import Base BaseFacts Utf8 Json JsonFacts JsonText JsonTextFacts Serde Url UrlEncoded Object Formats Params Metadata Dcql
  Request Response Session X509 SpecCert CertFacts Client Builder Server ExVerifier.
From Verif Require Import MapFacts Spec SpecObject SpecRequest SpecJwe SpecBuilder SpecSession StoreFacts PfBuilder UuidFacts PfSession PfServer SpecVerifierEx.
From Verif Require Import PfExServer.

(** C76: the example verifier reports success for a session only if a response was POSTed to that session that is a
    vp_token, or is encrypted to the verifier's key and decrypts to JSON; the information reported is about that
    response. *)
Theorem c76_success
  : forall (url_parse : string -> option url) (jwe_open : string -> res string) (a : adapter) (x : hsys)
      (sid : string) (j info : json),
    hreachable url_parse jwe_open a x -> answered (hs_log x) (HStatus sid) (RJson 200 j) -> says_success j info ->
    exists u sid' body r,
      uuid_of_string sid = Some u /\ uuid_of_string sid' = Some u
      /\ judged (hs_log x) (HResponse sid' body) u (OSuccess info)
      /\ from_form body = Ok r /\ taken jwe_open r info.
Proof. exact c76_success_pf. Qed.
Print Assumptions c76_success.

Example c76_success_witness :
  exists x j info,
    hreachable simple_parse toy_open (toy_adapter true) x /\ answered (hs_log x) (HStatus toy_sid) (RJson 200 j) /\ says_success j info.
Proof. exact c76_success_ex. Qed.

(** C76: it reports an error only if something was POSTed to the session as an encrypted response that its key does
    not open to JSON. *)
Theorem c76_error
  : forall (url_parse : string -> option url) (jwe_open : string -> res string) (a : adapter) (x : hsys)
      (sid : string) (j : json) (cause : string),
    hreachable url_parse jwe_open a x -> answered (hs_log x) (HStatus sid) (RJson 200 j) -> says_error j cause ->
    exists u sid' body jwe,
      uuid_of_string sid = Some u /\ uuid_of_string sid' = Some u
      /\ judged (hs_log x) (HResponse sid' body) u (OError cause)
      /\ from_form body = Ok (Jwt jwe) /\ unopened jwe_open jwe.
Proof. exact c76_error_pf. Qed.
Print Assumptions c76_error.

Example c76_error_witness :
  exists x j cause,
    hreachable simple_parse toy_open (toy_adapter true) x /\ answered (hs_log x) (HStatus toy_sid) (RJson 200 j) /\ says_error j cause.
Proof. exact c76_error_ex. Qed.

(** C76: it never reports that the verification of a response failed. *)
Theorem c76_no_failure
  : forall (url_parse : string -> option url) (jwe_open : string -> res string) (a : adapter) (x : hsys)
      (sid : string) (j : json) (reason : string),
    hreachable url_parse jwe_open a x -> answered (hs_log x) (HStatus sid) (RJson 200 j) -> ~ says_failure j reason.
Proof. exact c76_no_failure_pf. Qed.
Print Assumptions c76_no_failure.

Example c76_no_failure_witness :
  exists x j, hreachable simple_parse toy_open (toy_adapter true) x /\ answered (hs_log x) (HStatus toy_sid) (RJson 200 j).
Proof. exact c76_no_failure_ex. Qed.

(** C76: success does not mean that anything was presented: whatever was asked for, in whatever mode, a POST of an
    empty vp_token without state to the session, which takes nothing but the session's id, is answered with success
    and so is the session's status afterwards. *)
Theorem c76_unchecked_refuted
  : forall (jwe_open : string -> res string) (m : store) (u : uuid) (s : session),
    (u < 2 ^ 128)%N -> st_get u m = Some s ->
    exists m' calls j info,
      run false (app_validator jwe_open) (receive_response (uuid_str u) "vp_token=%7B%7D") m = (m', calls, Ok (RJson 200 (JObj [])))
      /\ run false (app_validator jwe_open) (get_status (uuid_str u)) m' = (m', [], Ok (RJson 200 j))
      /\ says_success j info
      /\ members_are info [("message", JStr "Verification successful"); ("credentials_received", JInt 0)].
Proof. exact c76_unchecked_refuted_pf. Qed.
Print Assumptions c76_unchecked_refuted.

Example c76_unchecked_refuted_witness :
  let r := serve simple_parse toy_open (toy_adapter true) [HInitiate (Some "nonce") 1%N 7%N; HRequest toy_sid] [] in
  match st_get 7%N (fst r) with Some s => obj_get "response_mode" (aro_to_obj (s_request s)) | None => None end = Some (JStr "direct_post.jwt").
Proof. exact c76_unchecked_refuted_ex. Qed.

(** C78: the identifier that the server hands out for a session leads back to that session; and no text is read as
    an identifier outside the range of UUIDs. *)
Theorem c78_ids
  : forall (u : uuid) (sid : string),
    ((u < 2 ^ 128)%N -> uuid_of_string (uuid_str u) = Some u)
    /\ (uuid_of_string sid = Some u -> (u < 2 ^ 128)%N).
Proof. exact c78_ids_pf. Qed.
Print Assumptions c78_ids.

Example c78_ids_witness :
  uuid_of_string "67e55044-10b1-426f-9247-bb680e5fe0c8" = Some 0x67e5504410b1426f9247bb680e5fe0c8%N
  /\ uuid_str 0x67e5504410b1426f9247bb680e5fe0c8%N = "67e55044-10b1-426f-9247-bb680e5fe0c8"
  /\ uuid_of_string "{67E55044-10b1-426f-9247-bb680e5fe0c8}" = Some 0x67e5504410b1426f9247bb680e5fe0c8%N
  /\ uuid_of_string "67e55044-10b1-426f-9247-bb680e5fe0cg" = None.
Proof. exact c78_ids_ex. Qed.

(** C78: the status endpoint answers with the stored status of the session, with 404 for an unknown session and with
    400 for something that is no identifier, and changes nothing. *)
Theorem c78_status
  : forall (validator : session -> auth_response -> outcome) (sid : string) (m : store),
    exists r, run false validator (get_status sid) m = (m, [], Ok r)
    /\ match uuid_of_string sid with
       | None => r = RError 400
       | Some u => match st_get u m with
                   | None => r = RError 404
                   | Some s => exists j, r = RJson 200 j /\ tells (s_status s) j
                   end
       end.
Proof. exact c78_status_pf. Qed.
Print Assumptions c78_status.

Example c78_status_witness :
  run false (fun _ _ => OError "") (get_status toy_sid) [(7%N, set_status (toy_session 7%N) (Complete (OFailure "no")))]
  = ([(7%N, set_status (toy_session 7%N) (Complete (OFailure "no")))], [],
     Ok (RJson 200 (JObj [("reason", JStr "no"); ("result", JStr "failure"); ("status", JStr "complete")])))
  /\ snd (run false (fun _ _ => OError "") (get_status toy_sid) []) = Ok (RError 404)
  /\ snd (run false (fun _ _ => OError "") (get_status "7") []) = Ok (RError 400).
Proof. exact c78_status_ex. Qed.

(** C78: the request endpoint answers with the session's request object, with 404 for an unknown session and with
    400 for something that is no identifier. *)
Theorem c78_request
  : forall (validator : session -> auth_response -> outcome) (sid : string) (m : store),
    exists m' r, run false validator (get_request_object sid) m = (m', [], Ok r)
    /\ match uuid_of_string sid with
       | None => r = RError 400 /\ m' = m
       | Some u => match st_get u m with
                   | None => r = RError 404 /\ m' = m
                   | Some s => r = RJwt (s_jwt s) /\ m' = fst (retrieve u m)
                   end
       end.
Proof. exact c78_request_pf. Qed.
Print Assumptions c78_request.

Example c78_request_witness :
  snd (run false (fun _ _ => OError "") (get_request_object toy_sid) [(7%N, toy_session 7%N)]) = Ok (RJwt "h.p.s").
Proof. exact c78_request_ex. Qed.

(** C78: the response endpoint answers 200 only for a well-formed response to a known session, and then has judged
    that response, once; otherwise it answers with an error, judges nothing and changes nothing. *)
Theorem c78_response
  : forall (jwe_open : string -> res string) (sid body : string) (m : store),
    let answer := run false (app_validator jwe_open) (receive_response sid body) m in
    (forall u r s, utf8_valid body = true -> uuid_of_string sid = Some u -> from_form body = Ok r -> st_get u m = Some s ->
       exists m' s', answer = (m', [(s, r)], Ok (RJson 200 (JObj []))) /\ st_get u m' = Some s'
         /\ same_request s s' /\ s_status s' = Complete (app_validator jwe_open s r)
         /\ forall u', u' <> u -> st_get u' m' = st_get u' m)
    /\ ((utf8_valid body = false \/ uuid_of_string sid = None \/ (forall r, from_form body <> Ok r)) -> answer = (m, [], Ok (RError 400)))
    /\ (forall u r, utf8_valid body = true -> uuid_of_string sid = Some u -> from_form body = Ok r -> st_get u m = None ->
          answer = (m, [], Ok (RError 500))).
Proof. exact c78_response_pf. Qed.
Print Assumptions c78_response.

Example c78_response_witness :
  snd (run false (app_validator toy_open) (receive_response toy_sid "response=a.b.c") [(7%N, toy_session 7%N)]) = Ok (RJson 200 (JObj []))
  /\ run false (app_validator toy_open) (receive_response toy_sid "response=a.b.c") [] = ([], [], Ok (RError 500))
  /\ run false (app_validator toy_open) (receive_response toy_sid "state=s") [(7%N, toy_session 7%N)] = ([(7%N, toy_session 7%N)], [], Ok (RError 400)).
Proof. exact c78_response_ex. Qed.

(** C78: whatever else the server is doing, a request whose path holds no identifier, or a response that cannot be
    read, is answered with 400 and nothing is done for it. *)
Theorem c78_refused
  : forall (url_parse : string -> option url) (jwe_open : string -> res string) (a : adapter) (x : hsys) (h : hreq) (e : hevent),
    hreachable url_parse jwe_open a x -> unreadable h -> In (h, e) (hs_log x) -> e = HReply (RError 400).
Proof. exact c78_refused_pf. Qed.
Print Assumptions c78_refused.

Example c78_refused_witness :
  unreadable (HStatus "7") /\ unreadable (HResponse toy_sid "state=s")
  /\ exists x, hreachable simple_parse toy_open (toy_adapter true) x /\ answered (hs_log x) (HStatus "7") (RError 400)
       /\ answered (hs_log x) (HResponse toy_sid "state=s") (RError 400).
Proof. exact c78_refused_ex. Qed.

(** C78: exactly the paths with one segment after "/status/" ask for a status. *)
Theorem c78_route
  : forall path sid, status_route path = Some sid <-> path = "/status/" +:+ sid /\ sid <> "" /\ has_char "/" sid = false.
Proof. exact c78_route_pf. Qed.
Print Assumptions c78_route.

Example c78_route_witness : status_route "/status/7" = Some "7" /\ status_route "/status/" = None /\ status_route "//status/7" = None.
Proof. exact c78_route_ex. Qed.

(** C78: the status URL handed out for a session is not one that the server answers when the public URL ends in a
    slash, as every URL without a path does: the path then begins with two slashes. *)
Theorem c78_status_url_refuted
  : forall (a : adapter) (id : uuid) (origin : string),
    url_str (ap_public a) = origin +:+ "/" ->
    exists path, status_url a id = origin +:+ path /\ path = "//status/" +:+ uuid_str id /\ status_route path = None.
Proof. exact c78_status_url_refuted_pf. Qed.
Print Assumptions c78_status_url_refuted.

Example c78_status_url_refuted_witness :
  url_str (ap_public (toy_adapter true)) = "https://v.example" +:+ "/"
  /\ status_url (toy_adapter true) 7%N = "https://v.example//status/00000000-0000-0000-0000-000000000007"
  /\ status_route "/status/00000000-0000-0000-0000-000000000007" = Some toy_sid.
Proof. exact c78_status_url_refuted_ex. Qed.
