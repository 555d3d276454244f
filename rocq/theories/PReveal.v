(** What can be seen of a request passed by reference (C128) *)
From Coq Require Import Lia ZArith.
From Verif Require Import Base BaseFacts Utf8 Json JsonFacts JsonText Base64Facts Url UrlEncoded UrlEncodedFacts Object Formats Params Metadata Dcql Jwt Request Response Session
  X509 SpecCert CertFacts Client Builder Server ExVerifier.
From Verif Require Import Spec SpecObject SpecRequest SpecBuilder SpecSession SpecVerifierEx StoreFacts PfRequest PfBuilder PfText PfDid PfX509 PfClient PfServer PfExServer PfExInitiate PfInterop PfHttpFlow.
From Verif Require Import PfReveal.

(** C128: the authorization URL of a request passed by reference depends on nothing but the client identifier, the address requests are
    fetched from, the session id and the wallet's endpoint: it is the same whatever is asked for, with whatever nonce and parameters. *)
Theorem c128_url :
  forall (url_parse : string -> option url) (b b' : request_builder) (u : uuid) (wm wm' : wallet_metadata)
    (contended contended' : bool) (m m1 m' m1' : store) (at_ endpoint dest dest' : url),
    v_byref (rb_verifier b) = Some at_ -> v_byref (rb_verifier b') = Some at_ ->
    cl_client_id (v_client (rb_verifier b)) = cl_client_id (v_client (rb_verifier b')) ->
    wallet_endpoint url_parse wm endpoint -> wallet_endpoint url_parse wm' endpoint ->
    build_with_session_id url_parse b u wm contended m = (m1, Ok dest) ->
    build_with_session_id url_parse b' u wm' contended' m' = (m1', Ok dest') ->
    dest = dest'.
Proof. exact c128_url_pf. Qed.
Print Assumptions c128_url.

Example c128_url_witness :
  v_byref (rb_verifier (asking true "a")) = v_byref (rb_verifier (asking true "b")) /\ v_byref (rb_verifier (asking true "a")) <> None
  /\ is_ok (snd (build_with_session_id simple_parse (asking true "a") 7%N toy_wm false [])) = true
  /\ is_ok (snd (build_with_session_id simple_parse (asking true "b") 7%N toy_wm false [])) = true
  /\ match fst (build_with_session_id simple_parse (asking true "a") 7%N toy_wm false []), fst (build_with_session_id simple_parse (asking true "b") 7%N toy_wm false []) with
     | [(_, s)], [(_, s')] => String.eqb (s_jwt s) (s_jwt s')
     | _, _ => true
     end = false.
Proof. exact c128_url_ex. Qed.

(** C128: and so its length is bounded by the lengths of these, whatever is asked for. *)
Theorem c128_length :
  forall (url_parse : string -> option url) (b : request_builder) (u : uuid) (wm : wallet_metadata)
    (contended : bool) (m m' : store) (at_ endpoint dest : url),
    v_byref (rb_verifier b) = Some at_ -> wallet_endpoint url_parse wm endpoint ->
    build_with_session_id url_parse b u wm contended m = (m', Ok dest) ->
    String.length (url_str dest)
    <= String.length (url_str endpoint) + 3 * String.length (cl_client_id (v_client (rb_verifier b))) + 3 * String.length (url_str at_) + 135.
Proof. exact c128_length_pf. Qed.
Print Assumptions c128_length.

Example c128_length_witness :
  let dest := match snd (build_with_session_id simple_parse (asking true "a") 7%N toy_wm false []) with Ok d => url_str d | Err _ => "" end in
  (20 <= String.length dest <= 400).
Proof. exact c128_length_ex. Qed.

(** C128: passed by value, the URL conveys the whole request object: different objects never give the same URL. *)
Theorem c128_by_value :
  forall (url_parse : string -> option url) (ssi_header : obj -> option bool) (b b' : request_builder) (u u' : uuid) (wm wm' : wallet_metadata)
    (contended contended' : bool) (m m1 m' m1' : store) (endpoint dest : url) (s s' : session),
    v_byref (rb_verifier b) = None -> v_byref (rb_verifier b') = None ->
    readable_client ssi_header (v_client (rb_verifier b)) -> readable_client ssi_header (v_client (rb_verifier b')) ->
    wallet_endpoint url_parse wm endpoint -> wallet_endpoint url_parse wm' endpoint ->
    build_with_session_id url_parse b u wm contended m = (m1, Ok dest) ->
    build_with_session_id url_parse b' u' wm' contended' m' = (m1', Ok dest) ->
    st_get u m1 = Some s -> st_get u' m1' = Some s' ->
    jwf (aro_to_json (s_request s)) = true -> jdepth (aro_to_json (s_request s)) <= 127 ->
    jwf (aro_to_json (s_request s')) = true -> jdepth (aro_to_json (s_request s')) <= 127 ->
    aro_to_obj (s_request s) = aro_to_obj (s_request s').
Proof. exact c128_by_value_pf. Qed.
Print Assumptions c128_by_value.

Example c128_by_value_witness :
  exists c, readable_client (fun _ => Some true) c
    /\ built_ok (build_with_session_id simple_parse (toy_builder false c) 7%N toy_wm false []) 7%N = true
    /\ built_ok (build_with_session_id simple_parse (rb_with_param p_nonce "b" (toy_builder false c)) 8%N toy_wm false []) 8%N = true.
Proof. exact c128_by_value_ex. Qed.

(** C128: likewise, the answer of the example verifier to the one who asks for a presentation, URL included, does not depend on the nonce. *)
Theorem c128_initiate :
  forall (key : Type) (url_parse : string -> option url) (to_der : cert -> res string) (c : cert) (s : signer key)
      (k : obj) (public : url) (encrypted : bool) (a : adapter) (nonce nonce' : option string) (fresh fresh' id : uuid)
      (validator validator' : session -> auth_response -> outcome) (m m1 m' m1' : store) calls calls' (j j' : json),
    app_new url_parse to_der c s k public encrypted = Ok a ->
    run false validator (initiate_request url_parse a nonce fresh id) m = (m1, calls, Ok (RJson 200 j)) ->
    run false validator' (initiate_request url_parse a nonce' fresh' id) m' = (m1', calls', Ok (RJson 200 j')) ->
    j = j'.
Proof. exact c128_initiate_pf. Qed.
Print Assumptions c128_initiate.

Example c128_initiate_witness :
  let answer nonce := match run false (fun _ _ => OError "") (initiate_request simple_parse (toy_adapter true) (Some nonce) 1%N 7%N) [] with
                      | (_, _, Ok (RJson 200 j)) => Some j
                      | _ => None
                      end in
  match answer "a" with Some _ => true | None => false end = true /\ match answer "b" with Some _ => true | None => false end = true.
Proof. exact c128_initiate_ex. Qed.
