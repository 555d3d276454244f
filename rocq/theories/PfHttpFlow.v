From Coq Require Import Lia ZArith.
From Verif Require Import Base BaseFacts Utf8 Utf8Facts Json JsonFacts JsonText JsonTextFacts Base64 Base64Facts Sha256 Serde Url UrlEncoded UrlEncodedFacts
  Object Formats Params Metadata Dcql Effects Jwt Request Response Session X509 SpecCert CertFacts Client Builder Server Jwe ExMatcher ExWallet ExVerifier.
From Verif Require Import Verify Wallet SpecWallet PfWallet MapFacts Spec SpecObject SpecRequest PfRequest PfResolve SpecResponse PfResponse SpecJwe PfJwe SpecBuilder SpecSession StoreFacts
  PfBuilder UuidFacts PfSession PfServer PfClient SpecExample PfExample SpecVerifierEx PfExServer PfExInitiate PfText PfMetadata PfInterop.
From Verif Require Import WebUrl SpecWebUrl PfWebUrl PfWebFlow HttpUri SpecHttpUri PfHttpUri.


Lemma hex_length n : forall x, String.length (hex_digits n x) = n.
Proof. induction n as [|n IH]; intros x; [reflexivity|]. cbn [hex_digits]. rewrite slen_app, IH. cbn [s1 String.length]. lia. Qed.
Lemma uuid_length u : String.length (uuid_str u) = 36.
Proof. unfold uuid_str. rewrite !slen_app, !hex_length. reflexivity. Qed.
Lemma url_length u : String.length (url_str u)
  = String.length (u_scheme u) + 1 + String.length (match u_auth u with Some a => "//" +:+ a | None => "" end) + String.length (u_path u)
    + String.length (match u_query u with Some q => String "?" q | None => "" end) + String.length (match u_frag u with Some f => String "#" f | None => "" end).
Proof. unfold url_str. rewrite !slen_app. cbn [String.length]. lia. Qed.
Lemma extended_length base s r : extended base s r -> String.length (url_str r) <= String.length (url_str base) + 1 + String.length s.
Proof.
  intros (_ & _ & Es & Ea & Eq & Ef & Ep). rewrite !url_length, Es, Ea, Eq, Ef, Ep, !slen_app. destruct (Nat.eqb _ 1); cbn [String.length]; lia.
Qed.
Lemma sibling_length base s r : sibling base s r -> String.length (url_str r) <= String.length (url_str base) + 1 + String.length s.
Proof.
  intros (_ & _ & Es & Ea & Eq & Ef & dir & Ep & D). rewrite !url_length, Es, Ea, Eq, Ef, Ep, !slen_app.
  destruct D as [(last & -> & _)|[_ ->]]; rewrite ?slen_app; cbn [String.length]; lia.
Qed.

(** C113: the URLs of a session can be sent to: a verifier whose base URL is a web URL read from a text, with a plain host
    name and at least 46 characters shorter than what HTTP allows, gives every session request, response and status
    URLs that the HTTP client takes; the same for an endpoint of its own choice extended by the session. *)
Lemma c113_sessions_pf :
  forall domain ipv6 : string -> option string, hosts_ok domain ipv6 -> eight_groups ipv6 ->
    forall t public, web_parse domain ipv6 t = Some public ->
      special (u_scheme public) -> plain_host_name public -> at_most 65488 public ->
      (forall id r, extended public (uuid_str id) r -> web_uri (url_str r) = true)
      /\ (forall segment id r, In segment ["request"; "response"; "status"] -> at_session public segment id r ->
            web_uri (url_str r) = true).
Proof.
  intros domain ipv6 H G t public E S P L. destruct (c112_sessions_pf domain ipv6 H t public E) as [A B]. unfold at_most in L. split.
  - intros id r X. destruct (A id r X) as [R _]. assert (Y := extended_length _ _ _ X). rewrite uuid_length in Y.
    destruct X as (_ & _ & Es & Ea & _). apply (c113_takes_pf domain ipv6 H G _ r R); [now rewrite Es|]. split; [unfold at_most; lia|].
    unfold plain_host_name. rewrite Ea. exact P.
  - intros seg id r I X. destruct (B seg id r I X) as [R _]. destruct X as (base & X1 & X2).
    assert (Y1 := sibling_length _ _ _ X1). assert (Y2 := extended_length _ _ _ X2). rewrite uuid_length in Y2.
    assert (Y3 : String.length seg <= 8) by (destruct I as [<-|[<-|[<-|[]]]]; cbn [String.length]; lia).
    destruct X1 as (_ & _ & Es & Ea & _). destruct X2 as (_ & _ & Es2 & Ea2 & _).
    apply (c113_takes_pf domain ipv6 H G _ r R); [now rewrite Es2, Es|]. split; [unfold at_most; lia|].
    unfold plain_host_name. rewrite Ea2, Ea. exact P.
Qed.
Example c113_sessions_ex :
  exists public r, web "https://v.example/base/" = Some public /\ special (u_scheme public) /\ plain_host_name public /\ at_most 65488 public
    /\ at_session public "response" 7%N r.
Proof.
  exists (mk_url "https" (Some "v.example") "/base/" false None None), (mk_url "https" (Some "v.example") ("/base/response/" +:+ uuid_str 7%N) false None None).
  split; [vm_compute; reflexivity|]. split; [right; now left|]. split.
  - intros a c E I J. injection E as <-. apply in_chars in I, J. assert (K : forallb (fun c => implb (has_char c "v.example") (negb (has_char c quotes))) all_ascii = true) by (vm_compute; reflexivity).
    assert (X := sweep_impl (fun c => has_char c "v.example") (fun c => negb (has_char c quotes)) K c I). unfold quotes in X. cbv beta in X. rewrite J in X. discriminate.
  - split; [unfold at_most; vm_compute; discriminate|]. exists (mk_url "https" (Some "v.example") "/base/response" false None None). split.
    + split; [reflexivity|]. split; [reflexivity|]. split; [reflexivity|]. split; [reflexivity|]. split; [reflexivity|]. split; [reflexivity|].
      exists "/base". split; [reflexivity|]. left. exists "". split; reflexivity.
    + split; [reflexivity|]. split; [reflexivity|]. split; [reflexivity|]. split; [reflexivity|]. split; [reflexivity|]. split; [reflexivity|]. vm_compute. reflexivity.
Qed.

(** C113: what a wallet sends when it is given web URLs: the request object is fetched, and the response posted, at
    exactly the URL that was given when that URL has at most 65534 characters and a plain host name; otherwise nothing
    is sent at all. *)
Lemma c113_traffic_pf :
  forall domain ipv6 : string -> option string, hosts_ok domain ipv6 -> eight_groups ipv6 ->
    forall t u, web_parse domain ipv6 t = Some u -> special (u_scheme u) ->
      let usable := at_most 65534 u /\ plain_host_name u in
      (forall ssi_header (w : wallet) client_id,
         let events := http_events (fst (validate (web_parse domain ipv6) ssi_header web_uri w (mk_ar client_id (ByReference u)))) in
         (usable -> events = [mk_req "GET" (url_str u) [("Prefer", "OID4VP-1.0.0")] ""]) /\ (~ usable -> events = []))
      /\ (forall (http : http_client) (a : aro) (r : auth_response), ro_return a = u -> kind_matches (ro_mode a) r ->
         let events := fst (submit_response (web_parse domain ipv6) web_uri http a r) in
         (usable -> exists body, events = [EHttp (form_post (url_str u) body)] /\ (sendable r -> from_form body = Ok r))
         /\ (~ usable -> events = [])).
Proof.
  intros domain ipv6 H G t u E S usable. assert (K := c113_takes_pf domain ipv6 H G t u E S). fold usable in K.
  assert (Kf : ~ usable -> web_uri (url_str u) = false) by (intros N; destruct (web_uri (url_str u)); [elim N; now apply K|reflexivity]).
  split.
  - intros ssi w cid events. destruct (c13_traffic_pf (web_parse domain ipv6) ssi web_uri w (mk_ar cid (ByReference u))) as [X _]. cbn [ar_indirection] in X. fold events in X.
    rewrite X. split; intros U; [now rewrite (proj2 K U)|now rewrite (Kf U)].
  - intros http a r Ra M events. destruct (c45_traffic_pf (web_parse domain ipv6) web_uri http a r) as [X Y]. rewrite Ra in X, Y. fold events in X, Y. split.
    + intros U. apply X; [exact M|now apply K].
    + intros U. apply Y. right. now apply Kf.
Qed.
Example c113_traffic_ex :
  exists u v, web_parse odd_domain toy_ipv6 "https://v.example/request" = Some u /\ special (u_scheme u) /\ web_uri (url_str u) = true
    /\ web_parse odd_domain toy_ipv6 "https://{v}.example/request" = Some v /\ special (u_scheme v) /\ web_uri (url_str v) = false.
Proof.
  exists (mk_url "https" (Some "v.example") "/request" false None None), (mk_url "https" (Some "{v}.example") "/request" false None None).
  split; [vm_compute; reflexivity|]. split; [right; now left|]. split; [vm_compute; reflexivity|]. split; [vm_compute; reflexivity|]. split; [right; now left|]. vm_compute. reflexivity.
Qed.

(** C113: the two examples work together, with the URL reader of the standard and the HTTP client's own test of URLs:
    as C79 and C112, with nothing assumed of the URLs but that the verifier's base URL is a web URL with a plain host name
    and not too long. *)
Lemma c113_interop_pf
  : forall (key : Type) (domain ipv6 : string -> option string) (ssi_header : obj -> option bool)
      (jwk_ok : obj -> bool) (jwe_encrypt : obj -> obj -> obj -> res string) (jwe_open : string -> res string)
      (lower sign : string -> string) (now : Z)
      (to_der : cert -> res string) (c : cert) (s : signer key) (alg : string) (k : obj) (public : url) (encrypted : bool) (a : adapter)
      (nonce : option string) (fresh id : uuid) (m m1 : store) (answer : obj) (query : string)
      (http : http_client) (endpoint : url) (credentials : list credential) (p : params),
    hosts_ok domain ipv6 -> eight_groups ipv6 ->
    (* the verifier, at a web URL read from a text, not much shorter than what HTTP allows *)
    (exists t, web_parse domain ipv6 t = Some public) ->
    special (u_scheme public) -> plain_host_name public -> at_most 65488 public ->
    app_new (web_parse domain ipv6) to_der c s k public encrypted = Ok a -> (id < 2 ^ 128)%N ->
    sg_alg s = Ok alg -> utf8_valid alg = true ->
    (forall certs h, x5c_header alg certs = JObj h -> ssi_header h = Some true) ->
    (forall d, certified c d -> utf8_valid d = true) -> (forall n, nonce = Some n -> utf8_valid n = true) ->
    jwf (JObj k) = true -> jdepth (JObj k) <= 100 ->
    (encrypted = true ->
       text_at "crv" k "P-256"
       /\ forall pub, same_material k pub ->
            jwk_ok pub = true
            /\ forall header claims, exists jwe, jwe_encrypt header claims pub = Ok jwe /\ utf8_valid jwe = true
                 /\ jwe_open jwe = Ok (jprint (JObj claims))) ->
    (* it is asked to initiate a presentation *)
    serves (web_parse domain ipv6) jwe_open a (HInitiate nonce fresh id) m m1 (RJson 200 (JObj answer)) ->
    (* the network *)
    (forall request response, at_session public "request" id request -> at_session public "response" id response ->
       relays (web_parse domain ipv6) jwe_open a id request response m1 http) ->
    (* the wallet, called with the parameters of the authorization URL *)
    web_parse domain ipv6 conformance_wallet = Some endpoint ->
    text_at "authorization_url" answer (url_str endpoint +:+ "?" +:+ query) -> param_pairs p = form_parse query ->
    clock_ok now -> (forall x, In x credentials -> utf8_valid (mc_raw x) = true) ->
    (exists x, In x credentials /\ is_pid x) ->
    let run := authorize (web_parse domain ipv6) ssi_header web_uri jwk_ok jwe_encrypt lower sign now http endpoint credentials true p in
    exists response body m2 jwt m3 status info,
      at_session public "response" id response
      /\ posts (http_events (fst run)) = [wallet_post response body] /\ snd run = Ok None
      /\ serves (web_parse domain ipv6) jwe_open a (HRequest (uuid_str id)) m1 m2 (RJwt jwt)
      /\ serves (web_parse domain ipv6) jwe_open a (HResponse (uuid_str id) body) m2 m3 (RJson 200 (JObj []))
      /\ serves (web_parse domain ipv6) jwe_open a (HStatus (uuid_str id)) m3 m3 (RJson 200 status)
      /\ says_success status info
      /\ if encrypted
         then exists claims i x dns names,
                members_are info [("message", JStr "JARM response decrypted and verified"); ("decrypted_payload", JObj claims)]
                /\ claims_of claims [("pid", [i])] None /\ In x credentials /\ is_pid x /\ dns_names c (dns :: names)
                /\ presented sign now (match nonce with Some n => n | None => uuid_str fresh end) ("x509_san_dns:" +:+ dns) (mc_raw x) i
         else members_are info [("message", JStr "Verification successful"); ("credentials_received", JInt 1)].
Proof. change conformance_wallet with WALLET_AUTHORIZATION_ENDPOINT. change wallet_post with plain_post.
  intros key domain ipv6 ssi_header jwk_ok jwe_encrypt jwe_open lower sign now to_der c s alg k public encrypted a nonce fresh id m m1 answer query
    http endpoint credentials p H G (t & Et) S P L A1 A2 A3 A4 A5 A6 A7 A8 A9 A10 A11.
  destruct (c113_sessions_pf domain ipv6 H G t public Et S P L) as [_ Hs].
  apply (c112_interop_pf key domain ipv6 ssi_header web_uri jwk_ok jwe_encrypt jwe_open lower sign now to_der c s alg k public encrypted a nonce fresh id m m1 answer query
    http endpoint credentials p H (ex_intro _ t Et) A1 A2 A3 A4 A5 A6 A7 A8 A9 A10 A11).
  intros seg r I X. apply (Hs seg id r); [destruct I as [<-|[<-|[]]]; cbn; auto|exact X].
Qed.
Definition http_run (enc : bool) : M wevent (option string) :=
  authorize web (fun _ => Some true) web_uri (fun _ => true) pair_encrypt (fun s => s) (fun _ => "S") 5 (web_http enc)
    pair_endpoint [pair_credential] true pair_params.
Example c113_interop_ex : forall enc : bool,
  exists response body, posts (http_events (fst (http_run enc))) = [wallet_post response body] /\ snd (http_run enc) = Ok None.
Proof. change wallet_post with plain_post.
  intros enc.
  assert (Pn : web_new enc = Ok (web_adapter enc)).
  { assert (O : is_ok (web_new enc) = true) by (destruct enc; vm_compute; reflexivity).
    unfold web_adapter. destruct (web_new enc); [reflexivity|discriminate O]. }
  assert (In0 : exists calls ans, run false (app_validator pair_open) (handler web (web_adapter enc) (HInitiate (Some "n") 1%N 7%N)) []
                              = (web_store enc, calls, Ok (RJson 200 (JObj ans)))
      /\ text_at "authorization_url" ans (url_str pair_endpoint +:+ "?" +:+ form_serialize (param_pairs pair_params))).
  { assert (X : snd (web_serve enc (HInitiate (Some "n") 1%N 7%N) []) = Ok (RJson 200 (JObj pair_answer))) by (destruct enc; vm_compute; reflexivity).
    unfold web_store. unfold web_serve in *.
    destruct (run false (app_validator pair_open) (handler web (web_adapter enc) (HInitiate (Some "n") 1%N 7%N)) []) as [[m' calls] r].
    cbn [fst snd] in *. subst r. exists calls, pair_answer. split; reflexivity. }
  destruct In0 as (calls & ans & I0 & U0).
  assert (Ph : plain_host_name web_public).
  { intros a c E I J. injection E as <-. apply in_chars in I, J. assert (K : forallb (fun c => implb (has_char c "v.example") (negb (has_char c quotes))) all_ascii = true) by (vm_compute; reflexivity).
    assert (X := sweep_impl (fun c => has_char c "v.example") (fun c => negb (has_char c quotes)) K c I). unfold quotes in X. cbv beta in X. rewrite J in X. discriminate. }
  assert (Pl : at_most 65488 web_public) by (unfold at_most; vm_compute; discriminate).
  assert (Wp : exists t, web t = Some web_public) by (exists "https://V.example"; vm_compute; reflexivity).
  destruct (c113_interop_pf _ toy_domain toy_ipv6 (fun _ => Some true) (fun _ => true) pair_encrypt pair_open (fun s => s) (fun _ => "S") 5
     _ _ _ "ES256" _ web_public enc (web_adapter enc) (Some "n") 1%N 7%N [] (web_store enc) ans (form_serialize (param_pairs pair_params)) (web_http enc) pair_endpoint [pair_credential] pair_params toy_hosts (proj2 odd_hosts) Wp (or_intror (or_introl eq_refl)) Ph Pl Pn)
    as (response & body & _ & _ & _ & _ & _ & _ & X & Y & _).
  - reflexivity.
  - reflexivity.
  - reflexivity.
  - reflexivity.
  - intros d D. apply certified_iff in D. destruct D as [<-|[]]. reflexivity.
  - intros n [= <-]. reflexivity.
  - reflexivity.
  - apply Nat.leb_le. vm_compute. reflexivity.
  - intros _. split; [reflexivity|]. intros pub _. split; [reflexivity|]. intros h cl. eexists. split; [reflexivity|]. split; [apply b64_utf8|].
    unfold pair_open. now rewrite b64url_rt.
  - exists calls. exact I0.
  - intros rq rs _ _. unfold relays, serves.
    destruct (run false (app_validator pair_open) (handler web (web_adapter enc) (HRequest (uuid_str 7%N))) (web_store enc)) as [[m2 cs] r2] eqn:E2.
    assert (R2 : exists r, r2 = Ok r).
    { cbn [handler] in E2. unfold get_request_object in E2. rewrite uuid_back, run_pfinish in E2 by reflexivity.
      destruct (run false (app_validator pair_open) (retrieve_code 7%N) (web_store enc)) as [[? ?] ?]. injection E2 as _ _ <-. eauto. }
    destruct R2 as (r & ->). exists m2, r. split; [eauto|]. unfold web_http, web_serve. rewrite E2.
    assert (C : forall x r, x = carried (Ok r) -> carries x r) by (intros x y ->; destruct y; cbn; eauto).
    split.
    + intros rq0 -> _. apply C. reflexivity.
    + intros rq0 m3 r3 -> _ (cs3 & E3). rewrite E3. apply C. reflexivity.
  - vm_compute. reflexivity.
  - exact U0.
  - vm_compute. reflexivity.
  - reflexivity.
  - intros x [<-|[]]. reflexivity.
  - exists pair_credential. split; [now left|]. split; reflexivity.
  - exists response, body. split; [exact X|exact Y].
Qed.
