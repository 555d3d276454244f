(** The two examples together, with the hosts of the URL standard. *)
From Coq Require Import Lia ZArith.
From Verif Require Import Base BaseFacts Utf8 Utf8Facts Json JsonFacts JsonText JsonTextFacts Base64 Base64Facts Sha256 Serde Url UrlEncoded UrlEncodedFacts
  Object Formats Params Metadata Dcql Effects Jwt Request Response Session X509 SpecCert CertFacts Client Builder Server Jwe ExMatcher ExWallet ExVerifier.
From Verif Require Import Verify Wallet SpecWallet PfWallet MapFacts Spec SpecObject SpecRequest PfRequest PfResolve SpecResponse PfResponse SpecJwe PfJwe SpecBuilder SpecSession StoreFacts
  PfBuilder UuidFacts PfSession PfServer PfClient SpecExample PfExample SpecVerifierEx PfExServer PfExInitiate PfText PfMetadata PfInterop.
From Verif Require Import WebUrl WebHost SpecWebUrl SpecHost PfWebUrl PfWebFlow HttpUri SpecHttpUri PfHttpUri PfHttpFlow PfHost PfHostUrl.

Lemma wallet_reads idna : exists ep, web_parse (web_domain idna) web_ipv6 conformance_wallet = Some ep /\ url_str ep = conformance_wallet.
Proof. eexists. split; [vm_compute; reflexivity|]. vm_compute. reflexivity. Qed.
(** C115: the two examples work together, with URLs and hosts read as the URL standard says: nothing is assumed of URLs but
    that international names are turned into names that stay as they are, that the base URL of the verifier is a web URL with
    a plain host name and that it is not too long. *)
Lemma c115_interop_pf
  : forall (key : Type) (idna : string -> option string) (ssi_header : obj -> option bool)
      (jwk_ok : obj -> bool) (jwe_encrypt : obj -> obj -> obj -> res string) (jwe_open : string -> res string)
      (lower sign : string -> string) (now : Z)
      (to_der : cert -> res string) (c : cert) (s : signer key) (alg : string) (k : obj) (public : url) (encrypted : bool) (a : adapter)
      (nonce : option string) (fresh id : uuid) (m m1 : store) (answer : obj) (query : string)
      (http : http_client) (credentials : list credential) (p : params),
    idna_ok idna ->
    let web := web_parse (web_domain idna) web_ipv6 in
    (* the verifier, at a web URL read from a text, not much shorter than what HTTP allows *)
    (exists t, web t = Some public) ->
    special (u_scheme public) -> plain_host_name public -> at_most 65488 public ->
    app_new web to_der c s k public encrypted = Ok a -> (id < 2 ^ 128)%N ->
    sg_alg s = Ok alg -> utf8_valid alg = true ->
    (forall certs h, x5c_header alg certs = JObj h -> ssi_header h = Some true) ->
    (forall d, certified c d -> utf8_valid d = true) -> (forall n, nonce = Some n -> utf8_valid n = true) ->
    jwf (JObj k) = true -> jdepth (JObj k) <= 100 ->
    (encrypted = true ->
       text_at "crv" k "P-256"
       /\ forall pub, same_material k pub ->
            jwk_ok pub = true
            /\ forall header claims, exists jwe, jwe_encrypt header claims pub = Ok jwe /\ utf8_valid jwe = true
                 /\ jwe_open jwe = Ok (jprint (JObj claims))) ->
    (* it is asked to initiate a presentation *)
    serves web jwe_open a (HInitiate nonce fresh id) m m1 (RJson 200 (JObj answer)) ->
    (* the network *)
    (forall request response, at_session public "request" id request -> at_session public "response" id response ->
       relays web jwe_open a id request response m1 http) ->
    (* the wallet, called with the parameters of the authorization URL *)
    text_at "authorization_url" answer (conformance_wallet +:+ "?" +:+ query) -> param_pairs p = form_parse query ->
    clock_ok now -> (forall x, In x credentials -> utf8_valid (mc_raw x) = true) ->
    (exists x, In x credentials /\ is_pid x) ->
    exists endpoint, web conformance_wallet = Some endpoint /\ url_str endpoint = conformance_wallet /\
    let run := authorize web ssi_header web_uri jwk_ok jwe_encrypt lower sign now http endpoint credentials true p in
    exists response body m2 jwt m3 status info,
      at_session public "response" id response
      /\ posts (http_events (fst run)) = [wallet_post response body] /\ snd run = Ok None
      /\ serves web jwe_open a (HRequest (uuid_str id)) m1 m2 (RJwt jwt)
      /\ serves web jwe_open a (HResponse (uuid_str id) body) m2 m3 (RJson 200 (JObj []))
      /\ serves web jwe_open a (HStatus (uuid_str id)) m3 m3 (RJson 200 status)
      /\ says_success status info
      /\ if encrypted
         then exists claims i x dns names,
                members_are info [("message", JStr "JARM response decrypted and verified"); ("decrypted_payload", JObj claims)]
                /\ claims_of claims [("pid", [i])] None /\ In x credentials /\ is_pid x /\ dns_names c (dns :: names)
                /\ presented sign now (match nonce with Some n => n | None => uuid_str fresh end) ("x509_san_dns:" +:+ dns) (mc_raw x) i
         else members_are info [("message", JStr "Verification successful"); ("credentials_received", JInt 1)].
Proof.
  intros key idna ssi_header jwk_ok jwe_encrypt jwe_open lower sign now to_der c s alg k public encrypted a nonce fresh id m m1 answer query
    http credentials p Ok web E S P L A1 A2 A3 A4 A5 A6 A7 A8 A9 A10 A11 A12 U A13 A14 A15 A16.
  destruct (c115_hosts_pf idna Ok) as [H G]. destruct (wallet_reads idna) as (ep & W & T). exists ep. split; [exact W|]. split; [exact T|].
  rewrite <- T in U.
  exact (c113_interop_pf key (web_domain idna) web_ipv6 ssi_header jwk_ok jwe_encrypt jwe_open lower sign now to_der c s alg k public encrypted a nonce fresh id m m1
    answer query http ep credentials p H G E S P L A1 A2 A3 A4 A5 A6 A7 A8 A9 A10 A11 A12 W U A13 A14 A15 A16).
Qed.
Local Notation std_web := (web_parse (web_domain no_idna) web_ipv6).
Definition host_new (enc : bool) : res adapter :=
  app_new std_web (fun c => Ok (c_spki c)) (named ["v.example"] "K") (mk_signer (Ok "ES256") (Ok "k") (fun _ => "sig"))
    pair_key web_public enc.
Definition host_adapter (enc : bool) : adapter :=
  match host_new enc with Ok a => a | Err _ => mk_app (mk_verifier toy_client [] None (toy_url "https://x/")) toy_wm (toy_url "https://x/") end.
Definition host_serve (enc : bool) (h : hreq) (m : store) : store * res reply :=
  let '(m', _, r) := run false (app_validator pair_open) (handler std_web (host_adapter enc) h) m in (m', r).
Definition host_store (enc : bool) : store := fst (host_serve enc (HInitiate (Some "n") 1%N 7%N) []).
Definition host_http (enc : bool) : http_client := fun rq =>
  let (m2, r) := host_serve enc (HRequest (uuid_str 7%N)) (host_store enc) in
  if String.eqb (rq_method rq) "GET" then carried r else carried (snd (host_serve enc (HResponse (uuid_str 7%N) (rq_body rq)) m2)).
Definition host_run (enc : bool) : M wevent (option string) :=
  authorize std_web (fun _ => Some true) web_uri (fun _ => true) pair_encrypt (fun s => s) (fun _ => "S") 5 (host_http enc)
    pair_endpoint [pair_credential] true pair_params.
Example c115_interop_ex : forall enc : bool,
  exists response body, posts (http_events (fst (host_run enc))) = [wallet_post response body] /\ snd (host_run enc) = Ok None.
Proof. change wallet_post with plain_post.
  intros enc.
  assert (Pn : host_new enc = Ok (host_adapter enc)).
  { assert (O : is_ok (host_new enc) = true) by (destruct enc; vm_compute; reflexivity).
    unfold host_adapter. destruct (host_new enc); [reflexivity|discriminate O]. }
  assert (In0 : exists calls ans, run false (app_validator pair_open) (handler std_web (host_adapter enc) (HInitiate (Some "n") 1%N 7%N)) []
                              = (host_store enc, calls, Ok (RJson 200 (JObj ans)))
      /\ text_at "authorization_url" ans (url_str pair_endpoint +:+ "?" +:+ form_serialize (param_pairs pair_params))).
  { assert (X : snd (host_serve enc (HInitiate (Some "n") 1%N 7%N) []) = Ok (RJson 200 (JObj pair_answer))) by (destruct enc; vm_compute; reflexivity).
    unfold host_store. unfold host_serve in *.
    destruct (run false (app_validator pair_open) (handler std_web (host_adapter enc) (HInitiate (Some "n") 1%N 7%N)) []) as [[m' calls] r].
    cbn [fst snd] in *. subst r. exists calls, pair_answer. split; reflexivity. }
  destruct In0 as (calls & ans & I0 & U0).
  assert (Ph : plain_host_name web_public).
  { intros a c E I J. injection E as <-. apply in_chars in I, J. assert (K : forallb (fun c => implb (has_char c "v.example") (negb (has_char c quotes))) all_ascii = true) by (vm_compute; reflexivity).
    assert (X := sweep_impl (fun c => has_char c "v.example") (fun c => negb (has_char c quotes)) K c I). unfold quotes in X. cbv beta in X. rewrite J in X. discriminate. }
  assert (Pl : at_most 65488 web_public) by (unfold at_most; vm_compute; discriminate).
  assert (Wp : exists t, std_web t = Some web_public) by (exists "https://V.example"; vm_compute; reflexivity).
  destruct (c115_interop_pf _ no_idna (fun _ => Some true) (fun _ => true) pair_encrypt pair_open (fun s => s) (fun _ => "S") 5
     (fun c => Ok (c_spki c)) (named ["v.example"] "K") (mk_signer (Ok "ES256") (Ok "k") (fun _ => "sig")) "ES256" pair_key web_public enc (host_adapter enc) (Some "n") 1%N 7%N [] (host_store enc) ans (form_serialize (param_pairs pair_params)) (host_http enc) [pair_credential] pair_params (proj1 c115_hosts_ex) Wp (or_intror (or_introl eq_refl)) Ph Pl Pn)
    as (ep & Ep & _ & response & body & _ & _ & _ & _ & _ & _ & X & Y & _).
  - reflexivity.
  - reflexivity.
  - reflexivity.
  - reflexivity.
  - intros d D. apply certified_iff in D. destruct D as [<-|[]]. reflexivity.
  - intros n [= <-]. reflexivity.
  - reflexivity.
  - apply Nat.leb_le. vm_compute. reflexivity.
  - intros _. split; [reflexivity|]. intros pub _. split; [reflexivity|]. intros h cl. eexists. split; [reflexivity|]. split; [apply b64_utf8|].
    unfold pair_open. now rewrite b64url_rt.
  - exists calls. exact I0.
  - intros rq rs _ _. unfold relays, serves.
    destruct (run false (app_validator pair_open) (handler std_web (host_adapter enc) (HRequest (uuid_str 7%N))) (host_store enc)) as [[m2 cs] r2] eqn:E2.
    assert (R2 : exists r, r2 = Ok r).
    { cbn [handler] in E2. unfold get_request_object in E2. rewrite uuid_back, run_pfinish in E2 by reflexivity.
      destruct (run false (app_validator pair_open) (retrieve_code 7%N) (host_store enc)) as [[? ?] ?]. injection E2 as _ _ <-. eauto. }
    destruct R2 as (r & ->). exists m2, r. split; [eauto|]. unfold host_http, host_serve. rewrite E2.
    assert (C : forall x r, x = carried (Ok r) -> carries x r) by (intros x y ->; destruct y; cbn; eauto).
    split.
    + intros rq0 -> _. apply C. reflexivity.
    + intros rq0 m3 r3 -> _ (cs3 & E3). rewrite E3. apply C. reflexivity.
  - exact U0.
  - vm_compute. reflexivity.
  - reflexivity.
  - intros x [<-|[]]. reflexivity.
  - exists pair_credential. split; [now left|]. split; reflexivity.
  - assert (ep = pair_endpoint) by (assert (K : std_web conformance_wallet = Some pair_endpoint) by (vm_compute; reflexivity); congruence).
    subst ep. exists response, body. split; [exact X|exact Y].
Qed.
