From Coq Require Import Lia ZArith.
From Verif Require Import Base BaseFacts Utf8 Json JsonFacts JsonText JsonTextFacts Serde Url UrlEncoded Object Formats Params Metadata Dcql
  Request Response Session X509 SpecCert CertFacts Client Builder Server ExVerifier.
From Verif Require Import MapFacts Spec SpecObject SpecRequest SpecJwe SpecBuilder SpecSession StoreFacts PfBuilder UuidFacts PfSession PfServer
  SpecVerifierEx PfExServer.

Lemma join_sibling base seg r : join_last base seg = Ok r -> sibling base seg r.
Proof.
  unfold join_last. destruct (u_opaque base) eqn:O; [discriminate|]. intros [= <-]. unfold sibling. cbn. repeat (split; [auto; fail|]).
  eexists. split; [reflexivity|]. destruct (rsplit_once "/" (u_path base)) as [[d l]|] eqn:E.
  - left. exists l. apply rsplit_once_some in E. exact E.
  - right. apply rsplit_once_none in E. auto.
Qed.

Lemma sorted_insert k v o : keys_sorted o = true -> keys_sorted (obj_insert k v o) = true.
Proof. intros H. apply keys_sorted_iff, ksorted_insert, keys_sorted_iff, H. Qed.
Lemma prepare_sorted up b u wm s dest : rb_prepare up b u wm = Ok (s, dest) -> keys_sorted (rb_params b) = true ->
  keys_sorted (aro_to_obj (s_request s)) = true.
Proof.
  unfold rb_prepare. intros H K. apply rbind_ok in H as ([q ps] & Ec & H). apply rbind_ok in H as (pf & Ep & H).
  apply rbind_ok in H as (x & Eb & H). apply rbind_ok in H as (a & Ea & H). apply rbind_ok in H as (jwt & Ej & H).
  apply rbind_ok in H as ([st ind] & Ei & H). apply rbind_ok in H as (ep & Eep & H). apply rbind_ok in H as (d & Ed & H). injection H as <- <-.
  cbn [s_request]. destruct (built_accepted up b u q ps a Ec Ea) as (_ & -> & _). unfold rb_complete in Ec.
  apply rbind_ok in Ec as (q' & _ & Ec). apply rbind_ok in Ec as (rt & _ & Ec). apply rbind_ok in Ec as (m & _ & Ec).
  assert (S : keys_sorted (uo_put p_dcql q' (uo_put p_client_id (cl_client_id (v_client (rb_verifier b))) (rb_params b))) = true).
  { change (keys_sorted (obj_insert "dcql_query" (dcql_to_json q') (obj_insert "client_id" (JStr (cl_client_id (v_client (rb_verifier b)))) (rb_params b))) = true).
    now apply sorted_insert, sorted_insert. }
  destruct m; try discriminate; try (injection Ec as <- <-; exact S).
  - apply rbind_ok in Ec as (uri & _ & Ec). injection Ec as <- <-. now apply (sorted_insert "response_uri" (JStr (url_str uri))).
  - apply rbind_ok in Ec as (uri & _ & Ec). injection Ec as <- <-. now apply (sorted_insert "response_uri" (JStr (url_str uri))).
Qed.

Section I.
Context {key : Type}.
Variable up : string -> option url.
Variables (to_der : cert -> res string) (c : cert) (s : signer key) (k : obj) (public : url) (enc : bool).

Definition app_defaults : obj :=
  vb_defaults (vb_with_default p_client_metadata (client_metadata_of (if enc then Some k else None))
                (vb_with_default p_response_mode (if enc then DirectPostJwt else DirectPost)
                  (vb_with_default p_response_type RtVpToken vb_new))).
Lemma app_inv a : app_new up to_der c s k public enc = Ok a ->
  exists ep dns names submission base,
    up WALLET_AUTHORIZATION_ENDPOINT = Some ep /\ c_dns c = dns :: names
    /\ join_last public "response" = Ok submission /\ join_last public "request" = Ok base
    /\ a = mk_app (mk_verifier (mk_client ("x509_san_dns:" +:+ dns) "x509_san_dns" (x509_jwt to_der [c] s)) app_defaults (Some base) submission)
             (app_wallet up ep) public.
Proof.
  unfold app_new. intros H. apply rbind_ok in H as (ep & Ep & H). apply ok_or_ok in Ep. apply rbind_ok in H as (cl & Ec & H).
  apply rbind_ok in H as (su & Es & H). apply rbind_ok in H as (ba & Eb & H). cbn in H. injection H as <-.
  unfold x509_san_client in Ec. apply rbind_ok in Ec as (dns & Ed & Ec). apply ok_or_ok in Ed. injection Ec as <-.
  destruct (c_dns c) as [|d names] eqn:E; [discriminate|]. injection Ed as ->. exists ep, dns, names, su, ba. repeat split; auto.
Qed.
Lemma defaults_are n : obj_get n app_defaults =
  if String.eqb n "client_metadata" then Some (JObj (client_metadata_of (if enc then Some k else None)))
  else if String.eqb n "response_mode" then Some (JStr (if enc then "direct_post.jwt" else "direct_post"))
  else if String.eqb n "response_type" then Some (JStr "vp_token") else None.
Proof.
  unfold app_defaults. cbn [vb_with_default vb_defaults vb_new].
  change (obj_get n (obj_insert "client_metadata" (JObj (client_metadata_of (if enc then Some k else None)))
     (obj_insert "response_mode" (JStr (mode_to_string (if enc then DirectPostJwt else DirectPost))) (obj_insert "response_type" (JStr "vp_token") []))) = 
    if String.eqb n "client_metadata" then Some (JObj (client_metadata_of (if enc then Some k else None)))
    else if String.eqb n "response_mode" then Some (JStr (if enc then "direct_post.jwt" else "direct_post"))
    else if String.eqb n "response_type" then Some (JStr "vp_token") else None).
  rewrite !obj_get_insert. destruct enc; reflexivity.
Qed.
Lemma declared : declares k enc (JObj (client_metadata_of (if enc then Some k else None))).
Proof.
  exists (client_metadata_of (if enc then Some k else None)), (published_key k). split; [reflexivity|]. split; [split; [destruct enc; reflexivity|]|split].
  - intros n v. destruct enc; cbn [client_metadata_of].
    + change (obj_get n (obj_insert "jwks" (JObj [("keys", JArr [JObj (published_key k)])])
        (obj_insert "vp_formats_supported" (JObj [("dc+sd-jwt", JObj [])]) [])) = Some v <->
        In (n, v) [("vp_formats_supported", JObj [("dc+sd-jwt", JObj [])]); ("jwks", JObj [("keys", JArr [JObj (published_key k)])])]).
      rewrite !obj_get_insert. cbn [In obj_get]. destruct (String.eqb_spec n "jwks") as [->|N1].
      * split; [intros [= <-]; auto|]. intros [X|[X|[]]]; congruence.
      * destruct (String.eqb_spec n "vp_formats_supported") as [->|N2].
        -- split; [intros [= <-]; auto|]. intros [X|[X|[]]]; congruence.
        -- split; [discriminate|]. intros [X|[X|[]]]; congruence.
    + change (obj_get n (obj_insert "vp_formats_supported" (JObj [("dc+sd-jwt", JObj [])]) []) = Some v <->
        In (n, v) [("vp_formats_supported", JObj [("dc+sd-jwt", JObj [])])]).
      rewrite !obj_get_insert. cbn [In obj_get]. destruct (String.eqb_spec n "vp_formats_supported") as [->|N2].
      * split; [intros [= <-]; auto|]. intros [X|[]]; congruence.
      * split; [discriminate|]. intros [X|[]]; congruence.
  - intros K. unfold published_key. now repeat apply sorted_insert.
  - intros n. unfold published_key. now rewrite !obj_get_insert.
Qed.
End I.

Lemma initiate_run up a nonce fresh id v m :
  run false v (initiate_request up a nonce fresh id) m
  = match rb_prepare up (initiate_builder a nonce fresh) id (ap_wallet a) with
    | Err _ => (m, [], Ok (RError 500))
    | Ok (s, dest) => (st_insert (s_uuid s) s m, [], Ok (initiate_reply a id (Ok dest)))
    end.
Proof.
  unfold initiate_request. rewrite run_pfinish. unfold build_code.
  destruct (rb_prepare up (initiate_builder a nonce fresh) id (ap_wallet a)) as [[s d]|e]; reflexivity.
Qed.

(* --------------------------------------------------------------------- C77 *)
(** C77: when a presentation is initiated, the session is stored under the id that is returned, with a request object
    that says exactly what the verifier is configured for: its certificate's DNS name as client id, the given nonce or
    a fresh one, the mode, the response endpoint of that session, the query, and its metadata, with its key exactly
    in the encrypted mode; the JWT is that object signed with the certificate; the URL returned points the wallet to
    the request endpoint of that session. *)
Lemma c77_initiate_pf
  : forall (key : Type) (url_parse : string -> option url) (to_der : cert -> res string) (c : cert) (s : signer key)
      (k : obj) (public : url) (encrypted : bool) (a : adapter) (nonce : option string) (fresh id : uuid)
      (validator : session -> auth_response -> outcome) (m m' : store) calls (j : json),
    app_new url_parse to_der c s k public encrypted = Ok a ->
    run false validator (initiate_request url_parse a nonce fresh id) m = (m', calls, Ok (RJson 200 j)) ->
    exists dns names sess response request wallet endpoint dest,
      dns_names c (dns :: names)
      /\ at_session public "response" id response /\ at_session public "request" id request
      /\ st_get id m' = Some sess /\ (forall id', id' <> id -> st_get id' m' = st_get id' m)
      /\ s_status sess = SentRequestByReference /\ s_dcql sess = app_query
      /\ asks (aro_to_obj (s_request sess)) dns (match nonce with Some n => n | None => uuid_str fresh end) k encrypted response
      /\ x509_jwt to_der [c] s (s_request sess) = Ok (s_jwt sess)
      /\ url_parse conformance_wallet = Some wallet /\ url_parse (url_str wallet) = Some endpoint
      /\ to_url (mk_ar (Some ("x509_san_dns:" +:+ dns)) (ByReference request)) endpoint = Ok dest
      /\ members_are j [("session_id", JStr (uuid_str id)); ("authorization_url", JStr (url_str dest));
                        ("status_url", JStr (url_str public +:+ "/status/" +:+ uuid_str id))].
Proof.
  change conformance_wallet with WALLET_AUTHORIZATION_ENDPOINT.
  intros key up to_der c s k public enc a nonce fresh id v m m' calls j Ha H.
  apply app_inv in Ha as (w & dns & names & su & ba & Ew & Ed & Es & Eb & ->). apply dns_cons in Ed. rewrite initiate_run in H.
  destruct (rb_prepare up _ id _) as [[x dest]|e] eqn:E; [|discriminate]. cbn [initiate_reply] in H. injection H as <- <- <-.
  assert (So : keys_sorted (aro_to_obj (s_request x)) = true).
  { eapply prepare_sorted; [exact E|]. destruct enc; reflexivity. }
  apply prepare_inv in E as (U & Q & B & _ & J & _ & ind & ep & Cv & We & To).
  cbn [initiate_builder rb_with_param rb_with_dcql rb_new rb_verifier rb_dcql rb_params ap_verifier ap_wallet v_client v_byref v_defaults cl_jwt cl_client_id
       v_submission] in *.
  destruct Cv as (rq & Er & -> & St). destruct B as (B1 & B2 & B3 & mode & B4 & B5).
  cbn [rb_verifier rb_params v_client cl_client_id v_submission] in *.
  assert (P : forall n, obj_get n (uo_put p_nonce (initiate_nonce nonce fresh) (app_defaults k enc))
     = if String.eqb n "nonce" then Some (JStr (initiate_nonce nonce fresh)) else obj_get n (app_defaults k enc)).
  { intros n. change (uo_put p_nonce (initiate_nonce nonce fresh) (app_defaults k enc))
      with (obj_insert "nonce" (JStr (initiate_nonce nonce fresh)) (app_defaults k enc)). apply obj_get_insert. }
  unfold text_at in B4. rewrite P, defaults_are in B4. cbn [String.eqb Ascii.eqb Bool.eqb] in B4. injection B4 as <-.
  assert (exists r, extended su (uuid_str id) r /\ text_at "response_uri" (aro_to_obj (s_request x)) (url_str r)) as (r & R1 & R2).
  { destruct B5 as [[_ B5]|[B5 _]]; [exact B5|]. destruct enc, B5; discriminate. }
  destruct We as (t & Wt & Wp). injection Q as Q.
  exists dns, names, x, r, rq, w, ep, dest. split; [exact Ed|]. split; [exists su; split; [now apply join_sibling|exact R1]|].
  split; [exists ba; split; [now apply join_sibling|now rewrite <- U]|]. subst id. split; [now rewrite st_get_insert, N.eqb_refl|].
  split. { intros u' N0. rewrite st_get_insert. destruct (N.eqb_spec u' (s_uuid x)); [contradiction|reflexivity]. }
  split; [exact St|]. split; [congruence|]. split.
  - exists (JObj (client_metadata_of (if enc then Some k else None))). split; [apply declared|]. split; [exact So|]. intros n y.
    assert (G : obj_get n (aro_to_obj (s_request x)) =
      if String.eqb n "client_id" then Some (JStr ("x509_san_dns:" +:+ dns))
      else if String.eqb n "dcql_query" then Some (dcql_to_json app_query)
      else if String.eqb n "response_uri" then Some (JStr (url_str r))
      else if String.eqb n "nonce" then Some (JStr (initiate_nonce nonce fresh))
      else if String.eqb n "client_metadata" then Some (JObj (client_metadata_of (if enc then Some k else None)))
      else if String.eqb n "response_mode" then Some (JStr (if enc then "direct_post.jwt" else "direct_post"))
      else if String.eqb n "response_type" then Some (JStr "vp_token") else None).
    { destruct (String.eqb_spec n "client_id") as [->|N1]; [exact B1|]. destruct (String.eqb_spec n "dcql_query") as [->|N2]; [now rewrite Q|].
      destruct (String.eqb_spec n "response_uri") as [->|N3]; [exact R2|]. rewrite B3 by assumption. rewrite P, defaults_are. reflexivity. }
    rewrite G. fold (initiate_nonce nonce fresh).
    replace (JObj [("credentials", _)]) with (dcql_to_json app_query) by (vm_compute; reflexivity).
    generalize (dcql_to_json app_query), (JObj (client_metadata_of (if enc then Some k else None))), (initiate_nonce nonce fresh), (url_str r),
      ("x509_san_dns:" +:+ dns), (if enc then "direct_post.jwt" else "direct_post"). clear. intros q me no re cl mo. cbn [In].
    repeat match goal with
    | |- context [String.eqb n ?t] => destruct (String.eqb_spec n t) as [->|?N]
    end; (split; [intros X; try discriminate X; injection X as <-; tauto
                 |intros X; repeat destruct X as [X|X]; try contradiction; try (injection X as <- <-; congruence); congruence]).
  - split; [exact J|]. split; [exact Ew|]. split.
    + assert (text_at "authorization_endpoint" (wm_obj (app_wallet up w)) (url_str w)) as X.
      { unfold text_at. change (wm_obj (app_wallet up w)) with
          (obj_insert "client_id_prefixes_supported" (jstrs ["x509_san_dns"]) (obj_insert "vp_formats_supported" (format_map_to_json sd_jwt_formats)
             (obj_insert "authorization_endpoint" (JStr (url_str w)) []))). rewrite !obj_get_insert. reflexivity. }
      assert (t = url_str w) by (eapply text_unique; eassumption). congruence.
    + split; [exact To|]. unfold status_url. cbn [ap_public]. apply members_of; [reflexivity|]. cbn [In]. tauto.
Qed.

Example c77_initiate_ex :
  exists a, app_new simple_parse (fun c => Ok (c_spki c)) (named ["v.example"] "K") (mk_signer (Ok "ES256") (Ok "k") (fun _ => "sig"))
    [("kty", JStr "EC")] (toy_url "https://v.example/") true = Ok a
  /\ snd (run false (app_validator toy_open) (initiate_request simple_parse a (Some "n") 1%N 7%N) [])
     = Ok (RJson 200 (JObj [("authorization_url", JStr "https://demo.certification.openid.net/test/a/my-verifier-oid4vp1/authorize?client_id=x509_san_dns%3Av.example&request_uri=https%3A%2F%2Fv.example%2Frequest%2F00000000-0000-0000-0000-000000000007");
                            ("session_id", JStr "00000000-0000-0000-0000-000000000007");
                            ("status_url", JStr "https://v.example//status/00000000-0000-0000-0000-000000000007")])).
Proof. eexists. split; [reflexivity|]. vm_compute. reflexivity. Qed.

(** C77: initiating answers 200 or 500, and with 500 nothing is stored. *)
Lemma c77_failed_pf
  : forall (url_parse : string -> option url) (a : adapter) (nonce : option string) (fresh id : uuid)
      (validator : session -> auth_response -> outcome) (m : store),
    (exists m' j, run false validator (initiate_request url_parse a nonce fresh id) m = (m', [], Ok (RJson 200 j)))
    \/ run false validator (initiate_request url_parse a nonce fresh id) m = (m, [], Ok (RError 500)).
Proof.
  intros up a nonce fresh id v m. rewrite initiate_run. destruct (rb_prepare up _ id _) as [[x dest]|e]; [left|right; reflexivity]. cbn [initiate_reply]. eauto.
Qed.

Example c77_failed_ex :
  run false (app_validator toy_open)
    (initiate_request simple_parse (mk_app (mk_verifier toy_client [] None (toy_url "https://x/")) toy_wm (toy_url "https://x/")) None 1%N 7%N) []
  = ([], [], Ok (RError 500)).
Proof. vm_compute. reflexivity. Qed.

(** C77: initiating succeeds whenever the certificate and the key can sign and the URLs involved can be read back. *)
Lemma c77_succeeds_pf
  : forall (key : Type) (url_parse : string -> option url) (to_der : cert -> res string) (c : cert) (s : signer key)
      (k : obj) (public : url) (encrypted : bool) (a : adapter) (nonce : option string) (fresh id : uuid)
      (validator : session -> auth_response -> outcome) (m : store) (alg der : string),
    app_new url_parse to_der c s k public encrypted = Ok a ->
    sg_alg s = Ok alg -> to_der c = Ok der ->
    (forall r, at_session public "response" id r -> url_parse (url_str r) <> None) ->
    (forall w, url_parse conformance_wallet = Some w -> url_parse (url_str w) <> None) ->
    exists m' j, run false validator (initiate_request url_parse a nonce fresh id) m = (m', [], Ok (RJson 200 j)).
Proof.
  change conformance_wallet with WALLET_AUTHORIZATION_ENDPOINT.
  intros key up to_der c s k public enc a nonce fresh id v m alg der Ha Al De Hr Hw.
  destruct (c77_failed_pf up a nonce fresh id v m) as [H|H]; [exact H|]. exfalso.
  apply app_inv in Ha as (w & dns & names & su & ba & Ew & Ed & Es & Eb & ->). specialize (Hw w Ew).
  destruct (up (url_str w)) as [ep|] eqn:Ep; [|now destruct Hw].
  rewrite initiate_run in H. cbn [ap_wallet] in H. set (b := initiate_builder _ nonce fresh) in *.
  assert (P : forall n, obj_get n (rb_params b)
     = if String.eqb n "nonce" then Some (JStr (initiate_nonce nonce fresh)) else obj_get n (app_defaults k enc)).
  { intros n. change (rb_params b) with (obj_insert "nonce" (JStr (initiate_nonce nonce fresh)) (app_defaults k enc)). apply obj_get_insert. }
  assert (W : forall n, obj_get n (wm_obj (app_wallet up w)) = if String.eqb n "client_id_prefixes_supported" then Some (jstrs ["x509_san_dns"])
     else if String.eqb n "vp_formats_supported" then Some (format_map_to_json sd_jwt_formats)
     else if String.eqb n "authorization_endpoint" then Some (JStr (url_str w)) else None).
  { intros n. change (wm_obj (app_wallet up w)) with
      (obj_insert "client_id_prefixes_supported" (jstrs ["x509_san_dns"]) (obj_insert "vp_formats_supported" (format_map_to_json sd_jwt_formats)
         (obj_insert "authorization_endpoint" (JStr (url_str w)) []))). now rewrite !obj_get_insert. }
  pose proof (join_sibling _ _ _ Es) as Ss. pose proof (join_sibling _ _ _ Eb) as Sb.
  destruct (c29_succeeds_pf up b id (app_wallet up w) m app_query (if enc then "direct_post.jwt" else "direct_post") "vp_token"
      (initiate_nonce nonce fresh) ["x509_san_dns"] ep) as (m' & dest & X).
  - reflexivity.
  - unfold text_at. rewrite P, defaults_are. reflexivity.
  - unfold text_at. rewrite P. reflexivity.
  - unfold absent. rewrite P, defaults_are. reflexivity.
  - unfold text_at. rewrite P, defaults_are. reflexivity.
  - left. split; [destruct enc; auto|]. split; [apply Ss|]. intros r Er. apply Hr. exists su. split; [exact Ss|exact Er].
  - unfold supported. rewrite W. reflexivity.
  - now left.
  - intros x. cbn [b initiate_builder rb_with_param rb_with_dcql rb_new rb_verifier ap_verifier v_client cl_jwt]. unfold x509_jwt. rewrite Al. cbn [rbind mapM]. rewrite De.
    cbn [rbind]. eauto.
  - intros at_ X. cbn in X. injection X as <-. apply Sb.
  - exists (url_str w). split; [unfold text_at; rewrite W; reflexivity|exact Ep].
  - unfold build_with_session_id, build_code in X.
    destruct (rb_prepare up b id (app_wallet up w)) as [[x d]|e]; [discriminate H|]. discriminate X.
Qed.

Example c77_succeeds_ex :
  simple_parse (url_str (toy_url "https://v.example/response/00000000-0000-0000-0000-000000000007")) <> None
  /\ match simple_parse WALLET_AUTHORIZATION_ENDPOINT with Some w => simple_parse (url_str w) <> None | None => False end.
Proof. vm_compute. split; discriminate. Qed.
