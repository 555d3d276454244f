From Coq Require Import Lia.
From Verif Require Import Base BaseFacts Utf8 Utf8Facts Json JsonFacts JsonText JsonTextFacts Base64 Base64Facts Sha256 Serde Url UrlEncoded UrlEncodedFacts
  Object Formats Params Metadata Dcql Effects Jwt Request Verify Did X509 SpecCert CertFacts Client Response Session Builder Wallet ExMatcher.
From Verif Require Import MapFacts Spec SpecObject SpecRequest SpecVerify SpecResponse SpecWallet SpecBuilder SpecSession StoreFacts ParamFacts PfParams PfText SpecConfig
  PfRequest PfResolve PfVerify PfDid PfX509 PfClient PfResponse PfWallet PfBuilder PfSession SpecExample PfExample PfConfig SpecFlow PfFlow PfMetadata SpecMore.

Lemma alg_more w w' alg : declares_more w w' -> alg_supported w alg -> alg_supported w' alg.
Proof. intros D (l & G & I). destruct (dm_signing _ _ D l G) as (l' & G' & S). exists l'. split; [exact G'|]. now apply S. Qed.
Lemma allows_more k w w' (P : string -> Prop) : restricts_less k w w' -> wallet_allows w k P -> wallet_allows w' k P.
Proof.
  intros [N|[N L]] A; [now left|]. destruct A as [A|(l & v & G & I & H)]; [contradiction|].
  destruct (L l G) as (l' & G' & S). right. exists l', v. split; [exact G'|]. split; [now apply S|exact H].
Qed.
Lemma metadata_more w w' a : declares_more w w' -> metadata_accepts w a -> metadata_accepts w' a.
Proof.
  intros D [P (cm & mode & C & T & M)]. split.
  - intros p E. destruct (P p E) as (l & S & I). destruct (dm_prefixes _ _ D l S) as (l' & S' & J). exists l'. split; [exact S'|]. now apply J.
  - exists cm, mode. split; [exact C|]. split; [exact T|]. destruct M as [M|[M|[M (keys & encs & K & Ec & A & W1 & W2)]]]; [now left|now right; left|].
    right. right. split; [exact M|]. exists keys, encs. split; [exact K|]. split; [exact Ec|]. split; [exact A|]. split.
    + exact (allows_more _ _ _ _ (dm_algs _ _ D) W1).
    + exact (allows_more _ _ _ _ (dm_encs _ _ D) W2).
Qed.

(** C124: a wallet that declares more, and whose hooks refuse nothing more, validates every request it validated before,
    to the same request object and with the same HTTP requests and hooks. *)
Lemma c124_validates_pf
  : forall (url_parse : string -> option url) (ssi_header : obj -> option bool) (uri_ok : string -> bool)
      (w w' : wallet) (u : url) (a : aro),
    declares_more (w_metadata w) (w_metadata w') -> w_http w' = w_http w ->
    (forall h a jwt, w_hook w h a jwt = Ok tt -> w_hook w' h a jwt = Ok tt) ->
    snd (validate_request url_parse ssi_header uri_ok w u) = Ok a ->
    validate_request url_parse ssi_header uri_ok w' u = validate_request url_parse ssi_header uri_ok w u.
Proof.
  intros up ssi uok w w' u a D Eh Hk V. pose proof (request_run up ssi uok w u) as Q. pose proof (request_run up ssi uok w' u) as Q'.
  rewrite (proj1 (dm_endpoint _ _ D)) in Q'. destruct (from_url up u (wm_endpoint (w_metadata w))) as [r|e]; [|rewrite Q, Q'; reflexivity].
  rewrite Q in V |- *. rewrite Q'. clear Q Q'. rewrite validate_trace in V |- *. rewrite (validate_trace up ssi uok w r). cbn zeta in *. rewrite Eh.
  destruct (snd (resolve_request up ssi uok (w_http w) r)) as [[b jwt]|e]; [|reflexivity]. cbn [snd] in V.
  apply rbind_ok in V as ([] & V & _). rewrite verify_trace in V |- *. rewrite (verify_trace w b jwt).
  destruct (validate_against_metadata (w_metadata w) b) as [[]|e] eqn:M; [|discriminate V].
  apply c21_metadata_pf, (metadata_more _ _ _ D), c21_metadata_pf in M. rewrite M.
  destruct (hook_for (ro_scheme b)) as [h|]; [|reflexivity]. cbn [snd] in V. rewrite (Hk _ _ _ V), V. reflexivity.
Qed.
Example c124_validates_ex :
  is_ok (snd (validate_request simple_parse any_header (fun _ => true) (url_wallet ["x509_san_dns"]) (url_request "openid4vp://w/auth"))) = true
  /\ declares_more (w_metadata (url_wallet ["x509_san_dns"])) (w_metadata (url_wallet ["x509_hash"; "x509_san_dns"]))
  /\ is_ok (snd (validate_request simple_parse any_header (fun _ => true) (url_wallet ["x509_hash"]) (url_request "openid4vp://w/auth"))) = false.
Proof.
  split; [vm_compute; reflexivity|]. split; [|vm_compute; reflexivity].
  split; cbn; try (now left).
  - auto.
  - intros l E. injection E as <-. eexists. split; [reflexivity|]. intros x [<-|[]]. now right; left.
  - intros l E. discriminate E.
Qed.

(** C124: the library's own verification of DID clients accepts what it accepted when the wallet declares more or trusts more
    DIDs. *)
Lemma c124_did_pf
  : forall (key : Type) (ssi_header : obj -> option bool) (sig_ok : key -> string -> string -> string -> bool)
      (resolver : string -> res key) (w w' : wallet_metadata) (a : aro) (jwt : string) (trusted trusted' : option (list string)),
    declares_more w w' -> trusts_more trusted trusted' ->
    verify_with_resolver ssi_header sig_ok resolver w a jwt trusted = Ok tt ->
    verify_with_resolver ssi_header sig_ok resolver w' a jwt trusted' = Ok tt.
Proof.
  intros key ssi sig res w w' a jwt t t' D T V. apply c23_did_pf in V as (h64 & p64 & s64 & h & alg & C & H & A & S & V). apply c23_did_pf.
  exists h64, p64, s64, h, alg. repeat (split; [assumption|]). split; [exact (alg_more _ _ _ D S)|]. destruct V as [V|[N V]]; [now left|]. right.
  split; [exact N|]. destruct V as (kid & did & fr & cid & k & enc & pl & body & sg & K1 & K2 & K3 & K4 & K5 & K6 & K7).
  exists kid, did, fr, cid, k, enc, pl, body, sg. repeat (split; [assumption|]). split; [|exact K7].
  intros l E. destruct T as [T|(l0 & l' & T1 & T2 & T3)]; [congruence|]. rewrite T2 in E. injection E as <-. apply T3, K6, T1.
Qed.
Example c124_did_ex :
  did_verdict "K" (Some ["did:web:v.example"]) (did_header "ES256" "did:web:v.example#1") = Ok tt
  /\ trusts_more (Some ["did:web:v.example"]) (Some ["did:web:x"; "did:web:v.example"]) /\ trusts_more (Some ["did:web:v.example"]) None
  /\ exists w', add_signing_alg "ES384" did_wallet = Ok w'.
Proof.
  split; [vm_compute; reflexivity|]. split; [|split; [now left|eexists; reflexivity]]. right. do 2 eexists. split; [reflexivity|]. split; [reflexivity|]. intros x [<-|[]]. now right; left.
Qed.

(** C124: and so does its verification of X.509 clients. *)
Lemma c124_x509_pf
  : forall (cert_of_der : string -> option cert) (vkey : Type) (from_spki : string -> string -> option vkey)
      (verifies : vkey -> string -> string -> bool) (root : Type) (roots roots' : option (list root))
      (w w' : wallet_metadata) (a : aro) (jwt : string),
    declares_more w w' ->
    (x509_hash_validate cert_of_der from_spki verifies w a jwt roots = Ok tt ->
     x509_hash_validate cert_of_der from_spki verifies w' a jwt roots' = Ok tt)
    /\ (x509_san_validate cert_of_der from_spki verifies w a jwt roots = Ok tt ->
        x509_san_validate cert_of_der from_spki verifies w' a jwt roots' = Ok tt).
Proof.
  intros cod vkey fs vv root roots roots' w w' a jwt D. split; intros V.
  - apply c25_x509_hash_pf in V. apply c25_x509_hash_pf. revert V. pose proof (alg_more w w') as M. intros V.
    repeat match type of V with exists x, _ => let y := fresh x in destruct V as [y V]; exists y end. intuition auto.
  - apply c26_x509_san_pf in V. apply c26_x509_san_pf. pose proof (alg_more w w') as M.
    repeat match type of V with exists x, _ => let y := fresh x in destruct V as [y V]; exists y end. intuition auto.
Qed.
Example c124_x509_ex :
  hash_verdict toy_hash_id "K" (x5c_header "ES256" [b64std_encode "K|v.example"]) = Ok tt
  /\ san_verdict "x509_san_dns:v.example" "K" (x5c_header "ES256" [b64std_encode "K|v.example"]) = Ok tt.
Proof. split; vm_compute; reflexivity. Qed.

(** C124: a verifier builds for a wallet that declares more every request it built before, with the same URL and session. *)
Lemma c124_builds_pf
  : forall (url_parse : string -> option url) (b : request_builder) (u : uuid) (w w' : wallet_metadata) (m m' : store) (dest : url),
    declares_more w w' ->
    build_with_session_id url_parse b u w false m = (m', Ok dest) ->
    build_with_session_id url_parse b u w' false m = (m', Ok dest).
Proof.
  intros up b u w w' m m' d D B. unfold build_with_session_id, build_code in *.
  assert (P : forall x, rb_prepare up b u w = Ok x -> rb_prepare up b u w' = Ok x).
  { intros x. unfold rb_prepare. destruct (rb_complete up b u) as [[q ps]|e]; cbn [rbind]; [|discriminate]. intros H.
    apply rbind_ok in H as (l & L & H). apply prefixes_get in L. destruct (dm_prefixes _ _ D l L) as (l' & L' & S). apply prefixes_get in L'. rewrite L'. cbn [rbind].
    apply rbind_ok in H as ([] & I & H). apply of_bool_ok, mem_str_iff, S, mem_str_iff in I. rewrite I. cbn [of_bool rbind].
    revert H. unfold uo_get at 1 2. cbn [tp_key p_authorization_endpoint p_url]. rewrite (proj2 (dm_endpoint _ _ D)). exact (fun H => H). }
  destruct (rb_prepare up b u w) as [[s e]|e]; [|discriminate B]. rewrite (P _ eq_refl). exact B.
Qed.
Example c124_builds_ex :
  is_ok (snd (build_with_session_id simple_parse (toy_builder true toy_client) 7%N toy_wm false [])) = true
  /\ exists w', add_client_id_prefixes ["redirect_uri"] toy_wm = Ok w' /\ w' <> toy_wm.
Proof. split; [vm_compute; reflexivity|]. eexists. split; [reflexivity|]. discriminate. Qed.

(** C124: adding signing algorithms or client identifier prefixes is declaring more. *)
Lemma c124_added_pf
  : forall (w w' : wallet_metadata) (alg : string) (prefixes : list string),
    add_signing_alg alg w = Ok w' \/ add_client_id_prefixes prefixes w = Ok w' -> declares_more w w'.
Proof.
  assert (R : forall k w w', obj_get k (wm_obj w') = obj_get k (wm_obj w) -> restricts_less k w w').
  { intros k w w' E. destruct (obj_get k (wm_obj w)) as [v|] eqn:G; [|left; exact E]. right. split; [congruence|]. intros l H. exists l. split; [congruence|apply incl_refl]. }
  intros w w' alg ps [H|H].
  - pose proof (c61_signing_pf alg w) as A. rewrite H in A. destruct (supported "request_object_signing_alg_values_supported" [] w) as [old|e] eqn:S;
      [|destruct A as (e' & A); discriminate]. destruct A as (w1 & E & S' & E1 & E2 & K). injection E as <-. split.
    + split; [exact E1|]. now apply K.
    + intros l L. exists l. split; [|apply incl_refl]. revert L. unfold supported. now rewrite K.
    + intros l L. exists (l ++ [alg])%list. unfold supported in S, S'. rewrite L in S.
      assert (old = l).
      { clear - S. pose proof (mapM_de_str _ _ S) as M. revert M. clear. revert old. induction l as [|x l IH]; intros [|y o] M; try discriminate; [reflexivity|].
        injection M as -> M. f_equal. now apply IH. }
      subst old. split; [|apply incl_appl, incl_refl].
      destruct (obj_get "request_object_signing_alg_values_supported" (wm_obj w')) as [[| | | | |v|]|]; try discriminate S'.
      * now rewrite (mapM_de_str _ _ S').
      * exfalso. injection S' as S'. destruct l; discriminate S'.
    + apply R, K. discriminate.
    + apply R, K. discriminate.
  - pose proof (c61_prefixes_pf ps w) as A. rewrite H in A. destruct (supported "client_id_prefixes_supported" ["pre-registered"] w) as [old|e] eqn:S;
      [|destruct A as (e' & A); discriminate]. destruct A as (w1 & E & S' & E1 & E2 & K). injection E as <-. split.
    + split; [exact E1|]. now apply K.
    + intros l L. rewrite S in L. injection L as <-. eexists. split; [exact S'|]. apply incl_appl, incl_refl.
    + intros l L. exists l. split; [|apply incl_refl]. rewrite K; [exact L|discriminate].
    + apply R, K. discriminate.
    + apply R, K. discriminate.
Qed.
Example c124_added_ex :
  option_map wm_obj (match add_signing_alg "ES384" toy_wm with Ok w => Some w | Err _ => None end)
  = Some [("authorization_endpoint", JStr "https://w.example/authorize");
          ("client_id_prefixes_supported", jstrs ["x509_hash"; "x509_san_dns"; "decentralized_identifier"]);
          ("request_object_signing_alg_values_supported", jstrs ["ES256"; "ES384"])].
Proof. vm_compute. reflexivity. Qed.

(** C124: the example wallet finds credentials for every query for which it found some before it got more credentials. *)
Lemma c124_credentials_pf
  : forall (lower : string -> string) (credentials credentials' : list credential) (q : dcql) (s : selection),
    incl credentials credentials' -> match_query lower credentials q = Ok s ->
    exists s', match_query lower credentials' q = Ok s' /\ map fst s' = map fst s.
Proof.
  intros lower l l' q s I M. assert (X : exists s', match_query lower l' q = Ok s').
  { apply c67_complete_pf. destruct (proj1 (c67_complete_pf lower l q) (ex_intro _ s M)) as [N C]. split; [exact N|].
    intros cq H. destruct (C cq H) as (c & Hc & Sc). exists c. split; [now apply I|exact Sc]. }
  destruct X as (s' & M'). exists s'. split; [exact M'|]. unfold match_query in M, M'.
  apply rbind_ok in M as (t & M & E). apply rbind_ok in M' as (t' & M' & E').
  assert (t = s) by (destruct t; [discriminate E|now injection E]). assert (t' = s') by (destruct t'; [discriminate E'|now injection E']). subst t t'. clear E E'.
  assert (G : forall qs a b x y, map fst a = map fst b -> match_all lower l qs a = Ok x -> match_all lower l' qs b = Ok y -> map fst y = map fst x).
  { assert (Ad : forall id r r' (a b : selection), map fst a = map fst b -> map fst (sel_add id r a) = map fst (sel_add id r' b)).
    { intros id r r'. induction a as [|[k v] a IH]; intros [|[k' v'] b] E; try discriminate E; [reflexivity|]. cbn in E. injection E as -> E. cbn [sel_add].
      destruct (String.eqb k' id); cbn [map fst]; f_equal; auto. }
    induction qs as [|c qs IH]; intros a b x y E X Y; cbn [match_all] in X, Y.
    - injection X as <-. injection Y as <-. now symmetry.
    - apply rbind_ok in X as (c1 & _ & X). apply rbind_ok in Y as (c2 & _ & Y). eapply IH; [|exact X|exact Y]. now apply Ad. }
  exact (G _ _ _ _ _ eq_refl M M').
Qed.
Example c124_credentials_ex :
  match_query (fun s => s) [pid] (dcql_new [pid_query "a" "urn:pid" "given_name"]) = Ok [("a", ["iss~disc~kb"])]
  /\ match_query (fun s => s) [mk_credential "x" (mc_format pid) (mc_vct pid) None "other~" []; pid] (dcql_new [pid_query "a" "urn:pid" "given_name"]) = Ok [("a", ["other~"])].
Proof. split; vm_compute; reflexivity. Qed.

(** C124: but naming encryption algorithms for the first time is a restriction: a wallet that answered an encrypted request
    refuses it once it lists an algorithm. *)
Lemma c124_first_refuted_pf
  : exists (w w' : wallet) (a : aro) (alg : string),
    w_http w' = w_http w /\ w_hook w' = w_hook w
    /\ obj_get "authorization_encryption_alg_values_supported" (wm_obj (w_metadata w)) = None
    /\ obj_get "authorization_encryption_alg_values_supported" (wm_obj (w_metadata w')) = Some (jstrs [alg])
    /\ (forall k, k <> "authorization_encryption_alg_values_supported" -> obj_get k (wm_obj (w_metadata w')) = obj_get k (wm_obj (w_metadata w)))
    /\ snd (verify_request w a None) = Ok tt /\ exists e, snd (verify_request w' a None) = Err e.
Proof.
  set (wm := mk_wm [("client_id_prefixes_supported", jstrs ["x509_san_dns"])] (toy_url "openid4vp://w/auth") []).
  set (wm' := mk_wm (obj_insert "authorization_encryption_alg_values_supported" (jstrs ["RSA-OAEP"]) (wm_obj wm)) (wm_endpoint wm) []).
  set (o := jarm_request [JObj [("alg", JStr "ECDH-ES"); ("use", JStr "enc")]]).
  assert (X : match aro_of_obj simple_parse o with
              | Ok a => is_ok (snd (verify_request (mk_wallet wm (PfResolve.serve 404 "") (fun _ _ _ => Ok tt)) a None))
                        && negb (is_ok (snd (verify_request (mk_wallet wm' (PfResolve.serve 404 "") (fun _ _ _ => Ok tt)) a None)))
              | Err _ => false end = true) by (vm_compute; reflexivity).
  destruct (aro_of_obj simple_parse o) as [a|]; [|discriminate X]. apply andb_prop in X as [X1 X2].
  exists (mk_wallet wm (PfResolve.serve 404 "") (fun _ _ _ => Ok tt)), (mk_wallet wm' (PfResolve.serve 404 "") (fun _ _ _ => Ok tt)), a, "RSA-OAEP".
  split; [reflexivity|]. split; [reflexivity|]. split; [reflexivity|]. split; [reflexivity|]. split.
  - intros k N. cbn [w_metadata wm' wm_obj]. rewrite obj_get_insert. destruct (String.eqb_spec k "authorization_encryption_alg_values_supported"); [contradiction|reflexivity].
  - destruct (snd (verify_request (mk_wallet wm _ _) a None)) as [[]|]; [|discriminate X1]. split; [reflexivity|].
    destruct (snd (verify_request (mk_wallet wm' _ _) a None)) as [|e]; [discriminate X2|]. eauto.
Qed.
