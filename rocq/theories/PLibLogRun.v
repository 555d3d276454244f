(** The library's log over a whole request (C141) *)
From Coq Require Import Lia.
From Verif Require Import Base BaseFacts Utf8 Json JsonFacts JsonText JsonTextFacts Base64 Base64Facts Sha256 Url Serde Object Formats Params Metadata
  Effects Jwt Request Verify Response Jwe Did X509 Client ExMatcher ExWallet LibLog LibLogRun MapFacts Spec SpecObject SpecRequest SpecVerify SpecJwe
  SpecExample SpecLog SpecLibLog SpecLibLogRun ParamFacts PfText PfRequest PfResolve PfVerify PfResponse PfJwe PfDid PfX509 PfClient PfExample PfLogWallet PfLibLog.
From Verif Require Import PfLibLogRun.

(** C141: the log of an accepted request tells how it was accepted: what was lenient about its type, and only for a
    redirect_uri identifier; that it came without client metadata, exactly if it did; then whatever the wallet's check logs. *)
Theorem c141_accepted
  : forall (url_parse : string -> option url) (ssi_header : obj -> option bool) (uri_ok : string -> bool)
      (hook_log : hook -> aro -> option string -> list entry) (w : wallet) (r : auth_request) (a : aro),
    snd (validate url_parse ssi_header uri_ok w r) = Ok a ->
    exists jwt h ts ms, snd (resolve_request url_parse ssi_header uri_ok (w_http w) r) = Ok (a, jwt)
      /\ In (EHook h a jwt) (fst (validate url_parse ssi_header uri_ok w r))
      /\ validate_log url_parse ssi_header uri_ok hook_log w r = ts ++ ms ++ hook_log h a jwt
      /\ typ_noted jwt ts /\ (ts <> [] -> for_redirect r) /\ metadata_noted a ms.
Proof. exact c141_accepted_pf. Qed.
Print Assumptions c141_accepted.

Example c141_accepted_witness :
  is_ok (snd (validate simple_parse any_header (fun _ => true) (lax_wallet ["redirect_uri"] run_http) run_request)) = true
  /\ map fst (validate_log simple_parse any_header (fun _ => true) (fun _ _ _ => [(Debug, "checked")]) (lax_wallet ["redirect_uri"] run_http) run_request)
     = [Warn; Warn; Debug].
Proof. exact c141_accepted_ex. Qed.

(** C141: whatever arrives, the library adds at most two lines of its own before the wallet's check is called, both
    warnings; everything else in the log is of a check that was really called. *)
Theorem c141_few
  : forall (url_parse : string -> option url) (ssi_header : obj -> option bool) (uri_ok : string -> bool)
      (hook_log : hook -> aro -> option string -> list entry) (w : wallet) (r : auth_request),
    exists own rest, validate_log url_parse ssi_header uri_ok hook_log w r = own ++ rest
      /\ length own <= 2 /\ Forall (fun e => fst e = Warn) own
      /\ (rest = [] \/ exists h a jwt, In (EHook h a jwt) (fst (validate url_parse ssi_header uri_ok w r)) /\ rest = hook_log h a jwt).
Proof. exact c141_few_pf. Qed.
Print Assumptions c141_few.

Example c141_few_witness :
  is_ok (snd (validate simple_parse any_header (fun _ => true) (lax_wallet ["x509_hash"] run_http) run_request)) = false
  /\ map fst (validate_log simple_parse any_header (fun _ => true) (fun _ _ _ => [(Debug, "checked")]) (lax_wallet ["x509_hash"] run_http) run_request)
     = [Warn].
Proof. exact c141_few_ex. Qed.

(** C141: of a request that is not accepted the log tells as little: of one that cannot be read, nothing but the warning about
    the object that the wallet really obtained; of one whose prefix is not supported, not even whether it had client metadata. *)
Theorem c141_refused
  : forall (url_parse : string -> option url) (ssi_header : obj -> option bool) (uri_ok : string -> bool)
      (hook_log : hook -> aro -> option string -> list entry) (w : wallet) (r : auth_request),
    let log := validate_log url_parse ssi_header uri_ok hook_log w r in
    (forall e, snd (resolve_request url_parse ssi_header uri_ok (w_http w) r) = Err e ->
       log = [] \/ exists jwt, obtained uri_ok (w_http w) r jwt /\ for_redirect r /\ typ_noted (Some jwt) log)
    /\ (forall a jwt, snd (resolve_request url_parse ssi_header uri_ok (w_http w) r) = Ok (a, jwt) ->
         (~ prefix_ok (w_metadata w) a -> typ_noted jwt log)
         /\ (prefix_ok (w_metadata w) a -> ~ metadata_accepts (w_metadata w) a ->
              exists ts ms, log = ts ++ ms /\ typ_noted jwt ts /\ metadata_noted a ms)).
Proof. exact c141_refused_pf. Qed.
Print Assumptions c141_refused.

Example c141_refused_witness :
  match snd (resolve_request simple_parse any_header (fun _ => true) run_http run_request) with Ok (a, Some _) => true | _ => false end = true
  /\ validate_log simple_parse any_header (fun _ => true) (fun _ _ _ => []) (lax_wallet ["x509_hash"] run_http) run_request
     = [(Warn, "Request Object has incorrect 'typ' header 'JWT' (expected 'oauth-authz-req+jwt'), but allowing for redirect_uri prefix per Section 5.9.3")].
Proof. exact c141_refused_ex. Qed.

(** C141: it does not matter to the log whether a request object comes in the request or from the address in it. *)
Theorem c141_fetched
  : forall (url_parse : string -> option url) (ssi_header : obj -> option bool) (uri_ok : string -> bool)
      (hook_log : hook -> aro -> option string -> list entry) (w : wallet) (c : option string) (u : url) (status : N) (jwt : string),
    uri_ok (url_str u) = true -> (200 <= status < 300)%N -> utf8_valid jwt = true -> w_http w (get_request u) = Ok (mk_resp status jwt) ->
    validate_log url_parse ssi_header uri_ok hook_log w (mk_ar c (ByReference u))
    = validate_log url_parse ssi_header uri_ok hook_log w (mk_ar c (ByValue jwt)).
Proof. exact c141_fetched_pf. Qed.
Print Assumptions c141_fetched.

Example c141_fetched_witness : option_map (fun u => is_ok (serve 200 "x" (get_request u))) (simple_parse "https://v.example/request") = Some true.
Proof. exact c141_fetched_ex. Qed.

(** C141: the request objects that the library's own clients sign cause no warning about their type, under any identifier. *)
Theorem c141_own
  : forall (key : Type) (s : signer key) (alg : string) (body : aro) (jwt : string) (uri_ok : string -> bool) (http : http_client)
      (c : option string) (cl : client) (key_eqb : key -> key -> bool) (resolver : string -> res key) (vm : string)
      (to_der : cert -> res string) (chain : list cert),
    sg_alg s = Ok alg -> utf8_valid alg = true -> utf8_valid vm = true -> cl_jwt cl body = Ok jwt ->
    did_client key_eqb resolver vm s = Ok cl \/ x509_hash_client to_der chain s = Ok cl \/ x509_san_client to_der chain s = Ok cl ->
    resolve_log uri_ok http (mk_ar c (ByValue jwt)) = [].
Proof. exact c141_own_pf. Qed.
Print Assumptions c141_own.

Example c141_own_witness :
  match did_client String.eqb toy_resolver ("did:web:v.example" +:+ "#" +:+ "1") (toy_signer "K"), aro_of_obj simple_parse (x509_request "x") with
  | Ok c, Ok a => is_ok (cl_jwt c a) | _, _ => false end = true /\ is_ok (sg_alg (toy_signer "K")) = true.
Proof. exact c141_own_ex. Qed.

(** C141: what the holder's credentials contain does not show in the library's log: two wallets whose credentials differ only in
    their text have the same log, whatever is requested. *)
Theorem c141_holder
  : forall (url_parse : string -> option url) (ssi_header : obj -> option bool) (uri_ok : string -> bool) (lower : string -> string)
      (http : http_client) (endpoint : url) (consent : bool) (p : params) (st st' : list credential),
    Forall2 same_but_text st st' ->
    wallet_log url_parse ssi_header uri_ok lower http endpoint st consent p = wallet_log url_parse ssi_header uri_ok lower http endpoint st' consent p.
Proof. exact c141_holder_pf. Qed.
Print Assumptions c141_holder.

Example c141_holder_witness : Forall2 same_but_text [pid] [other_pid] /\ String.eqb (mc_raw pid) (mc_raw other_pid) = false
  /\ sealed_log [pid] = [(Debug, "JWK missing required 'alg' parameter, skipping")].
Proof. exact c141_holder_ex. Qed.

(** C141: of any wallet the log tells one bit at most: the request alone fixes two logs, and every holder has one of them. *)
Theorem c141_bit
  : forall (url_parse : string -> option url) (ssi_header : obj -> option bool) (uri_ok : string -> bool) (lower : string -> string)
      (http : http_client) (endpoint : url) (p : params),
    exists common extra, forall (st : list credential) (consent : bool),
      wallet_log url_parse ssi_header uri_ok lower http endpoint st consent p = common
      \/ wallet_log url_parse ssi_header uri_ok lower http endpoint st consent p = common ++ extra.
Proof. exact c141_bit_pf. Qed.
Print Assumptions c141_bit.

Example c141_bit_witness : sealed_log [] = [] /\ sealed_log [pid] = [(Debug, "JWK missing required 'alg' parameter, skipping")].
Proof. exact c141_bit_ex. Qed.

(** C141: when a wallet that uses the library's checks accepts a request for a certificate hash, its log ends with the
    certificate and its hash, once as expected and once as computed: the one in the client identifier. *)
Theorem c141_hash
  : forall (url_parse : string -> option url) (ssi_header : obj -> option bool) (uri_ok : string -> bool) (show_cert : cert -> string)
      (cert_of_der : string -> option cert) (vkey : Type) (from_spki : string -> string -> option vkey)
      (verifies : vkey -> string -> string -> bool) (root : Type) (roots : option (list root))
      (hook_log : hook -> aro -> option string -> list entry) (w : wallet) (r : auth_request) (a : aro),
    (forall b jwt, w_hook w HX509Hash b (Some jwt) = x509_hash_validate cert_of_der from_spki verifies (w_metadata w) b jwt roots) ->
    (forall b, w_hook w HX509Hash b None <> Ok tt) ->
    (forall b jwt, hook_log HX509Hash b (Some jwt) = hash_entries show_cert cert_of_der (w_metadata w) b jwt) ->
    snd (validate url_parse ssi_header uri_ok w r) = Ok a -> ro_scheme a = Some "x509_hash" ->
    exists own client_id hash der c,
      validate_log url_parse ssi_header uri_ok hook_log w r
      = own ++ [(Debug, "Leaf certificate: " +:+ show_cert c);
                (Debug, "x509_hash verification: expected='" +:+ hash +:+ "', computed='" +:+ hash +:+ "'")]
      /\ length own <= 2 /\ ro_client_id a = Some client_id /\ names "x509_hash" client_id hash
      /\ cert_of_der der = Some c /\ hash = b64url_encode (sha256 der).
Proof. exact c141_hash_pf. Qed.
Print Assumptions c141_hash.

Example c141_hash_witness :
  match hash_run "K" with Ok a => match ro_scheme a with Some s => String.eqb s "x509_hash" | None => false end | Err _ => false end = true
  /\ is_ok (hash_run "X") = false.
Proof. exact c141_hash_ex. Qed.
