(** What the library's own log tells (C140) *)
From Coq Require Import Lia.
From Verif Require Import Base BaseFacts Utf8 Json JsonFacts JsonText JsonTextFacts Base64 Base64Facts Sha256 Url Serde Object Formats Params Metadata
  Effects Jwt Request Verify Response Jwe X509 Client LibLog MapFacts Spec SpecObject SpecRequest SpecVerify SpecJwe SpecLibLog ParamFacts PfText PfRequest PfVerify PfResponse PfJwe PfDid PfX509 PfIgnored.
From Verif Require Import PfLibLog.

(** C140: the log explains the choice of the encryption key: each key of the verifier that is passed over before it has one
    entry, in order, with the reason, and there is a warning exactly when the key chosen does not say what it is for. *)
Theorem c140_choice
  : forall (keys : list obj),
    ((forall k, In k keys -> ~ encryption_key k) -> explained keys (find_entries keys))
    /\ forall before k after, keys = before ++ k :: after -> encryption_key k -> (forall k', In k' before -> ~ encryption_key k') ->
         exists es w, explained before es /\ unmarked k w /\ find_entries keys = es ++ w.
Proof. exact c140_choice_pf. Qed.
Print Assumptions c140_choice.

Example c140_choice_witness :
  find_entries [key_p256 "sig" "1"; [("alg", JStr "RSA-OAEP")]; [("alg", JStr "ECDH-ES"); ("crv", JStr "P-256")]; key_p256 "enc" "2"]
  = [(Debug, "JWK has use='sig', not suitable for encryption"); (Debug, "JWK has unsupported alg 'RSA-OAEP', skipping");
     (Warn, "JWK missing 'use' parameter, assuming it can be used for encryption")].
Proof. exact c140_choice_ex. Qed.

(** C140: what is logged while a response is encrypted depends on the request alone; of the presentations and the state it
    tells nothing, except that the response could be built. *)
Theorem c140_presentations
  : forall (show_kid : option string -> string) (jwk_ok : obj -> bool) (jwe_encrypt : obj -> obj -> obj -> res string) (a : aro),
    exists common, forall (vp : vp_token) (st : option string),
      encrypt_entries show_kid jwk_ok jwe_encrypt a vp st
      = common ++ match build_encrypted_response jwk_ok jwe_encrypt a vp st with
                  | Ok _ => [(Debug, "JWE response built successfully")]
                  | Err _ => []
                  end.
Proof. exact c140_presentations_pf. Qed.
Print Assumptions c140_presentations.

Example c140_presentations_witness :
  logged_of [key_p256 "sig" "1"; key_p256 "enc" "2"] false [("a", [VpString "secret"])]
  = Ok [(Debug, "Building JWE encrypted response"); (Debug, "JWK has use='sig', not suitable for encryption");
        (Debug, "Selected encryption key: alg=ECDH-ES, kid=2"); (Debug, "Using content encryption algorithm: A128GCM");
        (Debug, "JWE response built successfully")]
  /\ logged_of [key_p256 "enc" "2"] true [("a", [VpString "secret"])]
  = Ok [(Debug, "Building JWE encrypted response"); (Debug, "Selected encryption key: alg=ECDH-ES, kid=2");
        (Debug, "Using content encryption algorithm: A128GCM")]
  /\ logged_of [] false [] = Ok [(Debug, "Building JWE encrypted response")].
Proof. exact c140_presentations_ex. Qed.

(** C140: the log of a response that was built tells the truth about its encryption: the key passed to the encryption, its
    identifier and the content encryption are those the log names, and every key before it is accounted for. *)
Theorem c140_selected
  : forall (show_kid : option string -> string) (jwk_ok : obj -> bool) (jwe_encrypt : obj -> obj -> obj -> res string)
      (a : aro) (vp : vp_token) (st : option string) (r : auth_response),
    parsed_key (aro_to_obj a) -> NoDup (map fst vp) -> build_encrypted_response jwk_ok jwe_encrypt a vp st = Ok r ->
    exists cm before key after kid enc header claims jwe es w,
      r = Jwt jwe /\ client_metadata (aro_to_obj a) cm /\ client_keys cm (before ++ key :: after)
      /\ maybe_text "kid" key kid /\ object_is header (jwe_members enc kid) /\ claims_of claims vp st
      /\ jwe_encrypt header claims key = Ok jwe
      /\ explained before es /\ unmarked key w
      /\ encrypt_entries show_kid jwk_ok jwe_encrypt a vp st
         = (Debug, "Building JWE encrypted response") :: es ++ w ++
           [(Debug, "Selected encryption key: alg=ECDH-ES, kid=" +:+ show_kid kid);
            (Debug, "Using content encryption algorithm: " +:+ enc);
            (Debug, "JWE response built successfully")].
Proof. exact c140_selected_pf. Qed.
Print Assumptions c140_selected.

Example c140_selected_witness :
  parsed_key (enc_request [] [key_p256 "sig" "1"; key_p256 "enc" "2"])
  /\ is_ok (encrypted [] [key_p256 "sig" "1"; key_p256 "enc" "2"] [("b", [VpString "x"]); ("a", [])] (Some "s")) = true.
Proof. exact c140_selected_ex. Qed.

(** C140: a request without client metadata leaves the log saying so, and nothing more, and no response is built; the log
    says so of no other request. *)
Theorem c140_metadata
  : forall (show_kid : option string -> string) (jwk_ok : obj -> bool) (jwe_encrypt : obj -> obj -> obj -> res string)
      (a : aro) (vp : vp_token) (st : option string),
    (absent "client_metadata" (aro_to_obj a) ->
       encrypt_entries show_kid jwk_ok jwe_encrypt a vp st
       = [(Debug, "Building JWE encrypted response"); (Warn, "the client metadata was not passed in the request")]
       /\ exists e, build_encrypted_response jwk_ok jwe_encrypt a vp st = Err e)
    /\ (In (Warn, "the client metadata was not passed in the request") (encrypt_entries show_kid jwk_ok jwe_encrypt a vp st) ->
       absent "client_metadata" (aro_to_obj a)).
Proof. exact c140_metadata_pf. Qed.
Print Assumptions c140_metadata.

Example c140_metadata_witness : unwarned None = Ok [Debug; Warn] /\ unwarned (Some (JObj [])) = Ok [Debug].
Proof. exact c140_metadata_ex. Qed.

(** C140: the wallet's leniency about the typ header leaves a trace: there is a warning exactly when a request object is
    accepted, for the redirect_uri prefix, that would have been refused otherwise, and it quotes the typ found. *)
Theorem c140_lenient
  : forall (jwt : string) (redirect : bool),
    (typ_entries jwt redirect <> [] <-> redirect = true /\ validate_typ jwt true = Ok tt /\ validate_typ jwt false <> Ok tt)
    /\ forall h64 p64 s64 h, compact jwt h64 p64 s64 -> header_text h64 h ->
         (forall t, text_at "typ" h t -> t <> "oauth-authz-req+jwt" ->
            typ_entries jwt true = [(Warn, "Request Object has incorrect 'typ' header '" +:+ t
              +:+ "' (expected 'oauth-authz-req+jwt'), but allowing for redirect_uri prefix per Section 5.9.3")])
         /\ (maybe_text "typ" h None ->
            typ_entries jwt true = [(Warn, "Request Object missing 'typ' header (expected 'oauth-authz-req+jwt'), but allowing for redirect_uri prefix per Section 5.9.3")]).
Proof. exact c140_lenient_pf. Qed.
Print Assumptions c140_lenient.

Example c140_lenient_witness :
  typ_entries (typ_jwt "JWT") true = [(Warn, "Request Object has incorrect 'typ' header 'JWT' (expected 'oauth-authz-req+jwt'), but allowing for redirect_uri prefix per Section 5.9.3")]
  /\ typ_entries (typ_jwt "JWT") false = [] /\ typ_entries (typ_jwt "oauth-authz-req+jwt") true = [].
Proof. exact c140_lenient_ex. Qed.

(** C140: a line of the log is not always the library's: whoever makes a request can make the wallet log any line they want,
    before anything about the request has been verified. *)
Theorem c140_forged_refuted
  : forall (line : string), utf8_valid (newline +:+ line +:+ newline) = true ->
    exists jwt message, validate_typ jwt true = Ok tt /\ typ_entries jwt true = [(Warn, message)]
      /\ contains (newline +:+ line +:+ newline) message.
Proof. exact c140_forged_refuted_pf. Qed.
Print Assumptions c140_forged_refuted.

Example c140_forged_refuted_witness : utf8_valid (newline +:+ "2026-01-01 INFO wallet: request verified" +:+ newline) = true.
Proof. exact c140_forged_refuted_ex. Qed.

(** C140: the log shows the check of a certificate's names as it happened: the alternative names are gone through in
    order, each with its own entry, up to the first that is the client's; if there is none, all of them are listed and the
    request is refused. *)
Theorem c140_names
  : forall (show_cert : cert -> string) (show_name : general_name -> string) (show_problem : extension -> string)
      (cert_of_der : string -> option cert) (vkey : Type) (from_spki : string -> string -> option vkey)
      (verifies : vkey -> string -> string -> bool) (root : Type) (roots : option (list root))
      (wm : wallet_metadata) (a : aro) (jwt client_id w h64 p64 s64 alg der : string) (h : obj) (c : cert) (items : list item),
    ro_client_id a = Some client_id -> names "x509_san_dns" client_id w -> compact jwt h64 p64 s64 -> header_text h64 h ->
    text_at "alg" h alg -> alg_supported wm alg -> first_certificate h der -> cert_of_der der = Some c -> items_in (c_extensions c) items ->
    exists seen rest es, items = seen ++ rest
      /\ san_entries show_cert show_name show_problem cert_of_der wm a jwt = (Debug, "Leaf certificate: " +:+ show_cert c) :: es
      /\ Forall2 (says_of show_name show_problem w) seen es
      /\ ((exists before, seen = before ++ [Named (DnsName w)] /\ ~ In (Named (DnsName w)) before)
          \/ rest = [] /\ ~ In (Named (DnsName w)) seen
             /\ x509_san_validate cert_of_der from_spki verifies wm a jwt roots <> Ok tt).
Proof. exact c140_names_pf. Qed.
Print Assumptions c140_names.

Example c140_names_witness :
  items_in (c_extensions two_sans) two_items
  /\ san_logged "x509_san_dns:v.example"
     = Ok [(Debug, "Leaf certificate: cert"); (Debug, "unable to parse SubjectAlternativeName from DER: bad"); (Debug, "found non-DNS SAN: name");
           (Debug, "comparing SAN 'a.example' to client_id 'v.example'"); (Debug, "comparing SAN 'v.example' to client_id 'v.example'")].
Proof. exact c140_names_ex. Qed.

(** C140: for the certificate hash, the log shows the hash the client identifier names and the one computed, and the
    request is accepted only if they are the same. *)
Theorem c140_hash
  : forall (show_cert : cert -> string)
      (cert_of_der : string -> option cert) (vkey : Type) (from_spki : string -> string -> option vkey)
      (verifies : vkey -> string -> string -> bool) (root : Type) (roots : option (list root))
      (wm : wallet_metadata) (a : aro) (jwt client_id w h64 p64 s64 alg der : string) (h : obj) (c : cert),
    ro_client_id a = Some client_id -> names "x509_hash" client_id w -> compact jwt h64 p64 s64 -> header_text h64 h ->
    text_at "alg" h alg -> alg_supported wm alg -> first_certificate h der -> cert_of_der der = Some c ->
    exists computed,
      hash_entries show_cert cert_of_der wm a jwt
      = [(Debug, "Leaf certificate: " +:+ show_cert c);
         (Debug, "x509_hash verification: expected='" +:+ w +:+ "', computed='" +:+ computed +:+ "'")]
      /\ computed = b64url_encode (sha256 der)
      /\ (x509_hash_validate cert_of_der from_spki verifies wm a jwt roots = Ok tt -> computed = w).
Proof. exact c140_hash_pf. Qed.
Print Assumptions c140_hash.

Example c140_hash_witness :
  hash_logged toy_hash_id = Ok [Debug; Debug] /\ hash_verdict toy_hash_id "K" (x5c_header "ES256" [b64std_encode "K|v.example"]) = Ok tt.
Proof. exact c140_hash_ex. Qed.

(** C140: a verifier that is set up with a certificate logs what it passed over: the alternative names before the DNS name
    it takes for its identifier; without a DNS name, all of them, and it is not set up. *)
Theorem c140_client
  : forall (show_name : general_name -> string) (show_problem : extension -> string) (key : Type) (to_der : cert -> res string)
      (c : cert) (chain : list cert) (s : signer key) (items : list item),
    items_in (c_extensions c) items ->
    exists seen rest, items = seen ++ rest /\ (forall d, ~ In (Named (DnsName d)) seen)
      /\ (forall w, Forall2 (says_of show_name show_problem w) seen (client_entries show_name show_problem (c :: chain)))
      /\ ((exists d tail cl, rest = Named (DnsName d) :: tail /\ x509_san_client to_der (c :: chain) s = Ok cl
             /\ cl_client_id cl = "x509_san_dns:" +:+ d)
          \/ rest = [] /\ exists e, x509_san_client to_der (c :: chain) s = Err e).
Proof. exact c140_client_pf. Qed.
Print Assumptions c140_client.

Example c140_client_witness :
  items_in (c_extensions two_sans) two_items
  /\ client_entries (fun _ => "name") (fun _ => "bad") [two_sans]
     = [(Debug, "unable to parse SubjectAlternativeName from DER: bad"); (Debug, "found non-DNS SAN: name")].
Proof. exact c140_client_ex. Qed.
