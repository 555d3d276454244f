(** What the library writes to the log (tracing): /repo/src/core/jwe.rs:175-207,269-317,
    src/core/authorization_request/{mod.rs:415-442,parameters.rs:165-172,verification/x509_san.rs:75-98,verification/x509_hash.rs:90-98}
    and src/verifier/client.rs:92-109.  The messages are text with the values put in; what the formatting of external types
    gives ([{:?}] of keys' identifiers, certificates and names, and decoding errors) is arbitrary. *)
From Verif Require Import Base Json JsonText Base64 Sha256 Object Params Metadata Jwt Request Response Verify Jwe X509.

(** The two levels used. *)
Inductive severity := Debug | Warn.
Definition entry : Type := severity * string.

Section Log.
Variable show_kid : option string -> string.
Variable show_cert : cert -> string.
Variable show_name : general_name -> string.
Variable show_problem : extension -> string.

(** One key of [find_encryption_jwk], jwe.rs:173-207. *)
Definition key_entries (k : obj) : list entry :=
  match key_str "alg" k with
  | None => [(Debug, "JWK missing required 'alg' parameter, skipping")]
  | Some a =>
      if negb (String.eqb a "ECDH-ES") then [(Debug, "JWK has unsupported alg '" +:+ a +:+ "', skipping")]
      else match key_str "crv" k with
           | None => [(Debug, "JWK missing 'crv' parameter, skipping")]
           | Some c =>
               if negb (String.eqb c "P-256") then [(Debug, "JWK has unsupported curve '" +:+ c +:+ "', skipping")]
               else match key_str "use" k with
                    | Some u => if String.eqb u "enc" then [] else [(Debug, "JWK has use='" +:+ u +:+ "', not suitable for encryption")]
                    | None => [(Warn, "JWK missing 'use' parameter, assuming it can be used for encryption")]
                    end
           end
  end.
(** [find_encryption_jwk], jwe.rs:172-227: the loop ends with the first key not skipped. *)
Fixpoint find_entries (keys : list obj) : list entry :=
  match keys with
  | [] => []
  | k :: r => key_entries k ++ if enc_candidate k then [] else find_entries r
  end.
(** [ClientMetadata::resolve], parameters.rs:165-172. *)
Definition resolve_entries (a : aro) : list entry :=
  match aro_get p_client_metadata a with Some _ => [] | None => [(Warn, "the client metadata was not passed in the request")] end.

(** [build_encrypted_response], jwe.rs:269-317: an error ends it. *)
Definition encrypt_entries (jwk_ok : obj -> bool) (jwe_encrypt : obj -> obj -> obj -> res string) (a : aro) (vp : vp_token) (state : option string)
  : list entry :=
  (Debug, "Building JWE encrypted response") :: resolve_entries a ++
  match resolve_client_metadata a with
  | Err _ => []
  | Ok cm =>
      match parsing_error (cm_jwks cm) with
      | Err _ => []
      | Ok keys =>
          find_entries keys ++
          match find_encryption_jwk jwk_ok keys with
          | Err _ => []
          | Ok info =>
              (Debug, "Selected encryption key: alg=" +:+ ki_alg info +:+ ", kid=" +:+ show_kid (ki_kid info)) ::
              match cm_encs cm with
              | Err _ => []
              | Ok encs =>
                  (Debug, "Using content encryption algorithm: " +:+ match encs with e :: _ => e | [] => DEFAULT_ENC end) ::
                  match build_encrypted_response jwk_ok jwe_encrypt a vp state with
                  | Ok _ => [(Debug, "JWE response built successfully")]
                  | Err _ => []
                  end
              end
          end
      end
  end.

(** [validate_request_object_typ], mod.rs:411-446. *)
Definition typ_entries (jwt : string) (is_redirect_uri_prefix : bool) : list entry :=
  match (let? (h, _, _) := split_jws jwt in jws_headers h) with
  | Err _ => []
  | Ok headers =>
      match key_str "typ" headers with
      | Some t =>
          if String.eqb t REQUEST_OBJECT_TYP then []
          else if is_redirect_uri_prefix then
            [(Warn, "Request Object has incorrect 'typ' header '" +:+ t +:+ "' (expected '" +:+ REQUEST_OBJECT_TYP
                    +:+ "'), but allowing for redirect_uri prefix per Section 5.9.3")]
          else []
      | None =>
          if is_redirect_uri_prefix then
            [(Warn, "Request Object missing 'typ' header (expected '" +:+ REQUEST_OBJECT_TYP
                    +:+ "'), but allowing for redirect_uri prefix per Section 5.9.3")]
          else []
      end
  end.

(** Going through the names of a certificate, lazily: x509_san.rs:77-98 ([wanted]: until a DNS name equals it) and
    client.rs:92-109 ([None]: until there is a DNS name).  The entries, and whether it ended there. *)
Fixpoint name_entries (wanted : option string) (l : list general_name) : list entry * bool :=
  match l with
  | [] => ([], false)
  | OtherName k x :: r => let '(es, b) := name_entries wanted r in ((Debug, "found non-DNS SAN: " +:+ show_name (OtherName k x)) :: es, b)
  | DnsName d :: r =>
      match wanted with
      | None => ([], true)
      | Some w =>
          let e := (Debug, "comparing SAN '" +:+ d +:+ "' to client_id '" +:+ w +:+ "'") in
          if String.eqb d w then ([e], true) else let '(es, b) := name_entries wanted r in (e :: es, b)
      end
  end.
Fixpoint extension_entries (wanted : option string) (l : list extension) : list entry * bool :=
  match l with
  | [] => ([], false)
  | x :: r =>
      match x_names x with
      | None =>
          let '(es, b) := extension_entries wanted r in
          ((Debug, "unable to parse SubjectAlternativeName from DER: " +:+ show_problem x) :: es, b)
      | Some names =>
          match name_entries wanted names with
          | (es, true) => (es, true)
          | (es, false) => let '(es', b) := extension_entries wanted r in (es ++ es', b)
          end
      end
  end.
(** The extensions the code goes through: [TbsCertificate::filter::<SubjectAltName>] (external). *)
Definition sans (c : cert) : list extension := filter (fun e => String.eqb (x_id e) "2.5.29.17") (c_extensions c).

(** [x509_san::validate], x509_san.rs:21-126. *)
Definition san_entries (cert_of_der : string -> option cert) (wm : wallet_metadata) (a : aro) (jwt : string) : list entry :=
  match ro_client_id a, leaf cert_of_der wm jwt with
  | Some client_id, Ok (_, _, _, _, _, c) =>
      (Debug, "Leaf certificate: " +:+ show_cert c) :: fst (extension_entries (Some (strip_scheme X509_SAN_DNS client_id)) (sans c))
  | _, _ => []
  end.
(** [x509_hash::validate], x509_hash.rs:33-131. *)
Definition hash_entries (cert_of_der : string -> option cert) (wm : wallet_metadata) (a : aro) (jwt : string) : list entry :=
  match ro_client_id a, leaf cert_of_der wm jwt with
  | Some client_id, Ok (_, _, _, _, der, c) =>
      [(Debug, "Leaf certificate: " +:+ show_cert c);
       (Debug, "x509_hash verification: expected='" +:+ strip_scheme X509_HASH client_id
               +:+ "', computed='" +:+ b64url_encode (sha256 der) +:+ "'")]
  | _, _ => []
  end.
(** [X509SanDnsClient::new], client.rs:87-124. *)
Definition client_entries (x5c : list cert) : list entry :=
  match x5c with [] => [] | c :: _ => fst (extension_entries None (sans c)) end.
End Log.
