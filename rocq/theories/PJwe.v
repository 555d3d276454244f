(** Encrypted responses (C47-C50) *)
From Coq Require Import Lia Sorting.Permutation.
From Verif Require Import Base BaseFacts Utf8 Json JsonFacts JsonText JsonTextFacts Url Serde Object Formats Params Metadata
  Effects Request Verify Response Jwe MapFacts Spec ParamFacts SpecRequest PfRequest PfVerify SpecResponse PfResponse SpecJwe.
From Verif Require Import PfJwe.

(** C47: the key chosen is the first one usable for encryption, with its own key id; it is an error when no
    key is usable, and when the first usable key is not a valid JWK, even if a later one is. *)
Theorem c47_selection :
  forall (jwk_ok : obj -> bool) (keys : list obj), Forall parsed_key keys ->
    (forall (k : obj) (alg : string) (kid : option string),
       find_encryption_jwk jwk_ok keys = Ok (mk_ki k alg kid)
       <-> first_key keys k /\ jwk_ok k = true /\ alg = "ECDH-ES" /\ maybe_text "kid" k kid)
    /\ ((forall k, In k keys -> ~ encryption_key k) -> exists e, find_encryption_jwk jwk_ok keys = Err e)
    /\ (forall k, first_key keys k -> jwk_ok k = false -> exists e, find_encryption_jwk jwk_ok keys = Err e).
Proof. exact c47_selection_pf. Qed.
Print Assumptions c47_selection.

Example c47_selection_witness :
  Forall parsed_key [key_p256 "sig" "1"; key_p256 "enc" "2"; key_p256 "enc" "3"]
  /\ find_encryption_jwk (fun _ => true) [key_p256 "sig" "1"; key_p256 "enc" "2"; key_p256 "enc" "3"]
     = Ok (mk_ki (key_p256 "enc" "2") "ECDH-ES" (Some "2")).
Proof. exact c47_selection_ex. Qed.

(** C48: a JWE is produced exactly from an object payload whose registered claims have their types, a
    recipient key and the alg ECDH-ES; what is encrypted, to that key, is the payload itself, under a header
    with exactly typ JWT, that alg, the configured enc (A128GCM by default) and the explicit key id or else
    the key's. *)
Theorem c48_build :
  forall (jwe_encrypt : obj -> obj -> obj -> res string) (b : jwe_builder) (jwe : string),
    jwe_build jwe_encrypt b = Ok jwe <->
    exists claims key header kid,
      jb_payload b = Some (JObj claims) /\ registered_types claims
      /\ jb_key b = Some key /\ jb_alg b = Some "ECDH-ES"
      /\ match jb_kid b with Some k => kid = Some k | None => maybe_text "kid" key kid end
      /\ object_is header (jwe_members (match jb_enc b with Some e => e | None => "A128GCM" end) kid)
      /\ jwe_encrypt header claims key = Ok jwe.
Proof. exact c48_build_pf. Qed.
Print Assumptions c48_build.

Example c48_build_witness :
  jwe_build (fun h c k => Ok (jprint (JArr [JObj h; JObj c])))
    (jb_set_key (key_p256 "enc" "k1") (jb_set_alg "ECDH-ES" (jb_set_payload (JObj [("iat", JInt 5); ("x", JNull)]) jb_new)))
  = Ok "[{""alg"":""ECDH-ES"",""enc"":""A128GCM"",""kid"":""k1"",""typ"":""JWT""},{""iat"":5,""x"":null}]"
  /\ jwe_build (fun h c k => Ok "")
    (jb_set_key (key_p256 "enc" "k1") (jb_set_alg "ECDH-ES" (jb_set_payload (JObj [("iss", JInt 5)]) jb_new))) = Err "bad claim".
Proof. exact c48_build_ex. Qed.

(** C49: the encrypted response is a JWE of exactly the VP token and the state given, encrypted to the
    first usable key of the client's metadata, with the client's first enc value (A128GCM when it lists
    none) and that key's id; it is produced exactly when all of these exist and encryption succeeds. *)
Theorem c49_contents :
  forall (jwk_ok : obj -> bool) (jwe_encrypt : obj -> obj -> obj -> res string)
         (a : aro) (vp : vp_token) (st : option string) (r : auth_response),
    parsed_key (aro_to_obj a) -> NoDup (map fst vp) ->
    (build_encrypted_response jwk_ok jwe_encrypt a vp st = Ok r <->
     exists cm keys key kid encs header claims jwe,
       r = Jwt jwe
       /\ client_metadata (aro_to_obj a) cm /\ client_keys cm keys /\ first_key keys key /\ jwk_ok key = true
       /\ maybe_text "kid" key kid /\ client_encs cm encs
       /\ object_is header (jwe_members (match encs with e :: _ => e | [] => "A128GCM" end) kid)
       /\ claims_of claims vp st
       /\ jwe_encrypt header claims key = Ok jwe).
Proof. exact c49_contents_pf. Qed.
Print Assumptions c49_contents.

Example c49_contents_witness :
  parsed_key (enc_request [] [key_p256 "sig" "1"; key_p256 "enc" "2"])
  /\ encrypted [] [key_p256 "sig" "1"; key_p256 "enc" "2"] [("b", [VpString "x"]); ("a", [])] (Some "s")
     = Ok (Jwt "[{""alg"":""ECDH-ES"",""enc"":""A128GCM"",""kid"":""2"",""typ"":""JWT""},{""state"":""s"",""vp_token"":{""a"":[],""b"":[""x""]}}]").
Proof. exact c49_contents_ex. Qed.

(** C49: the holder of the selected key, who can decrypt, reads from the claims the token and the state that
    were sent. *)
Theorem c49_delivered :
  forall (jwk_ok : obj -> bool) (jwe_encrypt : obj -> obj -> obj -> res string)
         (decrypt : obj -> string -> option (obj * obj))
         (a : aro) (vp : vp_token) (st : option string) (jwe : string),
    (forall h c k s, jwe_encrypt h c k = Ok s -> decrypt k s = Some (h, c)) ->
    parsed_key (aro_to_obj a) -> token_ok vp ->
    build_encrypted_response jwk_ok jwe_encrypt a vp st = Ok (Jwt jwe) ->
    exists cm keys key header claims vp',
      client_metadata (aro_to_obj a) cm /\ client_keys cm keys /\ first_key keys key
      /\ decrypt key jwe = Some (header, claims)
      /\ unencoded_of_obj claims = Ok (mk_unencoded vp' st) /\ Permutation vp vp'.
Proof. exact c49_delivered_pf. Qed.
Print Assumptions c49_delivered.

Example c49_delivered_witness :
  exists (jwe_encrypt : obj -> obj -> obj -> res string) (decrypt : obj -> string -> option (obj * obj)),
    (forall h c k s, jwe_encrypt h c k = Ok s -> decrypt k s = Some (h, c))
    /\ exists s, jwe_encrypt (jwe_header "ECDH-ES" "A128GCM" None) [] [] = Ok s.
Proof. exact c49_delivered_ex. Qed.

(** C50: a request can pass every check of the wallet in mode direct_post.jwt, its one key being marked for
    encryption with an algorithm the wallet lists, and still no response can be encrypted for it. *)
Theorem c50_unencryptable_refuted :
  exists (w : wallet) (a : aro),
    ro_mode a = DirectPostJwt /\ snd (verify_request w a None) = Ok tt
    /\ forall jwk_ok jwe_encrypt vp st, exists e, build_encrypted_response jwk_ok jwe_encrypt a vp st = Err e.
Proof. exact c50_unencryptable_refuted_pf. Qed.
Print Assumptions c50_unencryptable_refuted.

(** C50: a request can pass every check of a wallet that lists only A256GCM, and the response is encrypted
    with an enc value the wallet does not list. *)
Theorem c50_enc_refuted :
  exists (w : wallet) (a : aro) (header claims key : obj),
    ro_mode a = DirectPostJwt /\ snd (verify_request w a None) = Ok tt
    /\ obj_get "authorization_encryption_enc_values_supported" (wm_obj (w_metadata w)) = Some (JArr [JStr "A256GCM"])
    /\ text_at "enc" header "A128CBC-HS256"
    /\ forall jwk_ok jwe_encrypt, jwk_ok key = true ->
         build_encrypted_response jwk_ok jwe_encrypt a [] None = rmap Jwt (jwe_encrypt header claims key).
Proof. exact c50_enc_refuted_pf. Qed.
Print Assumptions c50_enc_refuted.

(** C50: conversely a response could be encrypted for a request that the wallet refuses because the only key
    has no use member. *)
Theorem c50_refused_refuted :
  exists (w : wallet) (a : aro),
    ro_mode a = DirectPostJwt /\ (exists e, snd (verify_request w a None) = Err e)
    /\ exists r, build_encrypted_response (fun _ => true) (fun h c k => Ok (jprint (JObj h))) a [] None = Ok r.
Proof. exact c50_refused_refuted_pf. Qed.
Print Assumptions c50_refused_refuted.

(** C50: when the wallet accepts a request in an encrypted mode, what remains to be checked before a response
    can be encrypted is exactly that some key is usable and that the first usable one is a valid JWK: then
    the outcome is that of the encryption itself. *)
Theorem c50_remaining :
  forall (jwk_ok : obj -> bool) (jwe_encrypt : obj -> obj -> obj -> res string)
         (w : wallet) (a : aro) (jwt : option string) (vp : vp_token) (st : option string) (mode : string),
    parsed_key (aro_to_obj a) -> NoDup (map fst vp) ->
    text_at "response_mode" (aro_to_obj a) mode -> mode = "direct_post.jwt" \/ mode = "dc_api.jwt" ->
    snd (verify_request w a jwt) = Ok tt ->
    exists cm keys encs, client_metadata (aro_to_obj a) cm /\ client_keys cm keys /\ client_encs cm encs
      /\ ((exists r, build_encrypted_response jwk_ok jwe_encrypt a vp st = Ok r)
          <-> exists key kid header claims jwe, first_key keys key /\ jwk_ok key = true
                /\ maybe_text "kid" key kid
                /\ object_is header (jwe_members (match encs with e :: _ => e | [] => "A128GCM" end) kid)
                /\ claims_of claims vp st /\ jwe_encrypt header claims key = Ok jwe).
Proof. exact c50_remaining_pf. Qed.
Print Assumptions c50_remaining.

Example c50_remaining_witness :
  let o := enc_request [("encrypted_response_enc_values_supported", jstrs ["A256GCM"])] [key_p256 "enc" "1"] in
  match aro_of_obj simple_parse o with
  | Ok a => parsed_key (aro_to_obj a) /\ text_at "response_mode" (aro_to_obj a) "direct_post.jwt"
            /\ snd (verify_request jwt_wallet a None) = Ok tt
  | Err _ => False
  end.
Proof. exact c50_remaining_ex. Qed.
