(** what the example wallet says about itself (C92) *)
From Verif Require Import Base Utf8 Json JsonText Serde Url Object Formats Params Metadata Request Response Session Client Builder Jwe
  ExMatcher ExWallet ExMetadata SpecObject SpecRequest SpecJwe SpecBuilder SpecExample SpecVerifierEx
  JsonFacts BaseFacts PfText PfBuilder PfJwe PfExample PfExServer.
From Verif Require Import PfAnnounce.

(** C92: the example wallet serves exactly these metadata, whatever its endpoint. *)
Theorem c92_served
  : forall (url_parse : string -> option url) (endpoint : url),
    members_are (served_metadata url_parse endpoint)
      [("authorization_endpoint", JStr (url_str endpoint));
       ("vp_formats_supported",
          JObj [("dc+sd-jwt", JObj [("alg_values_supported", JArr [JStr "ES256"]); ("kb-jwt_alg_values_supported", JArr [JStr "ES256"])])]);
       ("response_types_supported", JArr [JStr "vp_token"]);
       ("response_modes_supported", JArr [JStr "direct_post"; JStr "direct_post.jwt"]);
       ("client_id_prefixes_supported", JArr [JStr "redirect_uri"]);
       ("authorization_encryption_alg_values_supported", JArr [JStr "ECDH-ES"]);
       ("authorization_encryption_enc_values_supported", JArr [JStr "A256GCM"])].
Proof. exact c92_served_pf. Qed.
Print Assumptions c92_served.

(** C92: a verifier that reads the text of these metadata gets wallet metadata with the wallet's endpoint, a wallet that
    knows SD-JWT credentials, that takes redirect_uri clients only and that encrypts with ECDH-ES and A256GCM only. *)
Theorem c92_read
  : forall (url_parse : string -> option url) (endpoint : url),
    utf8_valid (url_str endpoint) = true -> url_parse (url_str endpoint) = Some endpoint ->
    exists j w,
      json_of_text (jprint (served_metadata url_parse endpoint)) = Some j /\ wm_of_json url_parse j = Ok w
      /\ wm_endpoint w = endpoint
      /\ (forall d, is_claim_format_supported (wm_formats w) d = true <-> d = DcSdJwt)
      /\ supported "client_id_prefixes_supported" ["pre-registered"] w = Ok ["redirect_uri"]
      /\ supported "authorization_encryption_alg_values_supported" [] w = Ok ["ECDH-ES"]
      /\ supported "authorization_encryption_enc_values_supported" [] w = Ok ["A256GCM"].
Proof. exact c92_read_pf. Qed.
Print Assumptions c92_read.

Example c92_read_witness :
  exists w, wm_of_json simple_parse (served_metadata simple_parse ex_endpoint) = Ok w
  /\ url_str (wm_endpoint w) = "https://wallet.example/authorize".
Proof. exact c92_read_ex. Qed.

(** C92: so a verifier that goes by them builds requests for redirect_uri clients only. *)
Theorem c92_clients
  : forall (url_parse : string -> option url) (endpoint : url) (w : wallet_metadata) (b : request_builder) (u : uuid) (m m' : store) (x : uuid * url),
    wm_of_json url_parse (served_metadata url_parse endpoint) = Ok w ->
    build url_parse b u w false m = (m', Ok x) ->
    cl_prefix (v_client (rb_verifier b)) = "redirect_uri".
Proof. exact c92_clients_pf. Qed.
Print Assumptions c92_clients.

Example c92_clients_witness :
  match wm_of_json simple_parse (served_metadata simple_parse ex_endpoint) with
  | Ok w => built_ok (build simple_parse (toy_builder false (mk_client "redirect_uri:x" "redirect_uri" (fun a => Ok (jprint (aro_to_json a))))) 8%N w false []) 8%N = true
  | Err _ => False
  end.
Proof. exact c92_clients_ex. Qed.

(** C92: but whatever the example wallet encrypts is in A128GCM, which its metadata do not list. *)
Theorem c92_enc_refuted
  : forall (url_parse : string -> option url) (endpoint : url) (w : wallet_metadata)
      (jwk_ok : obj -> bool) (jwe_encrypt : obj -> obj -> obj -> res string)
      (a : aro) (vp : vp_token) (st : option string) (jwe : string) (encs : list string),
    wm_of_json url_parse (served_metadata url_parse endpoint) = Ok w ->
    supported "authorization_encryption_enc_values_supported" [] w = Ok encs ->
    parsed_key (aro_to_obj a) -> NoDup (map fst vp) ->
    encrypted_answer jwk_ok jwe_encrypt a vp st = Ok jwe ->
    exists header claims key enc, jwe_encrypt header claims key = Ok jwe /\ text_at "enc" header enc /\ ~ In enc encs.
Proof. exact c92_enc_refuted_pf. Qed.
Print Assumptions c92_enc_refuted.

Example c92_enc_refuted_witness :
  parsed_key (enc_request [] [key_p256 "enc" "2"])
  /\ exists jwe, ex_encrypted [] = Ok jwe.
Proof. exact c92_enc_refuted_ex. Qed.

(** C92: and it answers clients of kinds that its metadata do not list. *)
Theorem c92_prefix_refuted
  : exists (client : string) (o : obj) (w : wallet_metadata),
    text_at "client_id" o client /\ client = "x509_san_dns:v.example"
    /\ wm_of_json simple_parse (served_metadata simple_parse ex_endpoint) = Ok w
    /\ supported "client_id_prefixes_supported" ["pre-registered"] w = Ok ["redirect_uri"]
    /\ ex_posted None o = ["https://v.example/resp"] /\ snd (ex_run None o) = Ok None.
Proof. exact c92_prefix_refuted_pf. Qed.
Print Assumptions c92_prefix_refuted.
