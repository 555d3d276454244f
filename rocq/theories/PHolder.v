(** The shipped credential: its holder's key, and what it cannot prove (C110) *)
From Coq Require Import Lia.
From Verif Require Import Base BaseFacts Utf8 Json JsonFacts JsonText Base64 Base64Facts Sha256 Serde Url UrlEncoded Object Formats Params
  Metadata Dcql Effects Jwt Request Response Jwe ExMatcher ExWallet ExMetadata ExHttp ExShipped SpecRequest PfRequest PfResolve SpecDcql PfDcql
  SpecJwe SpecResponse SpecEncodings PfEncodings SpecExample PfExample SpecHttp PfHttp SpecShipped PfShipped SpecVerify
  P256 SpecP256 P256Facts SpecHolder.
From Verif Require Import PfHolder.

(** C110: the key that the shipped credential is bound to is the public key of the wallet's secret (a multiple of the base
    point by it, on the curve), and it is the key that the wallet serves. *)
Theorem c110_holder :
  exists (k : positive) (pt : point),
    holder_key = Ok k /\ (Z.pos k < Z.of_N p256_n)%Z /\ multiple (Z.pos k) pt /\ on_curve pt
    /\ (forall c, In c shipped_store -> exists h64 p64 s64 claims, issued (mc_raw c) h64 p64 s64 claims /\ bound_to claims pt)
    /\ (forall bx by_ jwk, coordinate bx (fst pt) -> coordinate by_ (snd pt) -> public_jwk (bx, by_) = JObj jwk -> is_key jwk pt).
Proof. exact c110_holder_pf. Qed.
Print Assumptions c110_holder.

Example c110_holder_witness :
  holder_key = Ok 6041681177964390930484794174907659798248024937085509334100709001762926841241%positive
  /\ (exists c, In c shipped_store /\ mc_id c = "pid_credential")
  /\ coordinate (bytes_of 32 holder_x) (Z.of_N holder_x) /\ coordinate (bytes_of 32 holder_y) (Z.of_N holder_y).
Proof. exact c110_holder_ex. Qed.

(** C110: so, if signing with the secret gives signatures that its public key verifies, every presentation the shipped
    wallet sends ends in a JWT that verifies under the very key its credential is bound to, and that names the nonce and the
    client of the request, the time, and the digest of all that precedes it. *)
Theorem c110_bound :
  forall (url_parse : string -> option url) (ssi_header : obj -> option bool) (uri_ok : string -> bool)
    (jwk_ok : obj -> bool) (jwe_encrypt : obj -> obj -> obj -> res string) (lower sign : string -> string) (now : Z)
    (http : http_client) (endpoint : url) (auto_consent : bool) (p : params) (r : http_req)
    (verifies : point -> string -> string -> Prop),
    (forall k pt m, holder_key = Ok k -> multiple (Z.pos k) pt -> verifies pt m (sign m)) ->
    let run := authorize url_parse ssi_header uri_ok jwk_ok jwe_encrypt lower sign now http endpoint shipped_store auto_consent p in
    clock_ok now -> In r (posts (http_events (fst run))) ->
    exists ar a jwt vp st nonce aud, vp <> []
      /\ from_url url_parse (build_request_url endpoint p) endpoint = Ok ar
      /\ snd (resolve_request url_parse ssi_header uri_ok http ar) = Ok (a, Some jwt)
      /\ text_at "nonce" (aro_to_obj a) nonce /\ audience_of (aro_to_obj a) aud
      /\ (rq_body r = unencoded_form (mk_unencoded vp st)
          \/ exists header claims key jwe, claims_of claims vp st /\ jwe_encrypt header claims key = Ok jwe
               /\ rq_body r = form_serialize [("response", jwe)])
      /\ forall id items i, In (id, items) vp -> In i items ->
           exists sd kb h64 p64 s64 claims pt k64 b64 t64 sg,
             i = VpString (sd +:+ "~" +:+ kb) /\ issued (sd +:+ "~" +:+ kb) h64 p64 s64 claims /\ bound_to claims pt
             /\ key_bound sign now (sd +:+ "~") nonce aud kb
             /\ compact kb k64 b64 t64 /\ b64url_decode t64 = Some sg /\ verifies pt (k64 +:+ "." +:+ b64) sg.
Proof. exact c110_bound_pf. Qed.
Print Assumptions c110_bound.

Example c110_bound_witness :
  (forall k pt m, holder_key = Ok k -> multiple (Z.pos k) pt ->
     (fun (pt : point) (m sg : string) => sg = "S") pt m ((fun _ : string => "S") m))
  /\ map rq_uri (posts (http_events (fst (shipped_run (shipped_query ["given_name"]))))) = ["https://v.example/resp"].
Proof. exact c110_bound_ex. Qed.

(** C110: but no verifier of SD-JWTs can accept any presentation of the shipped wallet: the issuer's signature is not 64
    bytes long, as one for ES256 is, and the issuer vouches for none of the disclosures. *)
Theorem c110_credential_refuted :
  forall (url_parse : string -> option url) (ssi_header : obj -> option bool) (uri_ok : string -> bool)
    (jwk_ok : obj -> bool) (jwe_encrypt : obj -> obj -> obj -> res string) (lower sign : string -> string) (now : Z)
    (http : http_client) (endpoint : url) (auto_consent : bool) (p : params) (r : http_req),
    let run := authorize url_parse ssi_header uri_ok jwk_ok jwe_encrypt lower sign now http endpoint shipped_store auto_consent p in
    clock_ok now -> In r (posts (http_events (fst run))) ->
    exists vp st, vp <> []
      /\ (rq_body r = unencoded_form (mk_unencoded vp st)
          \/ exists header claims key jwe, claims_of claims vp st /\ jwe_encrypt header claims key = Ok jwe
               /\ rq_body r = form_serialize [("response", jwe)])
      /\ forall id items i, In (id, items) vp -> In i items ->
           exists t h64 p64 s64 header claims,
             i = VpString t /\ issued t h64 p64 s64 claims
             /\ header_text h64 header /\ obj_get "alg" header = Some (JStr "ES256")
             /\ (forall sg, b64url_decode s64 = Some sg -> String.length sg <> 64%nat)
             /\ length (disclosures t) = 4%nat /\ forall d, In d (disclosures t) -> ~ vouched claims d.
Proof. exact c110_credential_refuted_pf. Qed.
Print Assumptions c110_credential_refuted.
