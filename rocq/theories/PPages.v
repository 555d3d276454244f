(** The fixed pages of the example wallet server (C102) *)
From Coq Require Import Lia ZArith.
From Verif Require Import Base BaseFacts Base64 Json Url Serde Effects Formats Params Metadata Object Request Wallet ExMatcher ExWallet ExMetadata ExHttp SpecVerifierEx SpecIds
  SpecHttp PfExample PfExServer PfHttp.
From Verif Require Import PfPages.

(** C102: what the pages besides the authorization endpoint say: the metadata of C92, the public part of the holder's key,
    that the server is well, its addresses, and how many credentials there are. *)
Theorem c102_pages :
  forall (url_parse : string -> option url) (ssi_header : obj -> option bool) (uri_ok : string -> bool)
    (jwk_ok : obj -> bool) (jwe_encrypt : obj -> obj -> obj -> res string) (lower sign : string -> string) (now : Z)
    (http : http_client) (endpoint : url) (store : list credential) (auto_consent : bool)
    (describe : string -> string) (reason : N -> string) (public_url : url) (x y : string)
    (query content_type : option string) (body : string),
    (N.of_nat (String.length body) <= 1048576)%N ->
    let get path := serve_http url_parse ssi_header uri_ok jwk_ok jwe_encrypt lower sign now http endpoint store auto_consent describe reason
               public_url (x, y) None (mk_hrequest "GET" path query content_type body) in
    let shows path (said : json -> Prop) := exists j, get path = ([], mk_hreply 200 (Some j)) /\ said j in
    shows "/health" well /\ shows "/" well
    /\ shows "/debug/config" (configured (url_str endpoint) (url_str public_url) (length store))
    /\ shows "/debug/credentials" (stocked (length store))
    /\ shows "/.well-known/jwks.json" (key_set x y)
    /\ get "/.well-known/openid-configuration" = ([], mk_hreply 200 (Some (served_metadata url_parse endpoint))).
Proof. exact c102_pages_pf. Qed.
Print Assumptions c102_pages.

Example c102_pages_witness :
  hx_serve hx_redirect [pid; pid] None (mk_hrequest "GET" "/debug/credentials" None None "")
  = ([], mk_hreply 200 (Some (JObj [("count", JInt 2); ("formats", JArr [JStr "dc+sd-jwt"; JStr "vc+sd-jwt"])]))).
Proof. exact c102_pages_ex. Qed.
