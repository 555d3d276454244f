(** Specification vocabulary for whole presentations: a wallet given a URL, and a wallet and a verifier together. *)
From Verif Require Import Base Utf8 Json JsonText Url UrlEncoded Params Metadata Effects Request Verify Response Session Builder SpecRequest.

(** The URL is on the endpoint (same authority and path) and its query denotes the request. *)
Definition addressed (url_parse : string -> option url) (u endpoint : url) (r : auth_request) : Prop :=
  exists q, u_query u = Some q /\ url_authority u = url_authority endpoint /\ u_path u = u_path endpoint
    /\ denotes url_parse (form_parse q) r.

(** No contradiction between the client identifier of the URL and the one of the request object. *)
Definition same_client (r : auth_request) (a : aro) : Prop :=
  forall outer inner, ar_client_id r = Some outer -> text_at "client_id" (aro_to_obj a) inner -> outer = inner.

(** A URL that survives being written and read, and that HTTP can address. *)
Definition usable_url (url_parse : string -> option url) (uri_ok : string -> bool) (r : url) : Prop :=
  utf8_valid (url_str r) = true /\ url_parse (url_str r) = Some r /\ uri_ok (url_str r) = true.

(** The request URI of the session gives the wallet what the verifier's [retrieve] gives for the session. *)
Definition request_served (http : http_client) (u : uuid) (m : store) (r : url) : Prop :=
  exists m' jwt status, retrieve u m = (m', Ok jwt) /\ (200 <= status < 300)%N
    /\ forall rq, rq_method rq = "GET" -> rq_uri rq = url_str r -> http rq = Ok (mk_resp status jwt).

(** The wallet can answer the request in the response mode it asks for. *)
Definition answerable (wm : wallet_metadata) (parameters : obj) : Prop :=
  exists cm mode, client_metadata parameters cm /\ text_at "response_mode" parameters mode
    /\ ((mode = "direct_post" \/ mode = "dc_api") \/ (mode = "direct_post.jwt" \/ mode = "dc_api.jwt") /\ encryption_ok wm cm).
