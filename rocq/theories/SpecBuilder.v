(** Specification vocabulary for the verifier's request builder. *)
From Verif Require Import Base Utf8 Json JsonText Url Object Params Metadata Dcql Request Jwt Session Client Builder SpecRequest.

(** [r] is [base] with one more path segment; the rest of the URL is unchanged. *)
Definition extended (base : url) (segment : string) (r : url) : Prop :=
  u_opaque base = false /\ u_opaque r = false
  /\ u_scheme r = u_scheme base /\ u_auth r = u_auth base /\ u_query r = u_query base /\ u_frag r = u_frag base
  /\ u_path r = u_path base +:+ (if Nat.eqb (String.length (u_path base)) 1 then "" else "/") +:+ segment.

(** The request object of a built request, member by member: the builder's parameters, and the client
    identifier, the query and (for the direct_post modes) the response URI of the session. *)
Definition built_object (b : request_builder) (q : dcql) (u : uuid) (o : obj) : Prop :=
  let v := rb_verifier b in
  text_at "client_id" o (cl_client_id (v_client v))
  /\ obj_get "dcql_query" o = Some (dcql_to_json q)
  /\ (forall k, k <> "client_id" -> k <> "dcql_query" -> k <> "response_uri" -> obj_get k o = obj_get k (rb_params b))
  /\ exists mode, text_at "response_mode" (rb_params b) mode
     /\ ((mode = "direct_post" \/ mode = "direct_post.jwt")
         /\ (exists r, extended (v_submission v) (uuid_str u) r /\ text_at "response_uri" o (url_str r))
         \/ (mode = "dc_api" \/ mode = "dc_api.jwt") /\ absent "response_uri" o).

(** How the request reaches the wallet: the JWT itself, or the per-session URL it is fetched from. *)
Definition conveyed (v : verifier) (s : session) (ind : indirection) : Prop :=
  match v_byref v with
  | None => ind = ByValue (s_jwt s) /\ s_status s = SentRequest
  | Some at_ => exists r, extended at_ (uuid_str (s_uuid s)) r /\ ind = ByReference r /\ s_status s = SentRequestByReference
  end.

(** The wallet's authorization endpoint. *)
Definition wallet_endpoint (url_parse : string -> option url) (wm : wallet_metadata) (ep : url) : Prop :=
  exists t, text_at "authorization_endpoint" (wm_obj wm) t /\ url_parse t = Some ep.

(** A client whose JWTs can be read back: the payload is the request object and the header has the right typ. *)
Definition readable_client (ssi_header : obj -> option bool) (c : client) : Prop :=
  forall body jwt, jwf (aro_to_json body) = true -> jdepth (aro_to_json body) <= 127 ->
    cl_jwt c body = Ok jwt ->
    utf8_valid jwt = true
    /\ decode_unverified ssi_header jwt = Ok (aro_to_obj body)
    /\ exists h, protected_header jwt h /\ text_at "typ" h "oauth-authz-req+jwt".
