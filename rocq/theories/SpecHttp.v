(** Specification vocabulary for the example wallet's web server. *)
From Verif Require Import Base Json UrlEncoded Url Object Params Dcql Effects Request Response ExMatcher ExWallet ExHttp
  SpecRequest SpecExample.

(** The parameters of the authorization endpoint by name. *)
Definition parameters : list (string * (params -> option string)) :=
  [("client_id", pa_client_id); ("request", pa_request); ("request_uri", pa_request_uri);
   ("response_type", pa_response_type); ("nonce", pa_nonce); ("state", pa_state); ("response_mode", pa_response_mode);
   ("response_uri", pa_response_uri); ("dcql_query", pa_dcql_query)].
(** The form has each parameter as often as [p]: once with that value, or not at all. *)
Definition values (k : string) (l : list (string * string)) : list string :=
  map snd (filter (fun kv => String.eqb (fst kv) k) l).
Definition gives (text : string) (p : params) : Prop :=
  forall k f, In (k, f) parameters ->
    values k (form_parse text) = match f p with Some v => [v] | None => [] end.
(** The form has a parameter twice. *)
Definition repeats (text : string) : Prop :=
  exists k f v1 v2 l, In (k, f) parameters /\ values k (form_parse text) = v1 :: v2 :: l.

(** There is a content type, of printable characters and tabs only, that begins with the one of forms. *)
Definition says_form (q : hrequest) : Prop :=
  exists t rest, hq_content_type q = Some t /\ t = "application/x-www-form-urlencoded" +:+ rest
    /\ forall c, In c (list_ascii_of_string t) -> (32 <= byte c <= 126 \/ byte c = 9)%N.
(** The form part of a request: the query of a GET, the body of a POST. *)
Definition form_of (q : hrequest) (text : string) : Prop :=
  (hq_method q = "GET" \/ hq_method q = "HEAD") /\ text = match hq_query q with Some t => t | None => EmptyString end
  \/ hq_method q = "POST" /\ says_form q /\ text = hq_body q.

(** The page of an error: a code, a description, and the state if there is one; nothing else. *)
Definition error_page (code : string) (state : option string) (r : hreply) : Prop :=
  exists o d, hr_json r = Some (JObj o) /\ text_at "error" o code /\ text_at "error_description" o d
    /\ match state with Some s => text_at "state" o s | None => absent "state" o end
    /\ forall k, obj_get k o <> None -> In k ["error"; "error_description"; "state"].
(** The page of a success: the redirect if there is one; nothing else. *)
Definition success_page (redirect : option string) (r : hreply) : Prop :=
  hr_status r = 200%N
  /\ exists o, hr_json r = Some (JObj o)
     /\ match redirect with Some u => text_at "redirect_uri" o u | None => absent "redirect_uri" o end
     /\ forall k, obj_get k o <> None -> k = "redirect_uri".

(** The errors found before an answer is made, and after. *)
Definition early_errors : list (N * string) :=
  [(400, "invalid_request"); (400, "access_denied"); (400, "unsupported_response_mode")]%N.
Definition late_errors : list (N * string) :=
  [(400, "invalid_client_metadata"); (500, "encryption_error"); (502, "verifier_error"); (502, "submission_failed")]%N.
(** The state of the request object if readable, else the one given with the request. *)
Definition echoed (a : aro) (outer : option string) : option string :=
  match aro_state a with Some (Ok s) => Some s | _ => outer end.

(** Every credential query is met by some credential. *)
Definition answerable (lower : string -> string) (store : list credential) (d : dcql) : Prop :=
  forall cq, In cq (dq_credentials d) -> exists c, In c store /\ satisfies lower cq c.

(** The same credential but for the secret parts: the credential itself and the values of its claims. *)
Definition same_outside (c c' : credential) : Prop :=
  mc_format c = mc_format c' /\ mc_vct c = mc_vct c' /\ mc_doctype c = mc_doctype c'
  /\ map fst (mc_claims c) = map fst (mc_claims c').
(** The answer to a POST does not depend on its body; encryption fails in the same way for every payload. *)
Definition blind (http : http_client) : Prop :=
  forall u b b', http (wallet_post u b) = http (wallet_post u b').
Definition uniform (jwe_encrypt : obj -> obj -> obj -> res string) : Prop :=
  forall h c c' k e, jwe_encrypt h c k = Err e -> jwe_encrypt h c' k = Err e.

(** The members of a JWK that hold secrets (RFC 7518, 6.2.2, 6.3.2, 6.4.1). *)
Definition private_members : list string := ["d"; "p"; "q"; "dp"; "dq"; "qi"; "oth"; "k"].
(** The paths served besides the authorization endpoint. *)
Definition page_paths : list string :=
  ["/.well-known/openid-configuration"; "/.well-known/jwks.json"; "/health"; "/debug/config"; "/debug/credentials"; "/"].
