(** The library's own HTTP client, [ReqwestClient], /repo/src/core/util/mod.rs:18-70.
    The file itself only converts the request, hands it to [reqwest::Client::execute] (util/mod.rs:40-44) and
    copies status and body of the answer (util/mod.rs:47-67).  The client is built with no redirect policy of its
    own (util/mod.rs:28-34), so what reqwest 0.12 (external; /repo/Cargo.toml:29) does by default is part of what
    the caller gets: redirects are followed.  That default is modelled here as reqwest documents and implements it.
    Simplifications: response headers other than Location, the version and the extensions are dropped (the library
    reads none of them); the headers reqwest adds to every request (accept, host, content-length, user agent) are
    left out; the methods are those the library uses (GET and POST), with HEAD for completeness. *)
From Verif Require Import Base Url Effects Request.

(** One exchange on the network: the answer to one request.  Reading the body can fail later than the head. *)
Record exchange := mk_exchange { x_status : N; x_location : option string; x_body : res string }.

(** ASCII lower case; header names ([http::HeaderName]) are compared without regard to case. *)
Definition lower_char (c : ascii) : ascii :=
  if ((65 <=? byte c) && (byte c <=? 90))%N then chr (byte c + 32) else c.
Fixpoint lower_ascii (s : string) : string :=
  match s with EmptyString => EmptyString | String c r => String (lower_char c) (lower_ascii r) end.
Definition same_header (a b : string) : bool := String.eqb (lower_ascii a) (lower_ascii b).
(** [HeaderMap::remove] and [insert]. *)
Definition drop_header (k : string) (l : list (string * string)) : list (string * string) :=
  filter (fun kv => negb (same_header (fst kv) k)) l.
Definition put_header (k v : string) (l : list (string * string)) : list (string * string) :=
  drop_header k l ++ [(k, v)].

(** The URL a request is sent to: the fragment is not sent. *)
Definition target (u : url) : string :=
  url_str (mk_url (u_scheme u) (u_auth u) (u_path u) (u_opaque u) (u_query u) None).
Definition web_url (u : url) : bool := String.eqb (u_scheme u) "http" || String.eqb (u_scheme u) "https".

(** reqwest's [make_referer]: the URL without user information and fragment; none from https to http. *)
Definition referer_text (u : url) : string :=
  let a := match u_auth u with
           | Some a => Some match rsplit_once "@" a with Some (_, h) => h | None => a end
           | None => None
           end in
  target (mk_url (u_scheme u) a (u_path u) (u_opaque u) (u_query u) None).
Definition make_referer (from to : url) : option string :=
  if String.eqb (u_scheme to) "http" && String.eqb (u_scheme from) "https" then None
  else Some (referer_text from).

Definition follows_bare (s : N) : bool := ((s =? 301) || (s =? 302) || (s =? 303))%N.
Definition follows_same (s : N) : bool := ((s =? 307) || (s =? 308))%N.

(** The request sent after a redirect: 301, 302 and 303 drop the body and the headers describing it and turn any
    method but HEAD into GET; 307 and 308 repeat method and body. *)
Definition next_request (from to : url) (s : N) (r : http_req) : http_req :=
  let hs := if follows_bare s
            then drop_header "transfer-encoding" (drop_header "content-encoding"
                   (drop_header "content-type" (drop_header "content-length" (rq_headers r))))
            else rq_headers r in
  let hs := match make_referer from to with Some t => put_header "referer" t hs | None => hs end in
  if follows_bare s
  then mk_req (if String.eqb (rq_method r) "HEAD" then "HEAD" else "GET") (target to) hs EmptyString
  else mk_req (rq_method r) (target to) hs (rq_body r).

Section Client.
(** [TryFrom<http::Request>], i.e. [Url::parse] of the text of the [http::Uri] (which has no fragment). *)
Variable url_parse : string -> option url.
(** [Url::join]. *)
Variable join : url -> string -> option url.
(** Whether [http::Uri] accepts the text of the joined URL. *)
Variable uri_ok : string -> bool.
(** The network: what comes back for a request. *)
Variable net : http_req -> res exchange.
(** [redirect::Policy::limited(10)], the default. *)
Variable limit : nat.

(** Where an answer sends the client: nowhere unless it is one of the five statuses with a usable Location. *)
Definition next_url (u : url) (x : exchange) : option url :=
  if follows_bare (x_status x) || follows_same (x_status x) then
    match x_location x with
    | Some l => match join u l with
                | Some v => if uri_ok (target v) then Some v else None
                | None => None
                end
    | None => None
    end
  else None.

(** [reqwest]'s pending request: one exchange after the other.  The policy is asked before the scheme is looked at. *)
Fixpoint follow (n : nat) (u : url) (r : http_req) : M http_req http_resp :=
  let! _ := emit r in
  let! x := lift (net r) in
  match next_url u x with
  | None => let! b := lift (x_body x) in ret (mk_resp (x_status x) b)
  | Some v =>
      match n with
      | O => lift (Err "too many redirects")
      | S n => let! _ := lift (of_bool (web_url v) "URL scheme is not allowed") in
               follow n v (next_request u v (x_status x) r)
      end
  end.

(** [ReqwestClient::execute], util/mod.rs:39-69: the requests that reach the network, and the answer. *)
Definition execute (r : http_req) : M http_req http_resp :=
  let! u := lift (ok_or (url_parse (rq_uri r)) "unable to convert request") in
  let! _ := lift (of_bool (web_url u) "URL scheme is not allowed") in
  follow limit u (mk_req (rq_method r) (target u) (rq_headers r) (rq_body r)).

(** The client as the library and the example wallet use it
    (/repo/examples/wallet-conformance-adapter/server/handlers/authorization.rs:122; its own posts at 351, 372, 488 and 508 use
    a client with the same defaults). *)
Definition reqwest_client : http_client := fun r => snd (execute r).

(** What a wallet using this client puts on the network. *)
Definition wire (l : list wevent) : list http_req :=
  flat_map (fun e => match e with EHttp r => fst (execute r) | EHook _ _ _ => [] end) l.
End Client.
