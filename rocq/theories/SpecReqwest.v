(** Specification vocabulary for the library's own HTTP client: redirects as HTTP (RFC 9110, 15.4) and reqwest's
    documentation describe them. *)
From Verif Require Import Base Url Effects Reqwest SpecEncodings.

(** The statuses that send a client elsewhere; 307 and 308 ask it to repeat the request. *)
Definition redirect_status (s : N) : Prop := In s [301; 302; 303; 307; 308]%N.
Definition keeps_body (s : N) : Prop := s = 307%N \/ s = 308%N.

Definition http_url (u : url) : Prop := u_scheme u = "http" \/ u_scheme u = "https".

(** What a request to the URL names: the URL without its fragment. *)
Definition sent_to (u : url) : string :=
  url_str (mk_url (u_scheme u) (u_auth u) (u_path u) (u_opaque u) (u_query u) None).

(** The answer [x], got from the URL [u], sends the client to [v]. *)
Definition sends_to (join : url -> string -> option url) (uri_ok : string -> bool) (u : url) (x : exchange) (v : url) : Prop :=
  redirect_status (x_status x)
  /\ exists l, x_location x = Some l /\ join u l = Some v /\ uri_ok (sent_to v) = true.

(** The same name, if capital letters count as small ones. *)
Definition capital_of (c d : ascii) : Prop := (65 <= byte c <= 90 /\ byte d = byte c + 32)%N.
Definition same_name (a b : string) : Prop :=
  Forall2 (fun c d => c = d \/ capital_of c d \/ capital_of d c) (list_ascii_of_string a) (list_ascii_of_string b).
(** Headers that describe a body, and the header naming the page one comes from. *)
Definition about_body (k : string) : Prop :=
  exists n, In n ["content-type"; "content-length"; "content-encoding"; "transfer-encoding"] /\ same_name k n.
Definition is_referer (k : string) : Prop := same_name k "referer".
(** The page a request comes from, without user name, password and fragment. *)
Definition comes_from (u : url) (w : string) : Prop :=
  exists a, w = url_str (mk_url (u_scheme u) a (u_path u) (u_opaque u) (u_query u) None)
    /\ match u_auth u with
       | None => a = None
       | Some s => exists h, a = Some h /\ without "@" h /\ (s = h \/ exists user, s = user +:+ "@" +:+ h)
       end.

(** The request [q'] to [v] after the request [q] to [u] was answered with the redirect status [s]. *)
Definition resent (u : url) (q : http_req) (s : N) (v : url) (q' : http_req) : Prop :=
  rq_uri q' = sent_to v
  /\ (keeps_body s -> rq_method q' = rq_method q /\ rq_body q' = rq_body q)
  /\ (~ keeps_body s -> rq_body q' = EmptyString /\ (rq_method q <> "HEAD" -> rq_method q' = "GET"))
  /\ (forall k w, ~ is_referer k ->
        (In (k, w) (rq_headers q') <-> In (k, w) (rq_headers q) /\ (keeps_body s \/ ~ about_body k)))
  /\ (forall k w, is_referer k ->
        (In (k, w) (rq_headers q') <->
           if (String.eqb (u_scheme u) "https" && String.eqb (u_scheme v) "http")%bool
           then In (k, w) (rq_headers q) else k = "referer" /\ comes_from u w)).

(** The requests from [q] (to [u]) to [z] (to [w]), each after the first made because of the answer to the one before. *)
Inductive chain (join : url -> string -> option url) (uri_ok : string -> bool) (net : http_req -> res exchange) :
  url -> http_req -> list http_req -> url -> http_req -> Prop :=
| chain_one u q : chain join uri_ok net u q [q] u q
| chain_hop u q x v q' l w z :
    net q = Ok x -> sends_to join uri_ok u x v -> http_url v -> resent u q (x_status x) v q' ->
    chain join uri_ok net v q' l w z -> chain join uri_ok net u q (q :: l) w z.

(** The request with the URI replaced. *)
Definition at_uri (s : string) (r : http_req) : http_req := mk_req (rq_method r) s (rq_headers r) (rq_body r).

(** A redirect that does not ask to repeat the request; a server that answers by asking to repeat it elsewhere; a GET
    that carries nothing. *)
Definition plain_redirect (s : N) : Prop := redirect_status s /\ ~ keeps_body s.
Definition hands_on (net : http_req -> res exchange) (p : http_req) : Prop := exists x, net p = Ok x /\ keeps_body (x_status x).
Definition bare_get (q : http_req) : Prop :=
  rq_method q = "GET" /\ rq_body q = EmptyString /\ forall k w, In (k, w) (rq_headers q) -> ~ about_body k.
