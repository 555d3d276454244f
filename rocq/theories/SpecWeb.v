(** Specification vocabulary for the example verifier's web server. *)
From Verif Require Import Base Json Url Request Response Session Server ExVerifier ExHttp ExWeb SpecJsonText SpecEncodings SpecRequest
  SpecBuilder SpecVerifierEx.

(** Percent-decoding (RFC 3986, section 2.1) of a segment of a path; percent signs that begin no escape stay. *)
Inductive unpercent : string -> string -> Prop :=
| pc_end : unpercent "" ""
| pc_escape h l x y c r t : hex_digit h x -> hex_digit l y -> byte c = (16 * x + y)%N -> unpercent r t ->
    unpercent (String "%" (String h (String l r))) (String c t)
| pc_bare r t : ~ escape_follows r -> unpercent r t -> unpercent (String "%" r) (String "%" t)
| pc_plain c r t : c <> "%"%char -> unpercent r t -> unpercent (String c r) (String c t).

(** A path of the form [/endpoint/segment]. *)
Definition under (endpoint path seg : string) : Prop :=
  path = "/" +:+ endpoint +:+ "/" +:+ seg /\ seg <> "" /\ without "/" seg.
Definition has_segment (endpoint path : string) : Prop := exists seg, under endpoint path seg.
(** The identifier a path of that form gives; and a path whose segment is not text. *)
Definition names_session (endpoint path sid : string) : Prop :=
  exists seg l, under endpoint path seg /\ unpercent seg sid /\ utf8 sid l.
Definition garbled (endpoint path : string) : Prop :=
  exists seg b, under endpoint path seg /\ unpercent seg b /\ forall l, ~ utf8 b l.

Definition reads (m : string) : Prop := m = "GET" \/ m = "HEAD".
(** Which methods are for which paths. *)
Definition allowed (p m : string) : Prop :=
  (p = "/initiate" \/ has_segment "response" p) /\ m = "POST"
  \/ (p = "/health" \/ has_segment "request" p \/ has_segment "status" p) /\ reads m.
Definition known (p : string) : Prop := exists m, allowed p m.
(** A body of at most two MiB. *)
Definition fits (q : hrequest) : Prop := (N.of_nat (String.length (hq_body q)) <= 2097152)%N.
Definition says_json (json_type : string -> bool) (q : hrequest) : Prop :=
  exists t, hq_content_type q = Some t /\ json_type t = true.

(** The request initiates a presentation; it is one for the session [u] at the endpoint; it posts a response. *)
Definition fetches (endpoint : string) (q : hrequest) (u : uuid) : Prop :=
  reads (hq_method q) /\ exists sid, names_session endpoint (hq_path q) sid /\ uuid_of_string sid = Some u.
Definition responds (q : hrequest) (u : uuid) : Prop :=
  hq_method q = "POST" /\ exists sid, names_session "response" (hq_path q) sid /\ uuid_of_string sid = Some u.

(** The answer without its body. *)
Definition bare (a : wanswer) : wanswer := (fst a, CNone).
(** The answer to a health check: the status is "ok"; without a body for HEAD. *)
Definition healthy (q : hrequest) (a : wanswer) : Prop :=
  fst a = 200%N /\ (hq_method q = "HEAD" -> snd a = CNone)
  /\ (hq_method q <> "HEAD" -> exists o, snd a = CJson (JObj o) /\ text_at "status" o "ok" /\ text_at "service" o "verifier-conformance-adapter"
        /\ forall k, obj_get k o <> None -> In k ["status"; "service"]).
(** What an answer of the handlers is on the wire. *)
Definition on_wire (q : hrequest) (r : reply) (a : wanswer) : Prop :=
  exists full, match r with
               | RJson st j => full = (st, CJson j)
               | RJwt t => full = (200%N, CJwt t)
               | RError st => full = (st, CError)
               end
    /\ (hq_method q = "HEAD" -> a = bare full) /\ (hq_method q <> "HEAD" -> a = full).

(** A record of the web server (newest first) tells what a record of the handlers tells: the same operations for the
    same requests in the same order, and the same answers, apart from timeouts and requests that reach no handler. *)
Section Records.
Variable reaches : wreq -> hreq -> Prop.
Variable refused : wreq -> wanswer -> Prop.
Inductive records : list (wreq * wevent) -> list (hreq * hevent) -> Prop :=
| rec_none : records [] []
| rec_does w h e l k : reaches w h -> records l k -> records ((w, WDoes e) :: l) ((h, HDoes e) :: k)
| rec_reply w h r a l k : reaches w h -> on_wire (w_http w) r a -> records l k ->
    records ((w, WReply a) :: l) ((h, HReply r) :: k)
| rec_refused w a l k : refused w a -> records l k -> records ((w, WReply a) :: l) k
| rec_timeout w l k : records l k -> records ((w, WReply (408%N, CNone)) :: l) k.
End Records.

(** The operations a request may lead to: only on the session it names, or the new one; only what its endpoint is for. *)
Definition its_business (w : wreq) (e : event) : Prop :=
  let q := w_http w in
  match e with
  | EvInitiate s _ => hq_method q = "POST" /\ hq_path q = "/initiate" /\ s_uuid s = w_id w
  | EvGet u _ => fetches "request" q u \/ fetches "status" q u \/ responds q u
  | EvUpdate u st _ => fetches "request" q u /\ st = SentRequest \/ responds q u /\ exists o, st = Complete o
  | EvValidate _ r _ => (exists u, responds q u) /\ from_form (hq_body q) = Ok r
  | EvRemove _ _ | EvReturn _ => False
  end.

(** A public URL whose path has no directory: the endpoints are then at the top. *)
Definition at_top (public : url) : Prop :=
  exists last, (u_path public = last \/ u_path public = "/" +:+ last) /\ without "/" last.
