(** The example verifier behind its web server:
    /repo/examples/verifier-conformance-adapter/server/{mod,handlers}.rs.  The web framework is axum 0.7 with tower-http
    0.6 (Cargo.toml:46,65-66, external). *)
From Verif Require Import Base Utf8 Json Serde Url UrlEncoded Request Response Session Server ExVerifier ExHttp.

(** [percent_decode] (crate percent-encoding, external), which axum applies to a segment of the path: valid escapes are
    decoded, everything else stays. *)
Fixpoint percent_dec (s : string) : string :=
  match s with
  | EmptyString => EmptyString
  | String c r =>
      if Ascii.eqb c "%" then
        match r with
        | String h (String l r') =>
            match unhex h, unhex l with
            | Some x, Some y => String (chr (16 * x + y)) (percent_dec r')
            | _, _ => String c (percent_dec r)
            end
        | _ => String c (percent_dec r)
        end
      else String c (percent_dec r)
  end.
(** The segment that [:session_id] stands for in the routes of server/mod.rs:20-24: not empty and without a slash. *)
Definition segment (prefix path : string) : option string :=
  match strip_prefix prefix path with
  | Some seg => if String.eqb seg EmptyString || has_char "/" seg then None else Some seg
  | None => None
  end.
(** The [Path<String>] extractor, handlers.rs:95,128,232: the segment must be UTF-8 once decoded. *)
Definition path_param (seg : string) : option string :=
  let d := percent_dec seg in if utf8_valid d then Some d else None.

(** An HTTP request with the two UUIDs drawn if it initiates a presentation (handlers.rs:62,67). *)
Record wreq := mk_wreq { w_http : hrequest; w_fresh : uuid; w_id : uuid }.

(** What the body of a request is for the [Json<InitiateRequest>] extractor, handlers.rs:28-32,49. *)
Inductive initiate_body := Nonce (n : option string) | Malformed | Unsuitable.

(** Where a request goes: to one of the handlers, to [health], or back with a status code. *)
Inductive dest := To (h : hreq) | Health | Refuse (status : N).

Inductive content := CJson (j : json) | CJwt (jwt : string) | CError | CNone.
(** [CError]: the JSON object [{"error": message}] of [AppError], handlers.rs:286-296, whose message is not modelled.
    [CNone]: an empty or plain text body. *)
Definition wanswer := (N * content)%type.

Section Web.
Variable url_parse : string -> option url.
Variable jwe_open : string -> res string.
(** mime (external): is this content type JSON.  serde_json (external): what is in the body. *)
Variable json_type : string -> bool.
Variable read_initiate : string -> initiate_body.

(** axum's default limit for bodies that are read completely: two MiB. *)
Definition web_limit : N := 2 * 1024 * 1024.
Definition oversized (q : hrequest) : bool := (web_limit <? N.of_nat (String.length (hq_body q)))%N.

(** POST /initiate, handlers.rs:47-50: the extractors. *)
Definition to_initiate (w : wreq) : dest :=
  let q := w_http w in
  if match hq_content_type q with Some t => json_type t | None => false end then
    if oversized q then Refuse 413
    else match read_initiate (hq_body q) with
         | Nonce n => To (HInitiate n (w_fresh w) (w_id w))
         | Malformed => Refuse 400
         | Unsuitable => Refuse 422
         end
  else Refuse 415.
(** GET /request/:session_id and GET /status/:session_id, handlers.rs:93-96,230-233. *)
Definition to_session (h : string -> hreq) (seg : string) : dest :=
  match path_param seg with Some sid => To (h sid) | None => Refuse 400 end.
(** POST /response/:session_id, handlers.rs:126-130: first the path, then the body. *)
Definition to_response (q : hrequest) (seg : string) : dest :=
  match path_param seg with
  | Some sid => if oversized q then Refuse 413 else To (HResponse sid (hq_body q))
  | None => Refuse 400
  end.

(** The routes of [create_router], server/mod.rs:16-28.  A GET route also answers HEAD. *)
Definition dispatch (w : wreq) : dest :=
  let q := w_http w in
  let m := hq_method q in
  let p := hq_path q in
  if String.eqb m "OPTIONS" then Refuse 200                            (** CORS, server/mod.rs:29 *)
  else if String.eqb p "/initiate" then if String.eqb m "POST" then to_initiate w else Refuse 405
  else if String.eqb p "/health" then if is_get m then Health else Refuse 405
  else match segment "/request/" p with
  | Some seg => if is_get m then to_session HRequest seg else Refuse 405
  | None => match segment "/response/" p with
  | Some seg => if String.eqb m "POST" then to_response q seg else Refuse 405
  | None => match segment "/status/" p with
  | Some seg => if is_get m then to_session HStatus seg else Refuse 405
  | None => Refuse 404
  end end end.

(** [health], handlers.rs:21-26. *)
Definition web_health : json := JObj [("service", JStr "verifier-conformance-adapter"); ("status", JStr "ok")].
(** The answer on the wire; none has a body for HEAD. *)
Definition answer_of (r : reply) : wanswer :=
  match r with RJson st j => (st, CJson j) | RJwt t => (200%N, CJwt t) | RError st => (st, CError) end.
Definition wire (q : hrequest) (a : wanswer) : wanswer :=
  if String.eqb (hq_method q) "HEAD" then (fst a, CNone) else a.
Definition web (a : adapter) (w : wreq) : prog wanswer :=
  match dispatch w with
  | To h => pfinish (fun r => match r with Ok r => wire (w_http w) (answer_of r) | Err _ => (500%N, CNone) end)
              (handler url_parse a h)
  | Health => Done (Ok (wire (w_http w) (200%N, CJson web_health)))
  | Refuse n => Done (Ok (n, CNone))
  end.

(** The running server.  [w_timeout]: the timeout of server/mod.rs:31-34 drops the request and answers 408;
    [w_gone]: the client goes away. *)
Inductive wevent := WDoes (e : event) | WReply (r : wanswer).
Record wsys := mk_wsys { ws_store : store; ws_tasks : list (wreq * prog wanswer); ws_log : list (wreq * wevent) }.
Inductive wstep (a : adapter) : wsys -> wsys -> Prop :=
| w_start : forall m ts l w, wstep a (mk_wsys m ts l) (mk_wsys m ((w, web a w) :: ts) l)
| w_act : forall m m' pre w p p' post l e,
    act m p m' p' e ->
    (forall s r o, e = EvValidate s r o -> o = app_validator jwe_open s r) ->
    wstep a (mk_wsys m (pre ++ (w, p) :: post) l) (mk_wsys m' (pre ++ (w, p') :: post) ((w, WDoes e) :: l))
| w_return : forall m pre w r post l,
    wstep a (mk_wsys m (pre ++ (w, Done (Ok r)) :: post) l) (mk_wsys m (pre ++ post) ((w, WReply r) :: l))
| w_timeout : forall m pre w p post l,
    wstep a (mk_wsys m (pre ++ (w, p) :: post) l) (mk_wsys m (pre ++ post) ((w, WReply (408%N, CNone)) :: l))
| w_gone : forall m pre w p post l,
    wstep a (mk_wsys m (pre ++ (w, p) :: post) l) (mk_wsys m (pre ++ post) l).
Inductive wsteps (a : adapter) : wsys -> wsys -> Prop :=
| wsteps_refl : forall x, wsteps a x x
| wsteps_snoc : forall x y z, wsteps a x y -> wstep a y z -> wsteps a x z.
Definition ws_init : wsys := mk_wsys [] [] [].
Definition wreachable (a : adapter) (x : wsys) : Prop := wsteps a ws_init x.
End Web.
