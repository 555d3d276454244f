(** Vocabulary for what the examples write to their logs (C137, C138). *)
From Verif Require Import Base Utf8 Json Url Params Dcql Effects Request Response Session Server ExMatcher ExWallet ExVerifier ExLog.

(** What a log kept at the default level shows. *)
Definition ordinary (x : line) : bool :=
  match ln_level x with LvError => true | LvWarn => true | LvInfo => true | LvDebug => false | LvTrace => false end.
Definition ordinary_log (w : list line) : list line := filter ordinary w.

(** Two responses that differ only in the presentations themselves: the same queries are answered, each with as many
    presentations.  Encrypted ones are the same. *)
Definition same_outline (r r' : auth_response) : Prop :=
  match r, r' with
  | Unencoded u, Unencoded v =>
      map (fun e : string * list vp_item => (fst e, length (snd e))) (ur_vp_token u)
      = map (fun e => (fst e, length (snd e))) (ur_vp_token v)
  | Jwt j, Jwt k => j = k
  | _, _ => False
  end.
(** Bodies that are read as such responses, or are both rejected. *)
Definition same_outline_body (b b' : string) : Prop :=
  utf8_valid b = utf8_valid b'
  /\ match from_form b, from_form b' with
     | Ok r, Ok r' => same_outline r r'
     | Err _, Err _ => True
     | _, _ => False
     end.
(** The same request with another body. *)
Definition with_body (f : string -> string) (h : hreq) : hreq :=
  match h with HResponse sid b => HResponse sid (f b) | _ => h end.

Definition says_received (u : uuid) : line := mk_line LvInfo "Received authorization response for session: {}" [AUuid u].
Definition says_validating (u : uuid) : line := mk_line LvInfo "Validating response for session: {}" [AUuid u].
Definition says_created (u : uuid) : line := mk_line LvInfo "Created authorization request with session_id: {}" [AUuid u].
Definition says_body (b : string) : line := mk_line LvDebug "Response body: {}" [AText b].
Definition says_token (v : json) : line := mk_line LvInfo "Extracted vp_token from decrypted response: {:?}" [AJson v].
(** A line names a session. *)
Definition mentions (u : uuid) (x : line) : Prop := In (AUuid u) (ln_args x).
(** A request that the server has begun to handle, or has handled. *)
Definition came (h : hreq) (x : hsys) : Prop := In h (map fst (hs_tasks x)) \/ In h (map fst (hs_log x)).

(** Two wallets that hold the same credentials but for the credentials' own text. *)
Definition same_but_text (c c' : credential) : Prop :=
  mc_id c = mc_id c' /\ mc_format c = mc_format c' /\ mc_vct c = mc_vct c' /\ mc_doctype c = mc_doctype c'
  /\ mc_claims c = mc_claims c'.
(** A network that answers the same whatever body is sent. *)
Definition ignores_bodies (http : http_client) : Prop :=
  forall m u hs b b', http (mk_req m u hs b) = http (mk_req m u hs b').
(** The two lines that give the size of the answer. *)
Definition gives_size (x : line) : bool :=
  String.eqb (ln_text x) "Submitting direct_post response" || String.eqb (ln_text x) "Submitting direct_post.jwt response".
Definition but_sizes (w : list line) : list line := filter (fun x => negb (gives_size x)) w.
(** Encryption that succeeds or fails whatever is encrypted. *)
Definition ignores_contents (encrypt : obj -> obj -> obj -> res string) : Prop :=
  forall header claims claims' key, is_ok (encrypt header claims key) = is_ok (encrypt header claims' key).
(** A line that reports a failure. *)
Definition reports_failure (x : line) : Prop := ln_level x = LvError \/ ln_text x = "Verifier returned error".
