(** What the examples write to their logs:
    /repo/examples/verifier-conformance-adapter/{main,server/handlers}.rs and
    /repo/examples/wallet-conformance-adapter/{main,server/handlers/authorization,engine/headless,dcql/matcher}.rs.
    Only the lines these files write themselves are modelled here: those of the library are in LibLog.v; not modelled are
    those of [TraceLayer] and those written while starting.  The text of an error is not modelled ([AProblem]). *)
From Verif Require Import Base Utf8 Json JsonText Serde Url UrlEncoded Object Formats Params Dcql Effects Jwt Request Response
  Jwe Session Builder Server ExMatcher ExWallet ExVerifier.

(** tracing's levels, the most important first. *)
Inductive level := LvError | LvWarn | LvInfo | LvDebug | LvTrace.
Definition level_rank (l : level) : nat :=
  match l with LvError => 0 | LvWarn => 1 | LvInfo => 2 | LvDebug => 3 | LvTrace => 4 end.
(** What is substituted in a message or attached to it. *)
Inductive arg :=
| AUuid (u : uuid)
| AText (s : string)
| ACount (n : nat)
| ACode (n : N)
| AJson (v : json)
| APairs (l : list (string * string))
| AQuery (q : dcql)
| AMode (m : response_mode)
| ANone
| AProblem.
Record line := mk_line { ln_level : level; ln_text : string; ln_args : list arg }.
(** A line is written when its level is at least as important as the one in force. *)
Definition written (at_level : level) (x : line) : bool := Nat.leb (level_rank (ln_level x)) (level_rank at_level).

(* ------------------------------------------------------------ the example verifier *)
(** main.rs:43-49.  [asked] is the level of RUST_LOG or of --log-level ("info" unless given, main.rs:30-32).  The call
    [with_max_level(Level::TRACE)] comes after [with_env_filter]; in tracing-subscriber it replaces the filter. *)
Definition verifier_level (asked : level) : level := LvTrace.

(** handlers.rs:51 (initiate_request), 97-101 (get_request_object), 131-144 (receive_response): the lines written before
    the store is first used. *)
Definition start_lines (h : hreq) : list line :=
  match h with
  | HInitiate _ _ _ => [mk_line LvInfo "Initiating authorization request" []]
  | HRequest sid =>
      match uuid_of_string sid with
      | None => []
      | Some u => [mk_line LvInfo "Wallet fetching request object for session: {}" [AUuid u]]
      end
  | HResponse sid body =>
      if utf8_valid body then
        match uuid_of_string sid with
        | None => []
        | Some u =>
            [mk_line LvInfo "Received authorization response for session: {}" [AUuid u];
             mk_line LvDebug "Response body: {}" [AText body]]
            ++ match from_form body with
               | Ok _ => [mk_line LvInfo "Parsed authorization response successfully" []]
               | Err _ => [mk_line LvError "Failed to parse authorization response: {}" [AProblem]]
               end
        end
      else []
  | HStatus _ => []
  end.

(** The validator, handlers.rs:152-214. *)
Definition validator_lines (jwe_open : string -> res string) (s : session) (r : auth_response) : list line :=
  mk_line LvInfo "Validating response for session: {}" [AUuid (s_uuid s)] ::
  match r with
  | Unencoded u =>
      mk_line LvInfo "Received unencoded vp_token with {} credential(s)" [ACount (vp_len (ur_vp_token u))] ::
      map (fun e => mk_line LvInfo "Query '{}': {} presentation(s)" [AText (fst e); ACount (length (snd e))]) (ur_vp_token u)
  | Jwt jwe =>
      mk_line LvInfo "Received encrypted JWT response (JARM)" [] ::
      mk_line LvDebug "JWE: {}" [AText jwe] ::
      match decrypt jwe_open jwe with
      | Ok v =>
          mk_line LvInfo "Successfully decrypted JARM response" [] ::
          mk_line LvDebug "Decrypted payload: {:?}" [AJson v] ::
          match v with
          | JObj m => match obj_get "vp_token" m with
                      | Some t => [mk_line LvInfo "Extracted vp_token from decrypted response: {:?}" [AJson t]]
                      | None => []
                      end
          | _ => []
          end
      | Err _ => [mk_line LvError "Failed to decrypt JARM response: {}" [AProblem]]
      end
  end.
Definition event_lines (jwe_open : string -> res string) (e : event) : list line :=
  match e with EvValidate s r _ => validator_lines jwe_open s r | _ => [] end.

(** The lines before the answer: handlers.rs:69-78 (initiate_request), 107-112 (get_request_object), 217-222
    (receive_response).  An answer 400 is made before the store is used, with the lines of [start_lines]. *)
Definition reply_lines (h : hreq) (r : reply) : list line :=
  match h, r with
  | HInitiate _ _ id, RJson _ (JObj m) =>
      [mk_line LvInfo "Created authorization request with session_id: {}" [AUuid id];
       mk_line LvInfo "Authorization URL: {}"
         [match obj_get "authorization_url" m with Some (JStr s) => AText s | _ => AProblem end]]
  | HInitiate _ _ _, _ => [mk_line LvError "Failed to build authorization request: {}" [AProblem]]
  | HRequest _, RJwt _ => [mk_line LvInfo "Returning signed JWT request object" []]
  | HRequest _, RError c =>
      if (c =? 404)%N then [mk_line LvError "Failed to retrieve authorization request: {}" [AProblem]] else []
  | HResponse _ _, RJson _ _ => [mk_line LvInfo "Authorization response verified successfully" []]
  | HResponse _ _, RError c => if (c =? 500)%N then [mk_line LvError "Failed to verify response: {}" [AProblem]] else []
  | _, _ => []
  end.

(** The server of ExVerifier.v with everything it tries to log, oldest first; which of the lines are written depends on
    the level. *)
Record lsys := mk_lsys { ls_sys : hsys; ls_lines : list line }.
Inductive lstep (url_parse : string -> option url) (jwe_open : string -> res string) (a : adapter) : lsys -> lsys -> Prop :=
| l_start : forall m ts l w h,
    lstep url_parse jwe_open a (mk_lsys (mk_hsys m ts l) w)
      (mk_lsys (mk_hsys m ((h, handler url_parse a h) :: ts) l) (w ++ start_lines h))
| l_act : forall m m' pre h p p' post l w e,
    act m p m' p' e ->
    (forall s r o, e = EvValidate s r o -> o = app_validator jwe_open s r) ->
    lstep url_parse jwe_open a (mk_lsys (mk_hsys m (pre ++ (h, p) :: post) l) w)
      (mk_lsys (mk_hsys m' (pre ++ (h, p') :: post) ((h, HDoes e) :: l)) (w ++ event_lines jwe_open e))
| l_return : forall m pre h r post l w,
    lstep url_parse jwe_open a (mk_lsys (mk_hsys m (pre ++ (h, Done (Ok r)) :: post) l) w)
      (mk_lsys (mk_hsys m (pre ++ post) ((h, HReply r) :: l)) (w ++ reply_lines h r))
| l_drop : forall m pre h p post l w,
    lstep url_parse jwe_open a (mk_lsys (mk_hsys m (pre ++ (h, p) :: post) l) w) (mk_lsys (mk_hsys m (pre ++ post) l) w).
Inductive lsteps (url_parse : string -> option url) (jwe_open : string -> res string) (a : adapter) : lsys -> lsys -> Prop :=
| lsteps_refl : forall x, lsteps url_parse jwe_open a x x
| lsteps_snoc : forall x y z,
    lsteps url_parse jwe_open a x y -> lstep url_parse jwe_open a y z -> lsteps url_parse jwe_open a x z.
Definition lreachable (url_parse : string -> option url) (jwe_open : string -> res string) (a : adapter) (x : lsys) : Prop :=
  lsteps url_parse jwe_open a (mk_lsys hs_init []) x.

(* ------------------------------------------------------------ the example wallet *)
Section WalletLog.
Variable url_parse : string -> option url.
Variable ssi_header : obj -> option bool.
Variable uri_ok : string -> bool.
Variable jwk_ok : obj -> bool.
Variable jwe_encrypt : obj -> obj -> obj -> res string.
Variable lower : string -> string.
Variable sign : string -> string.
Variable now : Z.
Variable http : http_client.
Variable endpoint : url.
Variable store : list credential.
Variable auto_consent : bool.

(** [match_query], matcher.rs:21-59, with [match_credential_query], matcher.rs:89-96. *)
Fixpoint match_lines (qs : list cred_query) : list line :=
  match qs with
  | [] => []
  | q :: r =>
      mk_line LvDebug "Matching credential query" [AText (cq_id q); AText (name (cq_format q))] ::
      mk_line LvDebug "Searching for matching credential"
        [AText (cq_id q); AText (name (cq_format q));
         match vct_values q with Some l => APairs (map (fun v => ("vct", v)) l) | None => ANone end;
         match doctype_value q with Some d => AText d | None => ANone end;
         APairs (map (fun c => ("claim", c)) (required_claims q))] ::
      match match_credential lower store q with Ok _ => match_lines r | Err _ => [] end
  end.
Definition set_lines (q : dcql) (s : selection) : list line :=
  match dq_sets q with
  | None => []
  | Some l =>
      mk_line LvDebug "DCQL has credential_sets - checking requirements" [] ::
      flat_map (fun cs =>
        if negb (existsb (fun o => forallb (fun id => mem_str id (map fst s)) o) (cs_options cs)) && is_required cs
        then [mk_line LvWarn "Required credential set not satisfied" []] else []) l
  end.
(** [process_request], headless.rs:52-90, without the artificial delay's line (headless.rs:59-62). *)
Definition engine_lines (a : aro) : list line :=
  mk_line LvInfo "Processing authorization request (headless mode)" [] ::
  if auto_consent then
    match aro_dcql a with
    | Some (Ok q) =>
        mk_line LvDebug "Extracted DCQL query" [AQuery q] ::
        match_lines (dq_credentials q)
        ++ match match_all lower store (dq_credentials q) [] with
           | Err _ => []
           | Ok s =>
               set_lines q s
               ++ match s with
                  | [] => []
                  | _ => [mk_line LvInfo "Successfully matched credentials" [ACount (length s)]]
                  end
           end
    | _ => []
    end
  else [mk_line LvWarn "Auto-consent disabled, declining request" []].

(** The end of [submit_direct_post] and of [submit_direct_post_jwt], authorization.rs:348-412,483-548. *)
Definition deliver_lines (encrypted : bool) (size : nat) (u : url) (body : string) : list line :=
  (if encrypted then mk_line LvDebug "Submitting direct_post.jwt response" [AText (url_str u); ACount size]
   else mk_line LvDebug "Submitting direct_post response" [AText (url_str u); ACount size]) ::
  match http (plain_post u body) with
  | Err _ => [mk_line LvError (if encrypted then "Failed to submit JWE response: {}" else "Failed to submit response: {}") [AProblem]]
  | Ok rs =>
      mk_line LvInfo (if encrypted then "Verifier response received (JWE)" else "Verifier response received") [ACode (rs_status rs)] ::
      if is_success (rs_status rs) then
        match match json_of_text (utf8_lossy (rs_body rs)) with
              | Some (JObj m) => match obj_get "redirect_uri" m with Some v => as_str v | None => None end
              | _ => None
              end with
        | Some r =>
            mk_line LvInfo "Verifier returned redirect_uri, following redirect" [AText r] ::
            match match url_parse r with
                  | Some r' => http (mk_req "GET" (url_str r') [] EmptyString)
                  | None => Err "invalid URL"
                  end with
            | Ok x => [mk_line LvInfo "Redirect response received" [ACode (rs_status x)]]
            | Err _ => [mk_line LvWarn "Failed to follow redirect_uri: {}" [AProblem]]
            end
        | None => []
        end
      else [mk_line LvWarn "Verifier returned error" [ACode (rs_status rs); AText (utf8_lossy (rs_body rs))]]
  end.

(** [process_authorization_request], authorization.rs:89-280. *)
Definition process_lines (p : params) : list line :=
  let dest := build_request_url endpoint p in
  mk_line LvDebug "Constructed authorization request URL" [AText (url_str dest)] ::
  match from_url url_parse dest endpoint with
  | Err _ => [mk_line LvError "Failed to parse authorization request: {}" [AProblem]]
  | Ok ar =>
    match snd (resolve_request url_parse ssi_header uri_ok http ar) with
    | Err _ => [mk_line LvError "Failed to resolve authorization request: {}" [AProblem]]
    | Ok (a, _) =>
      mk_line LvDebug "Authorization request resolved successfully" [] ::
      match aro_dcql a with
      | None => [mk_line LvError "Missing dcql_query in request" []]
      | Some (Err _) => [mk_line LvError "Failed to parse dcql_query: {}" [AProblem]]
      | Some (Ok q) =>
        mk_line LvDebug "Extracted DCQL query" [AQuery q] ::
        engine_lines a ++
        match process_request lower store auto_consent a with
        | Err _ => [mk_line LvError "Engine processing failed: {}" [AProblem]]
        | Ok sel =>
          if redirect_uri_bound a then
            (match ro_client_id a with
             | Some c => if starts_with "redirect_uri:" c
                         then [mk_line LvDebug "Security check passed: response_uri matches client_id" []] else []
             | None => []
             end) ++
            let audience := match ro_client_id a with Some c => c | None => "unknown-verifier" end in
            let vp := build_vp_token sign now sel (ro_nonce a) audience in
            let state := match aro_state a with Some (Ok s) => Some s | _ => pa_state p end in
            mk_line LvDebug "Building vp_token" [AText (ro_nonce a); AText audience; ACount (length sel)] ::
            mk_line LvInfo "Successfully built vp_token" [ACount (vp_len vp)] ::
            mk_line LvInfo "Submitting response" [AMode (ro_mode a); AText (url_str (ro_return a))] ::
            match ro_mode a with
            | DirectPost =>
                let body := unencoded_form (mk_unencoded vp state) in
                deliver_lines false (String.length body) (ro_return a) body
            | DirectPostJwt =>
                match verifier_key jwk_ok a with
                | Err _ => [mk_line LvError "Failed to get verifier encryption key: {}" [AProblem]]
                | Ok _ =>
                  match encrypted_answer jwk_ok jwe_encrypt a vp state with
                  | Err _ => [mk_line LvError "JWE encryption failed: {}" [AProblem]]
                  | Ok jwe => deliver_lines true (String.length jwe) (ro_return a) (form_serialize [("response", jwe)])
                  end
                end
            | _ => [mk_line LvError "Unsupported response mode" [AMode (ro_mode a)]]
            end
          else [mk_line LvError "Security violation: response_uri does not match client_id"
                  [AText (match ro_client_id a with Some c => c | None => EmptyString end); AText (url_str (ro_return a))]]
        end
      end
    end
  end.
(** [authorization_get] and [authorization_post], authorization.rs:62-86.  [#[instrument]] skips only the state, so the
    parameters are attached to every line. *)
Definition authorize_lines (post : bool) (p : params) : list line :=
  map (fun x => mk_line (ln_level x) (ln_text x) (APairs (param_pairs p) :: ln_args x))
    (mk_line LvInfo (if post then "Received authorization request (POST)" else "Received authorization request (GET)") []
     :: mk_line LvDebug "Request parameters" [APairs (param_pairs p)] :: process_lines p).
End WalletLog.
