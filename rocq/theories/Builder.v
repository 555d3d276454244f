(** /repo/src/verifier/{mod,by_reference,request_builder}.rs: the verifier and its request builder. *)
From Verif Require Import Base Json JsonText Url Object Params Metadata Dcql Request Session Client.

(** Text form of a UUID ([Uuid]'s [Display]): 32 lower-case hexadecimal digits in groups of
    8-4-4-4-12. *)
Fixpoint hex_digits (n : nat) (x : N) : string :=
  match n with O => EmptyString | S n' => hex_digits n' (x / 16) +:+ s1 (hexdig (x mod 16)) end.
Definition uuid_str (u : uuid) : string :=
  (hex_digits 8 (u / 2 ^ 96) +:+ "-" +:+ hex_digits 4 (u / 2 ^ 80) +:+ "-" +:+ hex_digits 4 (u / 2 ^ 64)
   +:+ "-" +:+ hex_digits 4 (u / 2 ^ 48) +:+ "-" +:+ hex_digits 12 u)%N.

(** [Verifier], verifier/mod.rs:24-31, without the store; [v_byref = Some at] is
    [ByReference::True { at }]. *)
Record verifier := mk_verifier {
  v_client : client;
  v_defaults : obj;
  v_byref : option url;
  v_submission : url
}.

(** [VerifierBuilder], verifier/mod.rs:133-220. *)
Record verifier_builder := mk_vb {
  vb_client : option client;
  vb_defaults : obj;
  vb_byref : option url;
  vb_store : bool;                 (* a session store was given *)
  vb_submission : option url
}.
Definition vb_new : verifier_builder := mk_vb None [] None false None.
Definition vb_by_value b := mk_vb (vb_client b) (vb_defaults b) None (vb_store b) (vb_submission b).
Definition vb_by_reference at_ b :=
  mk_vb (vb_client b) (vb_defaults b) (Some at_) (vb_store b) (vb_submission b).
Definition vb_with_default {T} (P : tparam T) (t : T) b :=
  mk_vb (vb_client b) (uo_put P t (vb_defaults b)) (vb_byref b) (vb_store b) (vb_submission b).
Definition vb_with_client c b :=
  mk_vb (Some c) (vb_defaults b) (vb_byref b) (vb_store b) (vb_submission b).
Definition vb_with_store b :=
  mk_vb (vb_client b) (vb_defaults b) (vb_byref b) true (vb_submission b).
Definition vb_with_submission u b :=
  mk_vb (vb_client b) (vb_defaults b) (vb_byref b) (vb_store b) (Some u).
(** [VerifierBuilder::build], verifier/mod.rs:144-172. *)
Definition vb_build (b : verifier_builder) : res verifier :=
  let? c := ok_or (vb_client b) "client is required" in
  let? _ := of_bool (vb_store b) "session store is required" in
  let? u := ok_or (vb_submission b) "submission endpoint is required" in
  Ok (mk_verifier c (vb_defaults b) (vb_byref b) u).

(** [RequestBuilder], request_builder.rs:23-50. *)
Record request_builder := mk_rb { rb_dcql : option dcql; rb_params : obj; rb_verifier : verifier }.
Definition rb_new (v : verifier) : request_builder := mk_rb None (v_defaults v) v.
Definition rb_with_dcql (q : dcql) (b : request_builder) : request_builder :=
  mk_rb (Some q) (rb_params b) (rb_verifier b).
Definition rb_with_param {T} (P : tparam T) (t : T) (b : request_builder) : request_builder :=
  mk_rb (rb_dcql b) (uo_put P t (rb_params b)) (rb_verifier b).

Section WithUrl.
Variable url_parse : string -> option url.

(** Common first half of both build functions, request_builder.rs:70-105 and 179-213: the query and
    the completed parameters. *)
Definition rb_complete (b : request_builder) (u : uuid) : res (dcql * obj) :=
  let v := rb_verifier b in
  let ps := uo_put p_client_id (cl_client_id (v_client v)) (rb_params b) in
  let? q := ok_or (rb_dcql b) "dcql_query is required" in
  let ps := uo_put p_dcql q ps in
  let? _ := match uo_get p_response_type ps with
            | None => Err "response type is required"
            | Some r => context r "error occurred when retrieving response type"
            end in
  let? mode := match uo_get p_response_mode ps with
               | None => Err "response mode is required"
               | Some r => context r "error occurred when retrieving response mode"
               end in
  match mode with
  | DirectPost | DirectPostJwt =>
      let? uri := push_segment (v_submission v) (uuid_str u) in
      Ok (q, uo_put (p_response_uri url_parse) uri ps)
  | DcApi | DcApiJwt => Ok (q, ps)
  | UnsupportedMode _ => Err "unsupported response_mode"
  end.

(** Everything up to the store operation, request_builder.rs:70-165: the session to store and the
    authorization request URL. *)
Definition rb_prepare (b : request_builder) (u : uuid) (wm : wallet_metadata) : res (session * url) :=
  let v := rb_verifier b in
  let? (q, ps) := rb_complete b u in
  let? prefixes := uo_get_or_default p_client_id_prefixes default_prefixes (wm_obj wm) in
  let? _ := of_bool (mem_str (cl_prefix (v_client v)) prefixes) "wallet does not support prefix" in
  let? a := aro_of_obj url_parse ps in
  let? jwt := cl_jwt (v_client v) a in
  let? (st, ind) :=
    match v_byref v with
    | None => Ok (SentRequest, ByValue jwt)
    | Some at_ => let? at' := push_segment at_ (uuid_str u) in
                  Ok (SentRequestByReference, ByReference at')
    end in
  let? ep := parsing_error (uo_get (p_authorization_endpoint url_parse) (wm_obj wm)) in
  let? dest := to_url (mk_ar (Some (cl_client_id (v_client v))) ind) ep in
  Ok (mk_session u st jwt a q, dest).

(** [build_with_session_id], request_builder.rs:65-174, as a program and run alone. *)
Definition build_code (b : request_builder) (u : uuid) (wm : wallet_metadata) : prog url :=
  match rb_prepare b u wm with
  | Err e => Done (Err e)
  | Ok (s, dest) => Initiate s (fun x => Done (rmap (fun _ => dest) x))
  end.
Definition build_with_session_id (b : request_builder) (u : uuid) (wm : wallet_metadata)
    (contended : bool) (m : store) : store * res url := run_plain contended (build_code b u wm) m.
(** [build], request_builder.rs:57-63, with the fresh UUID as an argument. *)
Definition build (b : request_builder) (fresh : uuid) (wm : wallet_metadata) (contended : bool) (m : store)
  : store * res (uuid * url) :=
  match build_with_session_id b fresh wm contended m with
  | (m', Ok d) => (m', Ok (fresh, d))
  | (m', Err e) => (m', Err e)
  end.

(** [build_dc_api], request_builder.rs:176-243, with the fresh UUID as an argument. *)
Definition rb_prepare_dc (b : request_builder) (u : uuid) : res session :=
  let? (q, ps) := rb_complete b u in
  let? a := aro_of_obj url_parse ps in
  let? jwt := cl_jwt (v_client (rb_verifier b)) a in
  Ok (mk_session u SentRequest jwt a q).
Definition build_dc_code (b : request_builder) (fresh : uuid) : prog (uuid * string) :=
  match rb_prepare_dc b fresh with
  | Err e => Done (Err e)
  | Ok s => Initiate s (fun x => Done (rmap (fun _ => (fresh, s_jwt s)) x))
  end.
Definition build_dc_api (b : request_builder) (fresh : uuid) (contended : bool) (m : store)
  : store * res (uuid * string) := run_plain contended (build_dc_code b fresh) m.
End WithUrl.
