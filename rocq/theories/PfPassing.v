From Coq Require Import Lia ZArith.
From Verif Require Import Base BaseFacts Utf8 Utf8Facts Json JsonFacts JsonText JsonTextFacts Base64 Base64Facts Sha256 Serde Url UrlEncoded UrlEncodedFacts
  Object Formats Params Metadata Dcql Effects Jwt Request Response Session X509 SpecCert CertFacts Client Builder Server Jwe ExMatcher ExWallet ExVerifier.
From Verif Require Import Verify Wallet SpecWallet PfWallet MapFacts Spec SpecObject SpecRequest PfRequest PfResolve SpecResponse PfResponse SpecJwe PfJwe SpecBuilder SpecSession StoreFacts
  PfDid PfX509 PfFlow PfBuilder UuidFacts PfSession PfServer PfClient SpecExample PfExample SpecVerifierEx PfExServer PfExInitiate PfText PfInterop.

Lemma resolve_passed up sh uo (http : http_client) c u jwt st : uo (url_str u) = true -> utf8_valid jwt = true ->
  http (mk_req "GET" (url_str u) [("Prefer", "OID4VP-1.0.0")] "") = Ok (mk_resp st jwt) -> (200 <= st < 300)%N ->
  resolve_request up sh uo http (mk_ar c (ByReference u))
  = (EHttp (mk_req "GET" (url_str u) [("Prefer", "OID4VP-1.0.0")] "") :: fst (resolve_request up sh uo http (mk_ar c (ByValue jwt))),
     snd (resolve_request up sh uo http (mk_ar c (ByValue jwt)))).
Proof.
  intros U V H S. unfold resolve_request. cbn [ar_client_id ar_indirection]. rewrite U.
  change (get_request u) with (mk_req "GET" (url_str u) [("Prefer", "OID4VP-1.0.0")] "").
  set (rq := mk_req "GET" (url_str u) [("Prefer", "OID4VP-1.0.0")] "") in *.
  assert (Is : is_success st = true) by (unfold is_success; rewrite (proj2 (N.leb_le _ _) (proj1 S)), (proj2 (N.ltb_lt _ _) (proj2 S)); reflexivity).
  unfold send, mbind, lift, emit, of_bool. cbn [fst snd app]. rewrite H. cbn [fst snd rs_body rs_status app]. rewrite V, Is. cbn [fst snd app]. reflexivity.
Qed.
Lemma bind_passed {E A B} (e : E) (m : M E A) (f : A -> M E B) : mbind (e :: fst m, snd m) f = (e :: fst (mbind m f), snd (mbind m f)).
Proof. unfold mbind. cbn [fst snd]. destruct (snd m); reflexivity. Qed.

(** C131: it makes no difference to a wallet whether a request object comes by value or by reference: when the request URI can be sent to and is
    answered with success and the object, every wallet calls the same hooks with the same arguments and comes to the same result, after
    one GET of the request URI. *)
Lemma c131_wallet_pf :
  forall (url_parse : string -> option url) (ssi_header : obj -> option bool) (uri_ok : string -> bool) (w : wallet)
         (client_id : option string) (u : url) (jwt : string) (status : N),
    let get := mk_req "GET" (url_str u) [("Prefer", "OID4VP-1.0.0")] "" in
    uri_ok (url_str u) = true -> utf8_valid jwt = true -> w_http w get = Ok (mk_resp status jwt) -> (200 <= status < 300)%N ->
    let by_reference := validate url_parse ssi_header uri_ok w (mk_ar client_id (ByReference u)) in
    let by_value := validate url_parse ssi_header uri_ok w (mk_ar client_id (ByValue jwt)) in
    snd by_reference = snd by_value /\ fst by_reference = EHttp get :: fst by_value.
Proof.
  intros up sh uo w c u jwt st get U V H S. cbn zeta. unfold validate. cbn [ar_client_id].
  rewrite (resolve_passed up sh uo (w_http w) c u jwt st U V H S), bind_passed. cbn [fst snd]. auto.
Qed.

(** C131: and nothing but such an answer makes a request by reference acceptable: whatever a wallet accepts by reference it accepts by value
    too, as the text its HTTP client returned. *)
Lemma c131_only_pf :
  forall (url_parse : string -> option url) (ssi_header : obj -> option bool) (uri_ok : string -> bool) (w : wallet)
         (client_id : option string) (u : url) (a : aro),
    snd (validate url_parse ssi_header uri_ok w (mk_ar client_id (ByReference u))) = Ok a ->
    exists jwt status, w_http w (mk_req "GET" (url_str u) [("Prefer", "OID4VP-1.0.0")] "") = Ok (mk_resp status jwt) /\ (200 <= status < 300)%N
      /\ snd (validate url_parse ssi_header uri_ok w (mk_ar client_id (ByValue jwt))) = Ok a.
Proof.
  intros up sh uo w c u a H. pose proof H as H0. unfold validate in H0. apply mbind_ok in H0 as ([a0 j] & R & _).
  unfold resolve_request in R. cbn [ar_client_id ar_indirection] in R.
  apply mbind_ok in R as (? & R1 & R). apply mbind_ok in R as (rs & R2 & R). apply mbind_ok in R as (? & R3 & R). apply mbind_ok in R as (? & R4 & R).
  unfold send in R2. apply mbind_ok in R2 as (? & _ & R2). cbn [lift snd] in *. unfold of_bool in *.
  destruct (uo (url_str u)) eqn:U; [|discriminate R1]. destruct (utf8_valid (rs_body rs)) eqn:V; [|discriminate R3]. destruct (is_success (rs_status rs)) eqn:I; [|discriminate R4].
  unfold is_success in I. apply andb_true_iff in I as [I1 I2]. apply N.leb_le in I1. apply N.ltb_lt in I2.
  destruct rs as [st jwt]. cbn [rs_body rs_status] in *. exists jwt, st. split; [exact R2|]. split; [auto|].
  destruct (c131_wallet_pf up sh uo w c u jwt st U V R2 (conj I1 I2)) as [E _]. now rewrite <- E.
Qed.

(** C131: so for the example wallet: asked for the same by value or by reference it sends the same response, if any, to the same place and gives the
    same answer. *)
Lemma c131_example_pf :
  forall (url_parse : string -> option url) (ssi_header : obj -> option bool) (uri_ok : string -> bool)
    (jwk_ok : obj -> bool) (jwe_encrypt : obj -> obj -> obj -> res string) (lower sign : string -> string) (now : Z)
    (http : http_client) (endpoint : url) (store : list credential) (auto : bool) (p p' : params)
    (client_id : option string) (u : url) (jwt : string) (status : N),
    let get := mk_req "GET" (url_str u) [("Prefer", "OID4VP-1.0.0")] "" in
    let run := authorize url_parse ssi_header uri_ok jwk_ok jwe_encrypt lower sign now http endpoint store auto in
    uri_ok (url_str u) = true -> utf8_valid jwt = true -> http get = Ok (mk_resp status jwt) -> (200 <= status < 300)%N ->
    from_url url_parse (build_request_url endpoint p) endpoint = Ok (mk_ar client_id (ByReference u)) ->
    from_url url_parse (build_request_url endpoint p') endpoint = Ok (mk_ar client_id (ByValue jwt)) ->
    pa_state p = pa_state p' ->
    snd (run p) = snd (run p') /\ fst (run p) = EHttp get :: fst (run p').
Proof.
  intros up sh uo jo je lower sign now http ep store auto p p' c u jwt st get run U V H S F F' Ps. unfold run, authorize.
  rewrite !lift_bind, F, F', Ps. rewrite (resolve_passed up sh uo http c u jwt st U V H S), bind_passed. cbn [fst snd]. auto.
Qed.

Definition p_asks (by_ref : bool) : params :=
  let o := ex_object "redirect_uri:https://v.example/resp" in
  mk_params (Some "redirect_uri:https://v.example/resp") (if by_ref then None else Some (jwt_of typ_ok o)) (if by_ref then Some "https://v.example/req" else None)
    None None None None None None.
Definition p_http : http_client := fun rq =>
  if String.eqb (rq_method rq) "GET" then Ok (mk_resp 200 (jwt_of typ_ok (ex_object "redirect_uri:https://v.example/resp"))) else Ok (mk_resp 200 "{}").
Definition p_run (by_ref : bool) : M wevent (option string) :=
  authorize simple_parse any_header (fun _ => true) (fun _ => true) (fun h c k => Ok (jprint (JArr [JObj h; JObj c])))
    (fun s => s) (fun _ => "S") 5 p_http ex_endpoint [pid] true (p_asks by_ref).
Definition p_summary (by_ref : bool) : list (string * string) * res (option string) :=
  (map (fun r => (rq_method r, rq_uri r)) (http_events (fst (p_run by_ref))), snd (p_run by_ref)).
Example c131_example_ex :
  p_summary false = ([("POST", "https://v.example/resp")], Ok None)
  /\ p_summary true = ([("GET", "https://v.example/req"); ("POST", "https://v.example/resp")], Ok None)
  /\ match from_url simple_parse (build_request_url ex_endpoint (p_asks true)) ex_endpoint with
     | Ok (mk_ar (Some c) (ByReference u)) => (String.eqb c "redirect_uri:https://v.example/resp" && String.eqb (url_str u) "https://v.example/req")%bool
     | _ => false end = true.
Proof. repeat split; vm_compute; reflexivity. Qed.

Definition p_wallet : wallet := lax_wallet ["x509_san_dns"] (PfResolve.serve 200 (jwt_of typ_ok sample_request)).
Definition p_validate (i : indirection) : M wevent aro :=
  validate simple_parse any_header (fun _ => true) p_wallet (mk_ar (Some "x509_san_dns:v.example") i).
Example c131_wallet_ex :
  let v := p_validate (ByReference sample_uri) in let v' := p_validate (ByValue (jwt_of typ_ok sample_request)) in
  (is_ok (snd v) && is_ok (snd v'))%bool = true /\ length (fst v') = 1 /\ length (fst v) = 2.
Proof. repeat split; vm_compute; reflexivity. Qed.
Example c131_only_ex : is_ok (snd (p_validate (ByReference sample_uri))) = true.
Proof. vm_compute. reflexivity. Qed.

(** C131: so for the verifier: builders that differ only in the way of passing keep, for the same session, the same request object, JWT and query;
    they can differ in the status kept and in the URL given out. *)
Lemma c131_builder_pf :
  forall (url_parse : string -> option url) (b b' : request_builder) (u : uuid) (wm : wallet_metadata)
         (contended contended' : bool) (m m' m1 m1' : store) (dest dest' : url),
    rb_dcql b' = rb_dcql b -> rb_params b' = rb_params b ->
    v_client (rb_verifier b') = v_client (rb_verifier b) -> v_submission (rb_verifier b') = v_submission (rb_verifier b) ->
    build_with_session_id url_parse b u wm contended m = (m1, Ok dest) ->
    build_with_session_id url_parse b' u wm contended' m' = (m1', Ok dest') ->
    exists s s', st_get u m1 = Some s /\ st_get u m1' = Some s'
      /\ s_request s' = s_request s /\ s_jwt s' = s_jwt s /\ s_dcql s' = s_dcql s.
Proof.
  intros up b b' u wm c c' m m' m1 m1' d d' Eq Ep Ec Es H H'.
  assert (X : forall b0 c0 m0 m2 d0, build_with_session_id up b0 u wm c0 m0 = (m2, Ok d0) ->
    exists s q ps a, rb_complete up b0 u = Ok (q, ps) /\ aro_of_obj up ps = Ok a /\ cl_jwt (v_client (rb_verifier b0)) a = Ok (s_jwt s)
      /\ s_request s = a /\ s_dcql s = q /\ st_get u m2 = Some s).
  { clear. intros b c m m1 d H. unfold build_with_session_id, build_code in H. destruct (rb_prepare up b u wm) as [[s d1]|] eqn:E; [|discriminate].
    assert (G : st_get u m1 = Some s).
    { unfold initiate in H. destruct c; [discriminate|]. injection H as <- _. apply prepare_inv in E as (<- & _). now rewrite st_get_insert, N.eqb_refl. }
    unfold rb_prepare in E. apply rbind_ok in E as ([q ps] & E1 & E). apply rbind_ok in E as (? & _ & E). apply rbind_ok in E as (? & _ & E).
    apply rbind_ok in E as (a & E2 & E). apply rbind_ok in E as (j & E3 & E). apply rbind_ok in E as ([st i] & _ & E).
    apply rbind_ok in E as (? & _ & E). apply rbind_ok in E as (? & _ & E). injection E as <- _. cbn [s_jwt] in *.
    exists (mk_session u st j a q), q, ps, a. repeat (split; [first [assumption|reflexivity]|]). exact G. }
  apply X in H as (s & q & ps & a & C1 & C2 & C3 & C4 & C5 & C6). apply X in H' as (s' & q' & ps' & a' & D1 & D2 & D3 & D4 & D5 & D6).
  assert (E : rb_complete up b' u = rb_complete up b u) by (unfold rb_complete; now rewrite Eq, Ep, Ec, Es).
  rewrite E, C1 in D1. injection D1 as <- <-. rewrite C2 in D2. injection D2 as <-. rewrite Ec, C3 in D3.
  exists s, s'. repeat (split; [first [assumption|congruence]|]). congruence.
Qed.
Example c131_builder_ex :
  built_ok (build_with_session_id simple_parse (toy_builder false toy_client) 7%N toy_wm false []) 7%N = true
  /\ is_ok (snd (build_with_session_id simple_parse (toy_builder true toy_client) 7%N toy_wm false [])) = true
  /\ String.eqb (match snd (build_with_session_id simple_parse (toy_builder true toy_client) 7%N toy_wm false []) with Ok d => url_str d | _ => "" end)
                (match snd (build_with_session_id simple_parse (toy_builder false toy_client) 7%N toy_wm false []) with Ok d => url_str d | _ => "" end) = false.
Proof. repeat split; vm_compute; reflexivity. Qed.

(** C131: and between the two: following either URL, a wallet whose HTTP client gets the session's JWT from the request URI does the same with
    the same result, but for that GET. *)
Lemma c131_followed_pf :
  forall (url_parse : string -> option url) (ssi_header : obj -> option bool) (uri_ok : string -> bool) (w : wallet)
         (b b' : request_builder) (base r : url) (u : uuid) (wm : wallet_metadata) (status : N)
         (contended contended' : bool) (m m' m1 m1' : store) (dest dest' : url) (s' : session),
    rb_dcql b' = rb_dcql b -> rb_params b' = rb_params b ->
    v_client (rb_verifier b') = v_client (rb_verifier b) -> v_submission (rb_verifier b') = v_submission (rb_verifier b) ->
    v_byref (rb_verifier b) = None -> v_byref (rb_verifier b') = Some base ->
    build_with_session_id url_parse b u wm contended m = (m1, Ok dest) ->
    build_with_session_id url_parse b' u wm contended' m' = (m1', Ok dest') ->
    let get := mk_req "GET" (url_str r) [("Prefer", "OID4VP-1.0.0")] "" in
    wallet_endpoint url_parse wm (wm_endpoint (w_metadata w)) ->
    utf8_valid (cl_client_id (v_client (rb_verifier b))) = true ->
    st_get u m1' = Some s' -> utf8_valid (s_jwt s') = true ->
    extended base (uuid_str u) r -> utf8_valid (url_str r) = true -> url_parse (url_str r) = Some r -> uri_ok (url_str r) = true ->
    w_http w get = Ok (mk_resp status (s_jwt s')) -> (200 <= status < 300)%N ->
    let by_value := validate_request url_parse ssi_header uri_ok w dest in
    let by_reference := validate_request url_parse ssi_header uri_ok w dest' in
    snd by_reference = snd by_value /\ fst by_reference = EHttp get :: fst by_value.
Proof.
  intros up sh uo w b b' base r u wm st c c' m m' m1 m1' d d' s' Eq Ep Ec Es B B' H H' get W V G V' X Vr Pr Ur Hh St. cbn zeta.
  destruct (c131_builder_pf up b b' u wm c c' m m' m1 m1' d d' Eq Ep Ec Es H H') as (s & s2 & G1 & G2 & _ & Ej & _).
  rewrite G in G2. injection G2 as <-.
  apply c29_build_pf in H as (s0 & i & e & G0 & _ & _ & _ & _ & _ & C & We & T). rewrite G1 in G0. injection G0 as <-.
  apply c29_build_pf in H' as (s0 & i' & e' & G0 & _ & U0 & _ & _ & _ & C' & We' & T'). rewrite G in G0. injection G0 as <-.
  assert (Ep0 : forall e0, wallet_endpoint up wm e0 -> e0 = wm_endpoint (w_metadata w)).
  { intros e0 (t & T1 & T2). destruct W as (t0 & T3 & T4). pose proof (text_unique _ _ _ _ T1 T3) as <-. congruence. }
  apply Ep0 in We as ->. apply Ep0 in We' as ->. unfold conveyed in C, C'. rewrite B in C. rewrite B' in C'.
  destruct C as [-> _]. destruct C' as (r' & X' & -> & _). rewrite U0 in X'. pose proof (extended_unique _ _ _ _ X' X) as ->.
  rewrite <- Ej in T. rewrite Ec in T'.
  assert (R : from_url up d (wm_endpoint (w_metadata w)) = Ok (mk_ar (Some (cl_client_id (v_client (rb_verifier b)))) (ByValue (s_jwt s')))).
  { destruct (c12_roundtrip_pf up (mk_ar (Some (cl_client_id (v_client (rb_verifier b)))) (ByValue (s_jwt s'))) (wm_endpoint (w_metadata w))) as (x & T1 & F1 & _).
    - split; [exact V|exact V'].
    - rewrite T in T1. injection T1 as <-. exact F1. }
  assert (R' : from_url up d' (wm_endpoint (w_metadata w)) = Ok (mk_ar (Some (cl_client_id (v_client (rb_verifier b)))) (ByReference r))).
  { destruct (c12_roundtrip_pf up (mk_ar (Some (cl_client_id (v_client (rb_verifier b)))) (ByReference r)) (wm_endpoint (w_metadata w))) as (x & T1 & F1 & _).
    - split; [exact V|cbn [ar_indirection]; auto].
    - rewrite T' in T1. injection T1 as <-. exact F1. }
  unfold validate_request. rewrite !lift_bind, R, R'. eapply c131_wallet_pf; eassumption.
Qed.
Definition p_followed (byref : bool) : res (nat * list string * string) :=
  let? c := x509_hash_client toy_der toy_chain (toy_signer "K") in
  match build_with_session_id simple_parse (toy_builder byref c) 7%N toy_wm false [] with
  | (m, Ok d) =>
      let? s := ok_or (st_get 7%N m) "no session" in
      let v := validate_request simple_parse any_header (fun _ => true) (mk_wallet toy_wm (PfResolve.serve 200 (s_jwt s)) flow_hook) d in
      let? a := snd v in
      Ok (length (fst v), map rq_uri (http_events (fst v)), url_str (ro_return a))
  | (_, Err e) => Err e
  end.
Example c131_followed_ex :
  p_followed false = Ok (1, [], "https://v.example/submit/00000000-0000-0000-0000-000000000007")
  /\ p_followed true = Ok (2, ["https://v.example/req/00000000-0000-0000-0000-000000000007"], "https://v.example/submit/00000000-0000-0000-0000-000000000007").
Proof. split; vm_compute; reflexivity. Qed.
