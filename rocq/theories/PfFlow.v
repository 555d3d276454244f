From Coq Require Import Lia.
From Verif Require Import Base BaseFacts Utf8 Utf8Facts Json JsonFacts JsonText JsonTextFacts Base64 Base64Facts Sha256 Serde Url UrlEncoded UrlEncodedFacts
  Object Formats Params Metadata Dcql Effects Jwt Request Verify Did X509 SpecCert CertFacts Client Response Session Builder Wallet.
From Verif Require Import MapFacts Spec SpecObject SpecRequest SpecVerify SpecResponse SpecWallet SpecBuilder SpecSession StoreFacts ParamFacts PfParams PfText SpecConfig
  PfRequest PfResolve PfVerify PfDid PfX509 PfClient PfResponse PfWallet PfBuilder PfSession PfExample PfConfig SpecFlow.

(* --------------------------------------------------------------------- C85 *)
Lemma final_same up r a : accepted up (aro_to_obj a) a -> same_client r a <-> final_check r a = Ok a.
Proof.
  intros A. pose proof (acc_client _ _ _ A) as C. unfold final_check, same_client. unfold aro_get, uo_get. cbn [tp_key tp_of p_client_id p_string].
  unfold aro_to_obj in *. destruct (ro_client_id a) as [c|]; unfold text_at, absent in *; rewrite C; cbn.
  - destruct (ar_client_id r) as [x|]; [|split; [reflexivity|intros _ ? ? X; discriminate]].
    destruct (String.eqb_spec x c) as [->|N]; split; intros H; try reflexivity; try discriminate.
    + intros o i X Y. congruence.
    + exfalso. apply N. exact (H x c eq_refl eq_refl).
  - split; [destruct (ar_client_id r); reflexivity|intros _ o i _ X; discriminate].
Qed.
Lemma request_run up ssi uok w u :
  match from_url up u (wm_endpoint (w_metadata w)) with
  | Ok r => validate_request up ssi uok w u = validate up ssi uok w r
  | Err e => validate_request up ssi uok w u = ([], Err e)
  end.
Proof.
  unfold validate_request, mbind, lift. cbn [fst snd]. destruct (from_url up u (wm_endpoint (w_metadata w))) as [r|e]; [|reflexivity].
  cbn [app]. now destruct (validate up ssi uok w r).
Qed.

(** C85: a wallet given a URL validates exactly the request objects that the URL conveys: the URL is on the wallet's own
    endpoint, the request that its query denotes resolves to the object, the metadata checks pass, the one hook for the
    client identifier prefix accepts it, and the client identifiers agree. *)
Lemma c85_validated_pf
  : forall (url_parse : string -> option url) (ssi_header : obj -> option bool) (uri_ok : string -> bool)
      (w : wallet) (u : url) (a : aro),
    snd (validate_request url_parse ssi_header uri_ok w u) = Ok a <->
    exists r jwt h,
      addressed url_parse u (wm_endpoint (w_metadata w)) r
      /\ snd (resolve_request url_parse ssi_header uri_ok (w_http w) r) = Ok (a, jwt)
      /\ metadata_accepts (w_metadata w) a /\ hook_of_prefix (ro_scheme a) h /\ w_hook w h a jwt = Ok tt
      /\ same_client r a.
Proof.
  intros up ssi uok w u a. pose proof (request_run up ssi uok w u) as Q. unfold addressed. split.
  - intros H. destruct (from_url up u (wm_endpoint (w_metadata w))) as [r|e] eqn:F; [|rewrite Q in H; discriminate]. rewrite Q in H.
    destruct (validate_ok _ _ _ _ _ _ H) as (jwt' & R' & _ & Fc).
    apply c19_validate_pf in H as (jwt & h & R & Hh & Hk & Hm & _). rewrite R in R'. injection R' as <-. exists r, jwt, h.
    split; [now apply c11_matching_pf|]. repeat (split; [assumption|]). now apply (final_same up r a (resolve_accepted _ _ _ _ _ _ _ R)).
  - intros (r & jwt & h & M & R & Hm & Hh & Hk & S). apply c11_matching_pf in M. rewrite M in Q. rewrite Q, validate_trace. cbn zeta. rewrite R. cbn [snd].
    assert (V : snd (verify_request w a jwt) = Ok tt) by (apply (c19_one_hook_pf w a jwt h Hh); auto). rewrite V. cbn [rbind].
    now apply (final_same up r a (resolve_accepted _ _ _ _ _ _ _ R)).
Qed.
Definition url_wallet (prefixes : list string) : wallet :=
  mk_wallet (mk_wm [("client_id_prefixes_supported", jstrs prefixes)] (toy_url "openid4vp://w/auth") []) (PfResolve.serve 404 "") (fun _ _ _ => Ok tt).
Definition url_request (at_ : string) : url := toy_url (at_ +:+ "?client_id=x509_san_dns%3Av.example&request=" +:+ jwt_of typ_ok sample_request).
Example c85_validated_ex :
  is_ok (snd (validate_request simple_parse any_header (fun _ => true) (url_wallet ["x509_san_dns"]) (url_request "openid4vp://w/auth"))) = true.
Proof. vm_compute. reflexivity. Qed.

(** C85: nothing at all happens for a URL that is not on the wallet's endpoint or that repeats client_id: no HTTP
    request, no hook, and an error. *)
Lemma c85_silent_pf
  : forall (url_parse : string -> option url) (ssi_header : obj -> option bool) (uri_ok : string -> bool)
      (w : wallet) (u : url),
    ~ (exists r, addressed url_parse u (wm_endpoint (w_metadata w)) r) ->
    exists e, validate_request url_parse ssi_header uri_ok w u = ([], Err e).
Proof.
  intros up ssi uok w u N. pose proof (request_run up ssi uok w u) as Q. destruct (from_url up u (wm_endpoint (w_metadata w))) as [r|e] eqn:F; [|eauto].
  exfalso. apply N. exists r. now apply c11_matching_pf.
Qed.
Example c85_silent_ex :
  validate_request simple_parse any_header (fun _ => true) (url_wallet ["x509_san_dns"]) (url_request "openid4vp://other/auth")
  = ([], Err "unexpected authority")
  /\ validate_request simple_parse any_header (fun _ => true) (url_wallet ["x509_san_dns"]) (url_request "openid4vp://w/other")
  = ([], Err "unexpected path")
  /\ validate_request simple_parse any_header (fun _ => true) (url_wallet ["x509_san_dns"]) (toy_url "openid4vp://w/auth?client_id=a&client_id=b")
  = ([], Err "duplicate field `client_id`").
Proof. vm_compute. repeat split. Qed.

(** C85: whatever the URL, at most one HTTP request is made, the GET of the request URI in the URL, and at most one hook
    runs, on the resolved request object and for its client identifier prefix. *)
Lemma c85_effects_pf
  : forall (url_parse : string -> option url) (ssi_header : obj -> option bool) (uri_ok : string -> bool)
      (w : wallet) (u : url),
    let events := fst (validate_request url_parse ssi_header uri_ok w u) in
    (http_events events = []
     \/ exists r at_, addressed url_parse u (wm_endpoint (w_metadata w)) r /\ ar_indirection r = ByReference at_
          /\ http_events events = [mk_req "GET" (url_str at_) [("Prefer", "OID4VP-1.0.0")] EmptyString])
    /\ (hook_events events = []
        \/ exists r a jwt h, addressed url_parse u (wm_endpoint (w_metadata w)) r
             /\ snd (resolve_request url_parse ssi_header uri_ok (w_http w) r) = Ok (a, jwt)
             /\ metadata_accepts (w_metadata w) a /\ hook_of_prefix (ro_scheme a) h
             /\ hook_events events = [(h, a, jwt)]).
Proof.
  intros up ssi uok w u. pose proof (request_run up ssi uok w u) as Q. cbn zeta. destruct (from_url up u (wm_endpoint (w_metadata w))) as [r|e] eqn:F.
  2:{ rewrite Q. split; now left. }
  rewrite Q. pose proof (proj1 (c11_matching_pf _ _ _ _) F) as M. split.
  - destruct (c13_traffic_pf up ssi uok w r) as [T _]. cbn zeta in T. rewrite T. destruct (ar_indirection r) as [j|at_|o] eqn:I; [now left| |now left].
    destruct (uok (url_str at_)); [|now left]. right. exists r, at_. auto.
  - rewrite validate_trace. cbn zeta. destruct (snd (resolve_request up ssi uok (w_http w) r)) as [[a jwt]|e] eqn:R.
    2:{ left. cbn [fst]. apply resolve_hooks. }
    cbn [fst]. rewrite hook_app, resolve_hooks. cbn [app].
    destruct (hook_for (ro_scheme a)) as [h|] eqn:H.
    + assert (Hh : hook_of_prefix (ro_scheme a) h).
      { clear - H. unfold hook_for in H. unfold hook_of_prefix. destruct (ro_scheme a) as [p|]; [|now injection H].
        destruct (String.eqb_spec p DECENTRALIZED_IDENTIFIER) as [D|N1]; [injection H as <-; left; rewrite D; now left|].
        destruct (String.eqb_spec p OPENID_FEDERATION) as [D|N2]; [injection H as <-; left; rewrite D; now right; left|].
        destruct (String.eqb_spec p REDIRECT_URI) as [D|N3]; [injection H as <-; left; rewrite D; now do 2 right; left|].
        destruct (String.eqb_spec p VERIFIER_ATTESTATION) as [D|N4]; [injection H as <-; left; rewrite D; now do 3 right; left|].
        destruct (String.eqb_spec p X509_SAN_DNS) as [D|N5]; [injection H as <-; left; rewrite D; now do 4 right; left|].
        destruct (String.eqb_spec p X509_HASH) as [D|N6]; [injection H as <-; left; rewrite D; now do 5 right; left|].
        destruct (String.eqb_spec p ORIGIN) as [D|N7]; [discriminate|].
        unfold DECENTRALIZED_IDENTIFIER, OPENID_FEDERATION, REDIRECT_URI, VERIFIER_ATTESTATION, X509_SAN_DNS, X509_HASH in *.
        injection H as <-. right. cbn. split; [reflexivity|]. split; [intuition congruence|assumption]. }
      rewrite verify_trace, H. destruct (validate_against_metadata (w_metadata w) a) as [[]|e] eqn:V; [|now left]. right. exists r, a, jwt, h.
      split; [exact M|]. split; [exact R|]. split; [now apply c21_metadata_pf|]. split; [exact Hh|reflexivity].
    + left. rewrite verify_trace, H. now destruct (validate_against_metadata (w_metadata w) a).
Qed.
Example c85_effects_ex :
  length (hook_events (fst (validate_request simple_parse any_header (fun _ => true) (url_wallet ["x509_san_dns"]) (url_request "openid4vp://w/auth")))) = 1
  /\ length (http_events (fst (validate_request simple_parse any_header (fun _ => true) (url_wallet ["x509_san_dns"])
       (toy_url "openid4vp://w/auth?client_id=x509_san_dns%3Av.example&request_uri=https%3A%2F%2Fv.example%2Fr")))) = 1.
Proof. vm_compute. split; reflexivity. Qed.

(* --------------------------------------------------------------------- C86 *)
Lemma prefix_of p rest : has_char ":" p = false -> resolve_prefix (p +:+ ":" +:+ rest) = Some p.
Proof.
  intros H. rewrite resolve_prefix_split. destruct (split_once ":" (p +:+ ":" +:+ rest)) as [[x y]|] eqn:E.
  - apply split_once_some in E as [E N]. cbn [option_map fst]. f_equal. clear - E N H. revert x y E N. induction p as [|c p IH]; intros x y E N.
    + destruct x as [|d x]; [reflexivity|]. cbn in E. injection E as <- _. discriminate N.
    + cbn [has_char] in H. apply Bool.orb_false_iff in H as [H1 H2]. destruct x as [|d x]; cbn in E.
      * injection E as -> _. discriminate H1.
      * injection E as <- E. cbn [has_char] in N. apply Bool.orb_false_iff in N as [_ N]. f_equal. eapply IH; eauto.
  - apply split_once_none in E. rewrite !has_char_app in E. cbn in E. rewrite Bool.orb_true_r in E. discriminate.
Qed.

(** C86: a request that a verifier built for the wallet's metadata is validated by the wallet when it follows the URL,
    and gives the wallet the very request object that the verifier stored, if the wallet's hook for the client's prefix
    accepts it and the wallet can answer in the response mode. *)
Lemma c86_validated_pf
  : forall (url_parse : string -> option url) (ssi_header : obj -> option bool) (uri_ok : string -> bool)
      (w : wallet) (b : request_builder) (u : uuid) (m m' : store) (dest : url) (s : session) (h : hook) (name : string),
    let c := v_client (rb_verifier b) in
    build_with_session_id url_parse b u (w_metadata w) false m = (m', Ok dest) -> st_get u m' = Some s ->
    (* the wallet *)
    wallet_endpoint url_parse (w_metadata w) (wm_endpoint (w_metadata w)) -> answerable (w_metadata w) (rb_params b) ->
    In (cl_prefix c, h) known_hooks -> w_hook w h (s_request s) (Some (s_jwt s)) = Ok tt ->
    (* the client *)
    readable_client ssi_header c -> cl_client_id c = cl_prefix c +:+ ":" +:+ name -> utf8_valid (cl_client_id c) = true ->
    jwf (aro_to_json (s_request s)) = true -> jdepth (aro_to_json (s_request s)) <= 127 ->
    (* the network, when the request is by reference *)
    (forall base r, v_byref (rb_verifier b) = Some base -> extended base (uuid_str u) r ->
       usable_url url_parse uri_ok r /\ request_served (w_http w) u m' r) ->
    snd (validate_request url_parse ssi_header uri_ok w dest) = Ok (s_request s)
    /\ hook_events (fst (validate_request url_parse ssi_header uri_ok w dest)) = [(h, s_request s, Some (s_jwt s))].
Proof.
  intros up ssi uok w b u m m' dest s h name c B G We An Kh Hk Rc Ci Uc Jw Jd Net.
  destruct (c32_understood_pf up ssi uok (w_http w) b u (w_metadata w) false m m' dest _ B We Rc Uc) as (s0 & ind & G0 & Cv & Un).
  rewrite G in G0. injection G0 as <-.
  assert (St : s_uuid s = u /\ built_object b (s_dcql s) u (aro_to_obj (s_request s)) /\ aro_of_obj up (aro_to_obj (s_request s)) = Ok (s_request s)
     /\ exists l, supported "client_id_prefixes_supported" ["pre-registered"] (w_metadata w) = Ok l /\ In (cl_prefix c) l).
  { unfold build_with_session_id, build_code in B. destruct (rb_prepare up b u (w_metadata w)) as [[s1 d]|e] eqn:E; [|discriminate B].
    apply (f_equal fst) in B. unfold run_plain in B. cbn in B. subst m'. apply prepare_inv in E as (E1 & _ & E3 & E4 & _ & E6 & _).
    rewrite E1 in G. rewrite st_get_insert, N.eqb_refl in G. injection G as <-. auto. }
  destruct St as (Su & Bo & Ac & L).
  destruct (Un Jw Jd) as (F & R).
  { intros r ->. unfold conveyed in Cv. destruct (v_byref (rb_verifier b)) as [base|] eqn:Bf; [|destruct Cv; discriminate].
    destruct Cv as (r' & Er & Ei & _). injection Ei as <-. rewrite Su in Er. destruct (Net base r eq_refl Er) as ((U1 & U2 & U3) & m2 & jwt & st & Rt & S2 & Hh).
    repeat (split; [assumption|]). exists st. split; [exact S2|]. pose proof (c35_retrieve_pf u m') as C. rewrite G in C. destruct C as (m3 & C & _).
    rewrite C in Rt. injection Rt as _ <-. exact Hh. }
  destruct Bo as (B1 & B2 & B3 & _). apply aro_of_inv in Ac.
  assert (Cid : ro_client_id (s_request s) = Some (cl_client_id c)).
  { pose proof (acc_client _ _ _ Ac) as A. destruct (ro_client_id (s_request s)); unfold text_at, absent in *; fold c in B1; congruence. }
  assert (Sc : ro_scheme (s_request s) = Some (cl_prefix c)).
  { rewrite (acc_scheme _ _ _ Ac), Cid, Ci. apply prefix_of. clear - Kh. unfold known_hooks in Kh. cbn in Kh.
    repeat (destruct Kh as [Kh|Kh]; [injection Kh as <- _; reflexivity|]). destruct Kh. }
  assert (Hh : hook_of_prefix (ro_scheme (s_request s)) h) by (rewrite Sc; cbn; now left).
  assert (Ma : metadata_accepts (w_metadata w) (s_request s)).
  { split; [intros p Hp; rewrite Sc in Hp; injection Hp as <-; exact L|]. destruct An as (cm & mode & A1 & A2 & A3). exists cm, mode.
    split. { unfold client_metadata in *. rewrite B3 by discriminate. exact A1. }
    split. { unfold text_at in *. rewrite B3 by discriminate. exact A2. }
    tauto. }
  assert (Fc : final_check (mk_ar (Some (cl_client_id c)) ind) (s_request s) = Ok (s_request s)).
  { apply (final_same up); [exact Ac|]. intros o i O I. cbn in O. injection O as <-. eapply text_unique; eauto. }
  pose proof (request_run up ssi uok w dest) as Q. fold c in F, R. rewrite F in Q. rewrite Q, validate_trace. cbn zeta. rewrite R. cbn [fst snd].
  destruct (c19_one_hook_pf w (s_request s) (Some (s_jwt s)) h Hh) as (V1 & V2 & _). split.
  - rewrite (proj2 V1 (conj Ma Hk)). exact Fc.
  - rewrite hook_app, resolve_hooks. exact (V2 Ma).
Qed.

(** C86: the answer of the wallet to that request reaches the verifier as it is: it is posted to the response endpoint of
    the session, the verifier reads the same response from the body, its validator is called with that session and that
    response, and the status then polled is what the validator said. *)
Lemma c86_answered_pf
  : forall (url_parse : string -> option url) (uri_ok : string -> bool) (http : http_client)
      (wm : wallet_metadata) (b : request_builder) (u : uuid) (m m' m2 : store) (dest : url) (s s2 : session) (resp : auth_response)
      (validator : session -> auth_response -> outcome),
    build_with_session_id url_parse b u wm false m = (m', Ok dest) -> st_get u m' = Some s ->
    (* the store when the answer arrives still has the session *)
    st_get u m2 = Some s2 -> same_request s s2 ->
    (* the wallet answers in the mode asked for *)
    kind_matches (ro_mode (s_request s)) resp -> sendable resp ->
    (forall r, extended (v_submission (rb_verifier b)) (uuid_str u) r -> usable_url url_parse uri_ok r) ->
    exists r body m3,
      extended (v_submission (rb_verifier b)) (uuid_str u) r
      /\ fst (submit_response url_parse uri_ok http (s_request s) resp) = [EHttp (form_post (url_str r) body)]
      /\ from_form body = Ok resp
      /\ verify_response u resp validator m2 = (m3, [(s2, resp)], Ok tt)
      /\ poll_status u m3 = (m3, Ok (Complete (validator s2 resp)))
      /\ ((exists status, (200 <= status < 300)%N /\ http (form_post (url_str r) body) = Ok (mk_resp status "")) ->
          snd (submit_response url_parse uri_ok http (s_request s) resp) = Ok None).
Proof.
  intros up uok http wm b u m m' m2 dest s s2 resp val B G G2 Sr Km Sd Us.
  unfold build_with_session_id, build_code in B. destruct (rb_prepare up b u wm) as [[s1 d]|e] eqn:E; [|discriminate B].
  apply (f_equal fst) in B. unfold run_plain in B. cbn in B. subst m'. apply prepare_inv in E as (E1 & _ & E3 & E4 & _).
  rewrite E1 in G. rewrite st_get_insert, N.eqb_refl in G. injection G as <-.
  destruct E3 as (_ & _ & B3 & mode & Bm & Bx). apply aro_of_inv in E4. pose proof (acc_mode _ _ _ E4) as Am. pose proof (acc_return _ _ _ E4) as Ar.
  assert (Mode : text_at "response_mode" (aro_to_obj (s_request s1)) mode) by (unfold text_at; rewrite B3 by discriminate; exact Bm).
  destruct Bx as [[_ (r & Er & Ur)]|[Dc _]].
  2:{ exfalso. destruct Am as [[Am _]|(t & At & Em)]; [unfold text_at, absent in *; congruence|]. rewrite (text_unique _ _ _ _ At Mode) in Em.
      rewrite Em in Km. destruct Dc as [-> | ->]; destruct resp; cbn in Km; exact Km. }
  destruct (Us r Er) as (U1 & U2 & U3).
  assert (Re : ro_return (s_request s1) = r).
  { assert (exists t, text_at "response_uri" (aro_to_obj (s_request s1)) t /\ up t = Some (ro_return (s_request s1))) as (t & T & P).
    { destruct (ro_mode (s_request s1)), resp; cbn in Km; try contradiction; exact Ar. }
    rewrite (text_unique _ _ _ _ T Ur) in P. congruence. }
  destruct (c45_traffic_pf up uok http (s_request s1) resp) as [T _]. rewrite Re in T. destruct (T Km U3) as (body & Ft & Fb).
  pose proof (c40_verify_response_pf u resp val m2) as V. rewrite G2 in V. destruct V as (m3 & V & _ & s3 & G3 & _ & S3).
  exists r, body, m3. split; [exact Er|]. split; [exact Ft|]. split; [now apply Fb|]. split; [exact V|]. split.
  - rewrite c40_poll_pf, G3, S3. reflexivity.
  - intros (st & S & H). apply c46_no_redirect_pf. right. right. do 3 eexists. split; [exact Ft|]. split; [exact H|]. split; [exact S|]. split; [reflexivity|].
    left. exists []. split; [intros ? []|reflexivity].
Qed.
Definition flow (byref : bool) (c : res client) (hk : hook -> aro -> option string -> res unit) : res string :=
  let? c := c in
  match build_with_session_id simple_parse (toy_builder byref c) 7%N toy_wm false [] with
  | (m, Ok d) =>
      let? s := ok_or (st_get 7%N m) "no session" in
      let http := fun rq => if String.eqb (rq_method rq) "GET" then Ok (mk_resp 200 (match snd (retrieve 7%N m) with Ok j => j | Err _ => "" end)) else Ok (mk_resp 200 "") in
      let w := mk_wallet toy_wm http hk in
      let? a := snd (validate_request simple_parse any_header (fun _ => true) w d) in
      let resp := Unencoded (mk_unencoded [("pid", [VpString "x~"])] (Some "s1")) in
      let? _ := snd (submit_response simple_parse (fun _ => true) http a resp) in
      match fst (submit_response simple_parse (fun _ => true) http a resp) with
      | [EHttp rq] => match from_form (rq_body rq) with
                      | Ok r => match snd (poll_status 7%N (fst (fst (verify_response 7%N r (fun _ _ => OSuccess JNull) m)))) with
                                | Ok (Complete (OSuccess _)) => Ok (rq_uri rq) | _ => Err "status" end
                      | Err e => Err e end
      | _ => Err "traffic"
      end
  | (_, Err e) => Err e
  end.
Definition flow_hook (h : hook) (a : aro) (jwt : option string) : res unit :=
  match h, jwt with
  | HX509Hash, Some j => x509_hash_validate toy_cert (p256_from_spki Some) toy_verifies toy_wm a j (None : option (list nat))
  | HX509San, Some j => x509_san_validate toy_cert (p256_from_spki Some) toy_verifies toy_wm a j (None : option (list nat))
  | HDid, Some j => verify_with_resolver any_header toy_sig toy_resolver toy_wm a j None
  | _, _ => Err "not supported"
  end.
Example c86_validated_ex :
  flow true (x509_hash_client toy_der toy_chain (toy_signer "K")) flow_hook = Ok "https://v.example/submit/00000000-0000-0000-0000-000000000007"
  /\ flow false (x509_san_client toy_der toy_chain (toy_signer "K")) flow_hook = Ok "https://v.example/submit/00000000-0000-0000-0000-000000000007"
  /\ is_ok (flow false (x509_san_client toy_der toy_chain (toy_signer "X")) flow_hook) = false.
Proof. vm_compute. repeat split. Qed.
Example c86_answered_ex :
  flow false (did_client String.eqb toy_resolver ("did:web:v.example" +:+ "#" +:+ "1") (toy_signer "K")) flow_hook
  = Ok "https://v.example/submit/00000000-0000-0000-0000-000000000007".
Proof. vm_compute. reflexivity. Qed.

(** What is common to the three kinds of clients below. *)
Lemma built_request up b u wm m m' dest s : build_with_session_id up b u wm false m = (m', Ok dest) -> st_get u m' = Some s ->
  cl_jwt (v_client (rb_verifier b)) (s_request s) = Ok (s_jwt s) /\ ro_client_id (s_request s) = Some (cl_client_id (v_client (rb_verifier b))).
Proof.
  intros B G. unfold build_with_session_id, build_code in B. destruct (rb_prepare up b u wm) as [[s1 d]|e] eqn:E; [|discriminate B].
  apply (f_equal fst) in B. unfold run_plain in B. cbn in B. subst m'. apply prepare_inv in E as (E1 & _ & E3 & E4 & E5 & _).
  rewrite E1 in G. rewrite st_get_insert, N.eqb_refl in G. injection G as <-. split; [exact E5|]. destruct E3 as (B1 & _). apply aro_of_inv in E4.
  pose proof (acc_client _ _ _ E4) as A. destruct (ro_client_id (s_request s1)); unfold text_at, absent in *; congruence.
Qed.

(** C86: so a wallet that uses the library's own DID verification, with a resolver that knows the verifier's key,
    validates every request of a DID client whose algorithm and DID it accepts. *)
Lemma c86_did_pf
  : forall (key : Type) (url_parse : string -> option url) (ssi_header : obj -> option bool) (uri_ok : string -> bool)
      (sig_ok : key -> string -> string -> string -> bool) (key_eqb : key -> key -> bool) (resolver : string -> res key)
      (sg : signer key) (did fragment alg : string) (trusted : option (list string))
      (w : wallet) (b : request_builder) (u : uuid) (m m' : store) (dest : url) (s : session),
    build_with_session_id url_parse b u (w_metadata w) false m = (m', Ok dest) -> st_get u m' = Some s ->
    (* the verifier's client *)
    did_client key_eqb resolver (did +:+ "#" +:+ fragment) sg = Ok (v_client (rb_verifier b)) ->
    has_char "#" did = false -> has_char "#" fragment = false -> utf8_valid did = true -> utf8_valid fragment = true ->
    sg_alg sg = Ok alg -> utf8_valid alg = true ->
    (forall k k', key_eqb k k' = true -> k = k') ->
    (forall k x, sg_jwk sg = Ok k -> sig_ok k alg x (sg_sign sg x) = true) ->
    jwf (aro_to_json (s_request s)) = true -> jdepth (aro_to_json (s_request s)) <= 127 ->
    (* the wallet *)
    wallet_endpoint url_parse (w_metadata w) (wm_endpoint (w_metadata w)) -> answerable (w_metadata w) (rb_params b) ->
    (forall a jwt, w_hook w HDid a (Some jwt) = verify_with_resolver ssi_header sig_ok resolver (w_metadata w) a jwt trusted) ->
    alg_supported (w_metadata w) alg -> (forall l, trusted = Some l -> In did l) ->
    (forall h, did_header alg (did +:+ "#" +:+ fragment) = JObj h -> ssi_header h = Some true) ->
    (* the network, when the request is by reference *)
    (forall base r, v_byref (rb_verifier b) = Some base -> extended base (uuid_str u) r ->
       usable_url url_parse uri_ok r /\ request_served (w_http w) u m' r) ->
    snd (validate_request url_parse ssi_header uri_ok w dest) = Ok (s_request s).
Proof.
  intros key up ssi uok sok keq rs sg did fr alg tr w b u m m' dest s B G Hc N1 N2 Vd Vf Ha Va Kq Sg Jw Jd We An Hk Al Tr Hs Net.
  assert (Vm : utf8_valid (did +:+ "#" +:+ fr) = true) by (apply utf8_valid_cat; [exact Vd|]; apply utf8_valid_cat; [reflexivity|exact Vf]).
  destruct (built_request _ _ _ _ _ _ _ _ B G) as (Jt & Ci).
  destruct (c83_did_pf _ _ _ _ _ _ Hc) as (did' & fr' & Ev & N' & Id & Pr & _).
  eapply (proj1 (c86_validated_pf up ssi uok w b u m m' dest s HDid did' B G We An _ _ _ _ _ Jw Jd Net)).
  Unshelve.
  - rewrite Pr. now left.
  - rewrite Hk. eapply (c27_did_pf key ssi sok keq rs sg did fr alg (v_client (rb_verifier b)) (s_request s) (s_request s)); eauto.
  - destruct (c32_clients_pf key ssi keq rs (fun _ => Err "") sg alg (did +:+ "#" +:+ fr) [] (v_client (rb_verifier b)) Ha Va) as [X _]. exact (X Vm Hs Hc).
  - rewrite Id, Pr. reflexivity.
  - rewrite Id. apply utf8_valid_cat; [reflexivity|]. assert (did' = did) as ->; [|exact Vd].
    assert (R : rsplit_once "#" (did +:+ "#" +:+ fr) = Some (did, fr)) by (apply rsplit_once_some; auto).
    assert (R' : rsplit_once "#" (did +:+ "#" +:+ fr) = Some (did', fr')) by (apply rsplit_once_some; auto). rewrite R in R'. now injection R'.
Qed.
Example c86_did_ex :
  flow true (did_client String.eqb toy_resolver ("did:web:v.example" +:+ "#" +:+ "1") (toy_signer "K")) flow_hook
  = Ok "https://v.example/submit/00000000-0000-0000-0000-000000000007"
  /\ is_ok (flow true (did_client String.eqb toy_resolver ("did:web:v.example" +:+ "#" +:+ "1") (mk_signer (Ok "ES256") (Ok "K") (fun x => x))) flow_hook) = false.
Proof. vm_compute. split; reflexivity. Qed.

(** C86: and a wallet that uses the library's own X.509 verification validates every request of an X.509 client whose
    algorithm it accepts. *)
Lemma c86_x509_pf
  : forall (key vkey root : Type) (url_parse : string -> option url) (ssi_header : obj -> option bool) (uri_ok : string -> bool)
      (cert_of_der : string -> option cert) (to_der : cert -> res string)
      (from_spki : string -> string -> option vkey) (verifies : vkey -> string -> string -> bool)
      (sg : signer key) (leaf : cert) (rest : list cert) (alg : string) (v : vkey) (roots : option (list root))
      (w : wallet) (b : request_builder) (u : uuid) (m m' : store) (dest : url) (s : session),
    build_with_session_id url_parse b u (w_metadata w) false m = (m', Ok dest) -> st_get u m' = Some s ->
    (* the verifier's client *)
    x509_hash_client to_der (leaf :: rest) sg = Ok (v_client (rb_verifier b))
    \/ x509_san_client to_der (leaf :: rest) sg = Ok (v_client (rb_verifier b)) ->
    (forall d, certified leaf d -> utf8_valid d = true) ->
    sg_alg sg = Ok alg -> utf8_valid alg = true ->
    (forall x der, to_der x = Ok der -> cert_of_der der = Some x) ->
    from_spki (c_spki leaf) alg = Some v -> (forall x, verifies v x (sg_sign sg x) = true) ->
    jwf (aro_to_json (s_request s)) = true -> jdepth (aro_to_json (s_request s)) <= 127 ->
    (* the wallet *)
    wallet_endpoint url_parse (w_metadata w) (wm_endpoint (w_metadata w)) -> answerable (w_metadata w) (rb_params b) ->
    (forall a jwt, w_hook w HX509Hash a (Some jwt) = x509_hash_validate cert_of_der from_spki verifies (w_metadata w) a jwt roots) ->
    (forall a jwt, w_hook w HX509San a (Some jwt) = x509_san_validate cert_of_der from_spki verifies (w_metadata w) a jwt roots) ->
    alg_supported (w_metadata w) alg ->
    (forall certs h, x5c_header alg certs = JObj h -> ssi_header h = Some true) ->
    (* the network, when the request is by reference *)
    (forall base r, v_byref (rb_verifier b) = Some base -> extended base (uuid_str u) r ->
       usable_url url_parse uri_ok r /\ request_served (w_http w) u m' r) ->
    snd (validate_request url_parse ssi_header uri_ok w dest) = Ok (s_request s).
Proof.
  intros key vkey root up ssi uok cod td fs vf sg leaf rest alg v roots w b u m m' dest s B G Hc Vd Ha Va Cd Fs Vf Jw Jd We An Hh Hs Al Hx Net.
  destruct (built_request _ _ _ _ _ _ _ _ B G) as (Jt & Ci).
  assert (Rd : readable_client ssi (v_client (rb_verifier b))).
  { destruct (c32_clients_pf key ssi (fun _ _ => true) (fun _ => Err "") td sg alg "" (leaf :: rest) (v_client (rb_verifier b)) Ha Va) as [_ X]. exact (X Hx Hc). }
  destruct (c83_x509_pf _ td leaf rest sg (v_client (rb_verifier b))) as (Sn & Hn & _). destruct Hc as [Hc|Hc].
  - destruct (Hn Hc) as (Pr & der & _ & Id).
    eapply (proj1 (c86_validated_pf up ssi uok w b u m m' dest s HX509Hash (b64url_encode (sha256 der)) B G We An _ _ Rd _ _ Jw Jd Net)).
    Unshelve.
    + rewrite Pr. cbn. auto 10.
    + rewrite Hh. eapply (c27_x509_hash_pf key vkey root cod td fs vf sg leaf rest alg v (v_client (rb_verifier b)) (s_request s) (s_request s)); eauto.
    + rewrite Id, Pr. reflexivity.
    + rewrite Id. apply utf8_valid_cat; [reflexivity|]. unfold b64url_encode. apply b64_utf8.
  - destruct (Sn Hc) as (Pr & dns & more & Dn & Id).
    eapply (proj1 (c86_validated_pf up ssi uok w b u m m' dest s HX509San dns B G We An _ _ Rd _ _ Jw Jd Net)).
    Unshelve.
    + rewrite Pr. cbn. auto 10.
    + rewrite Hs. eapply (c27_x509_san_pf key vkey root cod td fs vf sg leaf rest alg v (v_client (rb_verifier b)) (s_request s) (s_request s)); eauto.
    + rewrite Id, Pr. reflexivity.
    + rewrite Id. apply utf8_valid_cat; [reflexivity|]. apply Vd, certified_iff. apply dns_cons in Dn. rewrite Dn. now left.
Qed.
Example c86_x509_ex :
  flow false (x509_hash_client toy_der toy_chain (toy_signer "K")) flow_hook = Ok "https://v.example/submit/00000000-0000-0000-0000-000000000007"
  /\ flow true (x509_san_client toy_der toy_chain (toy_signer "K")) flow_hook = Ok "https://v.example/submit/00000000-0000-0000-0000-000000000007".
Proof. vm_compute. split; reflexivity. Qed.
