From Coq Require Import Lia ZArith.
From Verif Require Import Base BaseFacts Utf8 Json JsonFacts JsonText Base64Facts Url UrlEncoded UrlEncodedFacts Object Formats Params Metadata Dcql Jwt Request Response Session
  X509 SpecCert CertFacts Client Builder Server ExVerifier.
From Verif Require Import Spec SpecObject SpecRequest SpecBuilder SpecSession SpecVerifierEx StoreFacts PfRequest PfBuilder PfText PfDid PfX509 PfClient PfServer PfExServer PfExInitiate PfInterop PfHttpFlow.

Lemma enc_char_length c : String.length (form_enc_char c) <= 3.
Proof.
  assert (A : forallb (fun c => Nat.leb (String.length (form_enc_char c)) 3) all_ascii = true) by (vm_compute; reflexivity).
  apply Nat.leb_le. exact (proj1 (forallb_forall _ _) A c (all_ascii_in c)).
Qed.
Lemma enc_length s : String.length (form_enc s) <= 3 * String.length s.
Proof.
  induction s as [|c s IH]; cbn [form_enc String.length]; [lia|]. rewrite slen_app. pose proof (enc_char_length c). lia.
Qed.
(** The URL of a request by reference. *)
Lemma byref_dest up b u wm cont m m' dest at_ ep : v_byref (rb_verifier b) = Some at_ -> wallet_endpoint up wm ep ->
  build_with_session_id up b u wm cont m = (m', Ok dest) ->
  exists r, extended at_ (uuid_str u) r
    /\ dest = set_query ep (form_serialize [("client_id", cl_client_id (v_client (rb_verifier b))); ("request_uri", url_str r)]).
Proof.
  intros B W H. destruct (c29_build_pf up b u wm cont m m' dest H) as (s & ind & ep' & _ & _ & U & _ & _ & _ & Cv & W' & T).
  assert (ep' = ep) as ->.
  { destruct W as (t & Ht & P), W' as (t' & Ht' & P'). unfold text_at in *. congruence. }
  unfold conveyed in Cv. rewrite B in Cv. destruct Cv as (r & X & -> & _). rewrite U in X. exists r. split; [exact X|].
  unfold to_url, to_pairs in T. cbn [ar_client_id ar_indirection rbind app] in T. congruence.
Qed.

(** C128: the authorization URL of a request passed by reference depends on nothing but the client identifier, the address requests are
    fetched from, the session id and the wallet's endpoint: it is the same whatever is asked for, with whatever nonce and parameters. *)
Lemma c128_url_pf :
  forall (url_parse : string -> option url) (b b' : request_builder) (u : uuid) (wm wm' : wallet_metadata)
    (contended contended' : bool) (m m1 m' m1' : store) (at_ endpoint dest dest' : url),
    v_byref (rb_verifier b) = Some at_ -> v_byref (rb_verifier b') = Some at_ ->
    cl_client_id (v_client (rb_verifier b)) = cl_client_id (v_client (rb_verifier b')) ->
    wallet_endpoint url_parse wm endpoint -> wallet_endpoint url_parse wm' endpoint ->
    build_with_session_id url_parse b u wm contended m = (m1, Ok dest) ->
    build_with_session_id url_parse b' u wm' contended' m' = (m1', Ok dest') ->
    dest = dest'.
Proof.
  intros up b b' u wm wm' c c' m m1 m' m1' at_ ep d d' B B' C W W' H H'.
  destruct (byref_dest _ _ _ _ _ _ _ _ _ _ B W H) as (r & X & ->). destruct (byref_dest _ _ _ _ _ _ _ _ _ _ B' W' H') as (r' & X' & ->).
  rewrite (extended_unique _ _ _ _ X X'), C. reflexivity.
Qed.

(** Two builders that differ in the nonce. *)
Definition asking (byref : bool) (nonce : string) : request_builder := rb_with_param p_nonce nonce (toy_builder byref toy_client).
Example c128_url_ex :
  v_byref (rb_verifier (asking true "a")) = v_byref (rb_verifier (asking true "b")) /\ v_byref (rb_verifier (asking true "a")) <> None
  /\ is_ok (snd (build_with_session_id simple_parse (asking true "a") 7%N toy_wm false [])) = true
  /\ is_ok (snd (build_with_session_id simple_parse (asking true "b") 7%N toy_wm false [])) = true
  /\ match fst (build_with_session_id simple_parse (asking true "a") 7%N toy_wm false []), fst (build_with_session_id simple_parse (asking true "b") 7%N toy_wm false []) with
     | [(_, s)], [(_, s')] => String.eqb (s_jwt s) (s_jwt s')
     | _, _ => true
     end = false.
Proof. split; [reflexivity|]. split; [discriminate|]. split; [vm_compute; reflexivity|]. split; vm_compute; reflexivity. Qed.

(** C128: and so its length is bounded by the lengths of these, whatever is asked for. *)
Lemma c128_length_pf :
  forall (url_parse : string -> option url) (b : request_builder) (u : uuid) (wm : wallet_metadata)
    (contended : bool) (m m' : store) (at_ endpoint dest : url),
    v_byref (rb_verifier b) = Some at_ -> wallet_endpoint url_parse wm endpoint ->
    build_with_session_id url_parse b u wm contended m = (m', Ok dest) ->
    String.length (url_str dest)
    <= String.length (url_str endpoint) + 3 * String.length (cl_client_id (v_client (rb_verifier b))) + 3 * String.length (url_str at_) + 135.
Proof.
  intros up b u wm c m m' at_ ep d B W H. destruct (byref_dest _ _ _ _ _ _ _ _ _ _ B W H) as (r & X & ->).
  apply extended_length in X. rewrite uuid_length in X. rewrite !url_length. unfold set_query. cbn [u_scheme u_auth u_path u_query u_frag].
  unfold form_serialize. cbn [map fst snd join]. cbn [String.length]. rewrite !slen_app. cbn [String.length]. rewrite ?slen_app. cbn [String.length].
  change (form_enc "client_id") with "client_id". change (form_enc "request_uri") with "request_uri".
  pose proof (enc_length (cl_client_id (v_client (rb_verifier b)))). pose proof (enc_length (url_str r)).
  cbn [String.length]. rewrite !url_length in X. rewrite (url_length r) in *. destruct (u_query ep); cbn [String.length]; lia.
Qed.

Example c128_length_ex :
  let dest := match snd (build_with_session_id simple_parse (asking true "a") 7%N toy_wm false []) with Ok d => url_str d | Err _ => "" end in
  (20 <= String.length dest <= 400).
Proof. cbn zeta. split; apply Nat.leb_le; vm_compute; reflexivity. Qed.

(** C128: passed by value, the URL conveys the whole request object: different objects never give the same URL. *)
Lemma c128_by_value_pf :
  forall (url_parse : string -> option url) (ssi_header : obj -> option bool) (b b' : request_builder) (u u' : uuid) (wm wm' : wallet_metadata)
    (contended contended' : bool) (m m1 m' m1' : store) (endpoint dest : url) (s s' : session),
    v_byref (rb_verifier b) = None -> v_byref (rb_verifier b') = None ->
    readable_client ssi_header (v_client (rb_verifier b)) -> readable_client ssi_header (v_client (rb_verifier b')) ->
    wallet_endpoint url_parse wm endpoint -> wallet_endpoint url_parse wm' endpoint ->
    build_with_session_id url_parse b u wm contended m = (m1, Ok dest) ->
    build_with_session_id url_parse b' u' wm' contended' m' = (m1', Ok dest) ->
    st_get u m1 = Some s -> st_get u' m1' = Some s' ->
    jwf (aro_to_json (s_request s)) = true -> jdepth (aro_to_json (s_request s)) <= 127 ->
    jwf (aro_to_json (s_request s')) = true -> jdepth (aro_to_json (s_request s')) <= 127 ->
    aro_to_obj (s_request s) = aro_to_obj (s_request s').
Proof.
  intros up ssi b b' u u' wm wm' c c' m m1 m' m1' ep d s s' B B' R R' W W' H H' G G' J1 J2 J1' J2'.
  destruct (c29_build_pf up b u wm c m m1 d H) as (s0 & ind & ep1 & G0 & _ & _ & _ & _ & Jw & Cv & W1 & T).
  destruct (c29_build_pf up b' u' wm' c' m' m1' d H') as (s0' & ind' & ep1' & G0' & _ & _ & _ & _ & Jw' & Cv' & W1' & T').
  assert (s0 = s) as -> by congruence. assert (s0' = s') as -> by congruence.
  assert (ep1 = ep) as ->.
  { destruct W as (t & Ht & P), W1 as (t' & Ht' & P'). unfold text_at in *. congruence. }
  assert (ep1' = ep) as ->.
  { destruct W' as (t & Ht & P), W1' as (t' & Ht' & P'). unfold text_at in *. congruence. }
  unfold conveyed in Cv, Cv'. rewrite B in Cv. rewrite B' in Cv'. destruct Cv as [-> _], Cv' as [-> _].
  assert (E : s_jwt s = s_jwt s').
  { unfold to_url, to_pairs in T, T'. cbn [ar_client_id ar_indirection rbind app] in T, T'.
    assert (Q : form_serialize [("client_id", cl_client_id (v_client (rb_verifier b))); ("request", s_jwt s)]
              = form_serialize [("client_id", cl_client_id (v_client (rb_verifier b'))); ("request", s_jwt s')]).
    { assert (Z : Some (form_serialize [("client_id", cl_client_id (v_client (rb_verifier b))); ("request", s_jwt s)]) = u_query d) by (injection T as <-; reflexivity).
      assert (Z' : Some (form_serialize [("client_id", cl_client_id (v_client (rb_verifier b'))); ("request", s_jwt s')]) = u_query d) by (injection T' as <-; reflexivity).
      congruence. }
    apply form_serialize_inj in Q; [|split; discriminate]. injection Q as _ Q. exact Q. }
  destruct (R _ _ J1 J2 Jw) as (_ & D & _). destruct (R' _ _ J1' J2' Jw') as (_ & D' & _). rewrite E in D. congruence.
Qed.

Example c128_by_value_ex :
  exists c, readable_client (fun _ => Some true) c
    /\ built_ok (build_with_session_id simple_parse (toy_builder false c) 7%N toy_wm false []) 7%N = true
    /\ built_ok (build_with_session_id simple_parse (rb_with_param p_nonce "b" (toy_builder false c)) 8%N toy_wm false []) 8%N = true.
Proof.
  assert (B : match x509_hash_client toy_der toy_chain (toy_signer "K") with
              | Ok c => built_ok (build_with_session_id simple_parse (toy_builder false c) 7%N toy_wm false []) 7%N
                        && built_ok (build_with_session_id simple_parse (rb_with_param p_nonce "b" (toy_builder false c)) 8%N toy_wm false []) 8%N
              | Err _ => false
              end = true) by (vm_compute; reflexivity).
  destruct (x509_hash_client toy_der toy_chain (toy_signer "K")) as [c|e] eqn:E; [|discriminate B]. exists c.
  apply andb_prop in B. destruct B as [B1 B2]. split; [|split; [exact B1|exact B2]].
  destruct (sg_alg (toy_signer "K")) as [alg|] eqn:Ea; [|discriminate Ea].
  refine (proj2 (c32_clients_pf _ (fun _ => Some true) String.eqb toy_resolver toy_der (toy_signer "K") alg "" toy_chain c Ea _) _ (or_introl E)).
  - injection Ea as <-. reflexivity.
  - reflexivity.
Qed.

(** C128: likewise, the answer of the example verifier to the one who asks for a presentation, URL included, does not depend on the nonce. *)
Lemma c128_initiate_pf :
  forall (key : Type) (url_parse : string -> option url) (to_der : cert -> res string) (c : cert) (s : signer key)
      (k : obj) (public : url) (encrypted : bool) (a : adapter) (nonce nonce' : option string) (fresh fresh' id : uuid)
      (validator validator' : session -> auth_response -> outcome) (m m1 m' m1' : store) calls calls' (j j' : json),
    app_new url_parse to_der c s k public encrypted = Ok a ->
    run false validator (initiate_request url_parse a nonce fresh id) m = (m1, calls, Ok (RJson 200 j)) ->
    run false validator' (initiate_request url_parse a nonce' fresh' id) m' = (m1', calls', Ok (RJson 200 j')) ->
    j = j'.
Proof.
  intros key up der c s k pub enc a n n' f f' id v v' m m1 m' m1' cs cs' j j' A H H'.
  destruct (c77_initiate_pf _ _ _ _ _ _ _ _ _ _ _ _ _ _ _ _ _ A H) as (dns & ns & se & rs & rq & w & ep & dest & D & _ & Rq & _ & _ & _ & _ & _ & _ & W & Ew & T & Mj).
  destruct (c77_initiate_pf _ _ _ _ _ _ _ _ _ _ _ _ _ _ _ _ _ A H') as (dns' & ns' & se' & rs' & rq' & w' & ep' & dest' & D' & _ & Rq' & _ & _ & _ & _ & _ & _ & W' & Ew' & T' & Mj').
  apply dns_names_iff in D, D'. rewrite <- D in D'. injection D' as -> _.
  rewrite W in W'. injection W' as <-. rewrite Ew in Ew'. injection Ew' as <-.
  rewrite (at_session_unique _ _ _ _ _ Rq Rq') in T. rewrite T in T'. injection T' as <-.
  destruct Mj as (o & -> & So & Go), Mj' as (o' & -> & So' & Go'). f_equal. apply ksorted_ext; [now apply keys_sorted_iff|now apply keys_sorted_iff|].
  intros x. destruct (obj_get x o) as [y|] eqn:E.
  - symmetry. apply Go'. now apply Go.
  - destruct (obj_get x o') as [y'|] eqn:E'; [|reflexivity]. apply Go', Go in E'. congruence.
Qed.

Example c128_initiate_ex :
  let answer nonce := match run false (fun _ _ => OError "") (initiate_request simple_parse (toy_adapter true) (Some nonce) 1%N 7%N) [] with
                      | (_, _, Ok (RJson 200 j)) => Some j
                      | _ => None
                      end in
  match answer "a" with Some _ => true | None => false end = true /\ match answer "b" with Some _ => true | None => false end = true.
Proof. cbn zeta. split; vm_compute; reflexivity. Qed.
