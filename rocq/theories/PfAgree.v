From Coq Require Import Lia.
From Verif Require Import Base BaseFacts Utf8 Json JsonFacts JsonText Base64 Base64Facts Sha256 Url Object Params Metadata Dcql Effects Jwt Request Verify Did X509
  SpecCert CertFacts Client Response Session Builder Wallet Jwe Server AnyStore.
From Verif Require Import SpecObject SpecRequest SpecVerify SpecResponse SpecWallet SpecJwe SpecBuilder SpecStore SpecAgree StoreFacts ParamFacts PfRequest PfResolve PfVerify PfDid PfX509
  PfClient PfWallet PfJwe PfBuilder PfServer PfAnyStore PfFlow.

Lemma same_after p x y : p +:+ x = p +:+ y -> x = y.
Proof. induction p as [|c p IH]; cbn; intros H; [exact H|]. injection H as H. auto. Qed.

(* ------------------------------------------------------------ what the verifier made *)
Lemma made_inv up S (st : session_store S) m0 y b s : any_reachable up S st m0 y -> made (an_log y) b s ->
  aro_of_obj up (aro_to_obj (s_request s)) = Ok (s_request s) /\ rb_dcql b = Some (s_dcql s)
  /\ cl_jwt (v_client (rb_verifier b)) (s_request s) = Ok (s_jwt s)
  /\ built_object b (s_dcql s) (s_uuid s) (aro_to_obj (s_request s)).
Proof.
  intros R (i & c & x & I & C). destruct (followed up S st m0 _ _ _ _ R I) as (es & rest & r & P & [J|[_ J]] & K); [|discriminate J].
  destruct C as [(wm & ->)| ->]; cbn [protocol] in P.
  - destruct P as [(t & P & _)|(s' & d & t & P & B & _)]; prefix; cbn in J; oneof J. injection J as -> _.
    unfold build_with_session_id, build_code in B. destruct (rb_prepare up b (s_uuid s) wm) as [[s1 d1]|e] eqn:E; [|discriminate B].
    apply (f_equal fst) in B. cbn in B. injection B as _ ->. apply prepare_inv in E as (E1 & E2 & E3 & E4 & E5 & _). auto.
  - destruct P as [(t & P & _)|(s' & t & P & B & _)]; prefix; cbn in J; oneof J. injection J as -> _.
    unfold build_dc_api, build_dc_code in B. destruct (rb_prepare_dc up b (s_uuid s)) as [s1|e] eqn:E; [|discriminate B].
    apply (f_equal fst) in B. cbn in B. injection B as _ ->.
    unfold rb_prepare_dc in E. apply rbind_ok in E as ([q ps] & E1 & E). apply rbind_ok in E as (a & E2 & E). apply rbind_ok in E as (j & E3 & E).
    destruct (built_accepted up b (s_uuid s) q ps a E1 E2) as (B1 & B2 & B3).
    destruct s as [u0 st0 j0 a0 q0]. cbn [s_uuid s_status s_jwt s_request s_dcql] in *. injection E as _ <- <- <-. rewrite B2 in *. auto.
Qed.
(** The verifier signed this header and this payload, or it did not. *)
Lemma signed_or_not l h64 p64 : (exists b s s64, made l b s /\ compact (s_jwt s) h64 p64 s64) \/ forall b s s64, made l b s -> ~ compact (s_jwt s) h64 p64 s64.
Proof.
  induction l as [|[i [c e]] l IH].
  - right. intros b s s64 (i & c & x & [] & _).
  - destruct IH as [(b & s & s64 & (j & c' & x & I & B) & C)|N].
    + left. exists b, s, s64. split; [|exact C]. exists j, c', x. split; [now right|exact B].
    + assert (D : (exists b s x s64, e = EvInitiate s x /\ builds_with c b (s_uuid s) /\ compact (s_jwt s) h64 p64 s64)
        \/ ~ exists b s x s64, e = EvInitiate s x /\ builds_with c b (s_uuid s) /\ compact (s_jwt s) h64 p64 s64).
      { destruct e as [s x| | | | |]; try (right; intros (? & ? & ? & ? & X & _); discriminate X).
        assert (C : (exists s64, compact (s_jwt s) h64 p64 s64) \/ ~ exists s64, compact (s_jwt s) h64 p64 s64).
        { destruct (split_jws (s_jwt s)) as [[[h p] g]|t] eqn:E.
          - apply split_iff in E. destruct (string_dec h h64) as [->|N1]; [destruct (string_dec p p64) as [->|N2]|]; [left; now exists g| |];
              right; intros (g' & C); destruct (compact_unique _ _ _ _ _ _ _ E C) as (H1 & H2 & _); contradiction.
          - right. intros (g & C). apply split_iff in C. congruence. }
        assert (B : (exists b, builds_with c b (s_uuid s)) \/ ~ exists b, builds_with c b (s_uuid s)).
        { destruct c as [b u wm|b u|u|u r|u|u]; try (right; intros (? & [(? & X)|X]); discriminate X); [|].
          - destruct (N.eq_dec u (s_uuid s)) as [->|Ne]; [left; exists b; left; now exists wm|right; intros (b' & [(wm' & X)|X]); [injection X as _ X _; contradiction|discriminate X]].
          - destruct (N.eq_dec u (s_uuid s)) as [->|Ne]; [left; exists b; now right|right; intros (b' & [(wm' & X)|X]); [discriminate X|injection X as _ X; contradiction]]. }
        destruct B as [(b & B)|B], C as [(g & C)|C]; [left; exists b, s, x, g; auto| | |]; right; intros (b' & s' & x' & g' & X & B' & C'); injection X as <- <-; first [apply B; now exists b'|apply C; now exists g']. }
      destruct D as [(b & s & x & s64 & -> & B & C)|D].
      * left. exists b, s, s64. split; [|exact C]. exists i, c, x. split; [now left|exact B].
      * right. intros b s s64 (j & c' & x & [I|I] & B) C.
        -- injection I as _ -> ->. apply D. exists b, s, x, s64. auto.
        -- apply (N b s s64); [exists j, c', x; auto|exact C].
Qed.
(** What is read from the same header and payload is the same. *)
Lemma same_payload up S (st : session_store S) m0 y ssi b s a h64 p64 s64 h enc pl : any_reachable up S st m0 y -> legible ssi (an_log y) ->
  made (an_log y) b s -> compact (s_jwt s) h64 p64 s64 ->
  header_text h64 h -> ssi h = Some enc -> payload_text enc p64 pl -> json_of_text pl = Some (JObj (aro_to_obj a)) -> aro_of_obj up (aro_to_obj a) = Ok a ->
  agreed (an_log y) b s a.
Proof.
  intros R L M C Hh He Hp Hj Ha. destruct (made_inv up S st m0 y b s R M) as (A1 & A2 & A3 & A4). destruct (L b s M) as (Rd & W & D).
  destruct (Rd _ _ W D A3) as (_ & Du & _). apply unverified_iff in Du as (h' & pl' & P & J). apply payload_iff in P as (h64' & p64' & s64' & enc' & sg' & C' & Hh' & _ & He' & Hp').
  destruct (compact_unique _ _ _ _ _ _ _ C C') as (<- & <- & <-). assert (h' = h) by (eapply header_unique; eassumption). subst h'.
  assert (enc' = enc) by congruence. subst enc'. assert (pl' = pl) by (unfold payload_text in *; destruct enc; congruence). subst pl'.
  assert (E : aro_to_obj a = aro_to_obj (s_request s)) by congruence. rewrite E in Ha. rewrite A1 in Ha. injection Ha as Ea.
  split; [exact M|]. split; [exact Ea|]. split; [exact A2|]. now rewrite <- Ea.
Qed.

(** A validated request is an accepted one, whose scheme is that of its client identifier. *)
Lemma validated_request up ssi uok w r a : snd (validate up ssi uok w r) = Ok a -> aro_of_obj up (aro_to_obj a) = Ok a.
Proof.
  intros V. apply c19_validate_pf in V as ([jwt|] & h & R & _).
  - apply resolved_payload in R as (h64 & p64 & s64 & hd & enc & pl & _ & _ & _ & _ & _ & A). now apply aro_of_inv.
  - destruct (ar_indirection r) as [v|u|o] eqn:E.
    + rewrite (resolve_value _ _ _ _ _ _ E) in R. cbn [snd] in R. apply rbind_ok in R as (? & _ & R). apply rbind_ok in R as (b & D & R). discriminate R.
    + rewrite (resolve_reference _ _ _ _ _ _ E) in R. destruct (uok (url_str u)); [|discriminate R]. cbn [snd] in R.
      do 5 (apply rbind_ok in R as (? & _ & R)). discriminate R.
    + rewrite (resolve_direct _ _ _ _ _ _ E) in R. cbn [snd] in R. apply rbind_ok in R as (b & D & R). injection R as ->.
      pose proof D as D'. apply aro_of_inv in D'. pose proof (acc_inner _ _ _ D') as I. unfold aro_to_obj. rewrite I. exact D.
Qed.
Lemma validated_scheme up ssi uok w r a prefix rest : snd (validate up ssi uok w r) = Ok a -> has_char ":" prefix = false ->
  text_at "client_id" (aro_to_obj a) (prefix +:+ ":" +:+ rest) -> ro_scheme a = Some prefix.
Proof.
  intros V N T. apply validated_request in V. apply aro_of_inv in V. pose proof (acc_client _ _ _ V) as C. rewrite (acc_scheme _ _ _ V).
  destruct (ro_client_id a) as [c|]; [|unfold absent, text_at in *; congruence]. assert (c = prefix +:+ ":" +:+ rest) as -> by (unfold text_at in *; congruence).
  now apply prefix_of.
Qed.

(* --------------------------------------------------------------------- C117 *)
(** C117: whatever the network and anyone else do, and whatever the store of the verifier does: a request that a wallet
    validates for the x509_hash client identifier of a certificate is the request object of a session that the verifier
    made, unless the JWT the wallet was given has a forged signature under the key of that certificate, or brings another
    certificate with the same SHA-256 hash. *)
Lemma c117_x509_hash_pf :
  forall (url_parse : string -> option url) (S : Type) (st : session_store S) (m0 : S) (y : any_sys S)
    (ssi_header : obj -> option bool) (uri_ok : string -> bool)
    (cert_of_der : string -> option cert) (vkey root : Type) (from_spki : string -> string -> option vkey)
    (verifies : vkey -> string -> string -> bool) (roots : option (list root)) (w : wallet) (r : auth_request) (a : aro) (der : string) (c : cert),
    (* the verifier *)
    any_reachable url_parse S st m0 y -> legible ssi_header (an_log y) -> cert_of_der der = Some c ->
    (* the wallet *)
    (forall a jwt, w_hook w HX509Hash a jwt = Ok tt -> exists j, jwt = Some j
       /\ x509_hash_validate cert_of_der from_spki verifies (w_metadata w) a j roots = Ok tt) ->
    snd (validate url_parse ssi_header uri_ok w r) = Ok a ->
    text_at "client_id" (aro_to_obj a) ("x509_hash:" +:+ b64url_encode (sha256 der)) ->
    (exists b s, agreed (an_log y) b s a)
    \/ exists jwt, snd (resolve_request url_parse ssi_header uri_ok (w_http w) r) = Ok (a, Some jwt)
       /\ ((exists alg v, alg_supported (w_metadata w) alg /\ from_spki (c_spki c) alg = Some v /\ forged (an_log y) (verifies v) jwt)
           \/ exists h der', protected_header jwt h /\ first_certificate h der' /\ der' <> der /\ sha256 der' = sha256 der).
Proof.
  intros up S st m0 y ssi uok cod vkey root fs vf roots w r a der c R L Hc Hw V T.
  pose proof (validated_scheme _ _ _ _ _ _ "x509_hash" _ V eq_refl T) as Sc.
  destruct (c70_x509_hash_pf up ssi uok cod vkey root fs vf roots w r a Hw V Sc)
    as (jwt & h64 & p64 & s64 & h & enc & pl & alg & der' & c' & v & sg & Rs & C & Hh & He & Hp & Hj & T' & Fc & Hc' & _ & Al & Fs & Sg & Vf).
  destruct (string_dec der' der) as [->|Ne].
  - rewrite Hc in Hc'. injection Hc' as <-. destruct (signed_or_not (an_log y) h64 p64) as [(b & s & g & M & Cs)|N].
    + left. exists b, s. eapply same_payload; try eassumption. exact (validated_request _ _ _ _ _ _ V).
    + right. exists jwt. split; [exact Rs|]. left. exists alg, v. split; [exact Al|]. split; [exact Fs|]. exists h64, p64, s64, sg. auto.
  - right. exists jwt. split; [exact Rs|]. right. exists h, der'. split; [eapply headers_of; [apply split_iff; exact C|apply headers_iff; exact Hh]|]. split; [exact Fc|]. split; [exact Ne|].
    assert (E : "x509_hash:" +:+ b64url_encode (sha256 der') = "x509_hash:" +:+ b64url_encode (sha256 der)) by (unfold text_at in *; congruence).
    apply same_after in E. now apply b64_encode_inj in E.
Qed.
(** One request is built. *)
Lemma one_build b u wm s d : rb_prepare simple_parse b u wm = Ok (s, d) ->
  any_reachable simple_parse _ journal [] (mk_any [(u, Some s)] 1 [(0, (CBuild b u wm, Done (Ok (AUrl d))))] [(0, (CBuild b u wm, EvInitiate s (Ok tt)))]).
Proof.
  intros E. assert (U : s_uuid s = u) by (apply prepare_inv in E; apply E).
  assert (Code : code simple_parse (CBuild b u wm) = Initiate s (fun x => Done (rmap AUrl (rmap (fun _ => d) x)))) by (unfold code, build_code; rewrite E; reflexivity).
  eapply any_next; [eapply any_next; [apply any_init|apply (any_start _ _ _ [] 0 [] [] (CBuild b u wm))]|]. rewrite Code.
  apply (any_act _ _ _ _ [(u, Some s)] 1 [] 0 (CBuild b u wm) _ (Done (Ok (AUrl d))) [] [] (EvInitiate s (Ok tt))).
  apply (on_initiate journal [] [(u, Some s)] s (fun x => Done (rmap AUrl (rmap (fun _ => d) x))) (Ok tt)). left. cbn. rewrite U. split; [lia|auto].
Qed.
Definition toy_wallet : wallet := mk_wallet toy_wm (fun _ => Err "no network") flow_hook.
Definition has_id (o : obj) (id : string) : bool := match obj_get "client_id" o with Some (JStr x) => String.eqb x id | _ => false end.
Definition meeting (c : res client) (id : string) : res (client * (session * url) * aro) :=
  let? c := c in
  let? sd := rb_prepare simple_parse (toy_builder false c) 7%N toy_wm in
  let j := aro_to_json (s_request (fst sd)) in
  let? _ := of_bool (jwf j && Nat.leb (jdepth j) 127) "form" in
  let? a := snd (validate simple_parse any_header (fun _ => true) toy_wallet (mk_ar None (ByValue (s_jwt (fst sd))))) in
  let? _ := of_bool (has_id (aro_to_obj a) id) "client" in
  Ok (c, sd, a).
Lemma meeting_ok rc id : is_ok (meeting rc id) = true -> (forall c, rc = Ok c -> readable_client any_header c) ->
  exists y b s a, any_reachable simple_parse _ journal [] y /\ legible any_header (an_log y) /\ made (an_log y) b s
    /\ snd (validate simple_parse any_header (fun _ => true) toy_wallet (mk_ar None (ByValue (s_jwt s)))) = Ok a /\ text_at "client_id" (aro_to_obj a) id.
Proof.
  intros H Rd. destruct (meeting rc id) as [x|e] eqn:E; [clear H|discriminate H]. unfold meeting in E.
  apply rbind_ok in E as (c & Ec & E). apply rbind_ok in E as ([s d] & Ep & E). apply rbind_ok in E as (t & Ef & E). apply of_bool_ok in Ef. apply andb_prop in Ef as [W D].
  apply Nat.leb_le in D. apply rbind_ok in E as (a & Ea & E). apply rbind_ok in E as (t' & Ei & _). apply of_bool_ok in Ei. cbn [fst] in *.
  pose proof (one_build _ _ _ _ _ Ep) as R. assert (U : s_uuid s = 7%N) by (apply prepare_inv in Ep; apply Ep).
  eexists. exists (toy_builder false c), s, a. split; [exact R|]. split; [|split; [|split; [exact Ea|]]].
  - intros b s' (i & c' & z & [I|[]] & B). injection I as _ <- <- _. destruct B as [(wm & B)|B]; [injection B as <- _|discriminate B]. split; [now apply Rd|auto].
  - exists 0, (CBuild (toy_builder false c) 7%N toy_wm), (Ok tt). split; [now left|]. rewrite U. left. now exists toy_wm.
  - unfold has_id in Ei. unfold text_at. destruct (obj_get "client_id" (aro_to_obj a)) as [[]|]; try discriminate Ei. apply String.eqb_eq in Ei. now subst.
Qed.
Lemma x509_readable c : x509_hash_client toy_der toy_chain (toy_signer "K") = Ok c \/ x509_san_client toy_der toy_chain (toy_signer "K") = Ok c -> readable_client any_header c.
Proof.
  intros H. destruct (c32_clients_pf string any_header (fun _ _ => true) (fun _ => Err "") toy_der (toy_signer "K") "ES256" "" toy_chain c eq_refl eq_refl) as [_ X].
  apply X; [reflexivity|exact H].
Qed.
Lemma did_readable c : did_client String.eqb toy_resolver "did:web:v.example#1" (toy_signer "K") = Ok c -> readable_client any_header c.
Proof.
  intros H. destruct (c32_clients_pf string any_header String.eqb toy_resolver toy_der (toy_signer "K") "ES256" "did:web:v.example#1" toy_chain c eq_refl eq_refl) as [X _].
  apply X; [reflexivity|reflexivity|exact H].
Qed.
Example c117_x509_hash_ex : exists y b s a, any_reachable simple_parse _ journal [] y /\ legible any_header (an_log y) /\ made (an_log y) b s
  /\ option_map c_spki (toy_cert "K|v.example") = Some "K"
  /\ (forall a jwt, w_hook toy_wallet HX509Hash a jwt = Ok tt -> exists j, jwt = Some j
       /\ x509_hash_validate toy_cert (p256_from_spki Some) toy_verifies (w_metadata toy_wallet) a j (None : option (list nat)) = Ok tt)
  /\ snd (validate simple_parse any_header (fun _ => true) toy_wallet (mk_ar None (ByValue (s_jwt s)))) = Ok a
  /\ text_at "client_id" (aro_to_obj a) ("x509_hash:" +:+ b64url_encode (sha256 "K|v.example")).
Proof.
  destruct (meeting_ok (x509_hash_client toy_der toy_chain (toy_signer "K")) ("x509_hash:" +:+ b64url_encode (sha256 "K|v.example")))
    as (y & b & s & a & R & L & M & V & T).
  - vm_compute. reflexivity.
  - intros c E. apply x509_readable. now left.
  - exists y, b, s, a. split; [exact R|]. split; [exact L|]. split; [exact M|]. split; [reflexivity|]. split; [|auto].
    intros a' [j|] H; [|discriminate H]. exists j. split; [reflexivity|exact H].
Qed.

(** C117: the same for a DID client and a wallet that lists no algorithm containing "none": the request object is one that
    the verifier made, unless the JWT has a forged signature under a key of the DID. *)
Lemma c117_did_pf :
  forall (url_parse : string -> option url) (S : Type) (st : session_store S) (m0 : S) (y : any_sys S)
    (ssi_header : obj -> option bool) (uri_ok : string -> bool)
    (key : Type) (sig_ok : key -> string -> string -> string -> bool) (resolver : string -> res key)
    (trusted : option (list string)) (w : wallet) (r : auth_request) (a : aro) (did : string),
    any_reachable url_parse S st m0 y -> legible ssi_header (an_log y) ->
    (forall a jwt, w_hook w HDid a jwt = Ok tt -> exists j, jwt = Some j
       /\ verify_with_resolver ssi_header sig_ok resolver (w_metadata w) a j trusted = Ok tt) ->
    (forall alg, alg_supported (w_metadata w) alg -> ~ contains "none" alg) ->
    snd (validate url_parse ssi_header uri_ok w r) = Ok a ->
    text_at "client_id" (aro_to_obj a) ("decentralized_identifier:" +:+ did) ->
    (exists b s, agreed (an_log y) b s a)
    \/ exists jwt fragment alg k, snd (resolve_request url_parse ssi_header uri_ok (w_http w) r) = Ok (a, Some jwt)
       /\ alg_supported (w_metadata w) alg /\ resolver (did +:+ "#" +:+ fragment) = Ok k /\ forged (an_log y) (sig_ok k alg) jwt.
Proof.
  intros up S st m0 y ssi uok key sok rs tr w r a did R L Hw Hn V T.
  pose proof (validated_scheme _ _ _ _ _ _ "decentralized_identifier" _ V eq_refl T) as Sc.
  destruct (c70_did_pf up ssi uok key sok rs tr w r a Hw Hn V Sc)
    as (jwt & h64 & p64 & s64 & h & enc & pl & alg & did' & fragment & k & sg & Rs & C & Hh & He & Hp & Hj & T' & _ & _ & _ & Al & Rk & Sg & Vf).
  assert (E : "decentralized_identifier:" +:+ did' = "decentralized_identifier:" +:+ did) by (unfold text_at in *; congruence). apply same_after in E. subst did'.
  destruct (signed_or_not (an_log y) h64 p64) as [(b & s & g & M & Cs)|N].
  - left. exists b, s. eapply same_payload; try eassumption. exact (validated_request _ _ _ _ _ _ V).
  - right. exists jwt, fragment, alg, k. split; [exact Rs|]. split; [exact Al|]. split; [exact Rk|]. exists h64, p64, s64, sg. auto.
Qed.
Example c117_did_ex : exists y b s a, any_reachable simple_parse _ journal [] y /\ legible any_header (an_log y) /\ made (an_log y) b s
  /\ (forall a jwt, w_hook toy_wallet HDid a jwt = Ok tt -> exists j, jwt = Some j
       /\ verify_with_resolver any_header toy_sig toy_resolver (w_metadata toy_wallet) a j None = Ok tt)
  /\ (forall alg, alg_supported (w_metadata toy_wallet) alg -> ~ contains "none" alg)
  /\ snd (validate simple_parse any_header (fun _ => true) toy_wallet (mk_ar None (ByValue (s_jwt s)))) = Ok a
  /\ text_at "client_id" (aro_to_obj a) ("decentralized_identifier:" +:+ "did:web:v.example").
Proof.
  destruct (meeting_ok (did_client String.eqb toy_resolver "did:web:v.example#1" (toy_signer "K")) ("decentralized_identifier:" +:+ "did:web:v.example"))
    as (y & b & s & a & R & L & M & V & T).
  - vm_compute. reflexivity.
  - exact did_readable.
  - exists y, b, s, a. split; [exact R|]. split; [exact L|]. split; [exact M|]. split; [|split; [|auto]].
    + intros a' [j|] H; [|discriminate H]. exists j. split; [reflexivity|exact H].
    + intros alg (algs & G & I). cbn in G. destruct algs as [|x [|z algs]]; try discriminate G. injection G as <-. destruct I as [<-|[]].
      intros H. apply sub_iff in H. discriminate H.
Qed.

(** C117: a wallet that has agreed on a request sends its answer, if at all, to the verifier's response endpoint of that very
    session. *)
Lemma c117_answer_pf :
  forall (url_parse : string -> option url) (uri_ok : string -> bool) (http : http_client)
    (l : list (nat * (call * event))) (b : request_builder) (s : session) (a : aro) (response : auth_response) (e : wevent),
    agreed l b s a -> aro_of_obj url_parse (aro_to_obj a) = Ok a ->
    In e (fst (submit_response url_parse uri_ok http a response)) ->
    exists r u body, extended (v_submission (rb_verifier b)) (uuid_str (s_uuid s)) r /\ url_parse (url_str r) = Some u
      /\ e = EHttp (form_post (url_str u) body).
Proof.
  intros up uok http l b s a resp e (_ & _ & _ & B) A I.
  destruct (c45_response_uri_pf up uok http _ a resp e A I) as (t & u & body & T & U & E).
  destruct B as (_ & _ & _ & mode & _ & [(_ & r & X & T')|(_ & Ab)]).
  - exists r, u, body. assert (t = url_str r) as -> by (unfold text_at in *; congruence). auto.
  - unfold absent, text_at in *. congruence.
Qed.
Example c117_answer_ex : option_map (fun x => match x with Ok (_, sd, a) => (map (fun e => match e with EHttp q => rq_uri q | _ => "" end)
    (fst (submit_response simple_parse (fun _ => true) (fun _ => Err "") a (Unencoded (mk_unencoded [] None)))), s_uuid (fst sd)) | Err _ => ([], 0%N) end)
    (Some (meeting (x509_hash_client toy_der toy_chain (toy_signer "K")) ("x509_hash:" +:+ b64url_encode (sha256 "K|v.example"))))
  = Some (["https://v.example/submit/00000000-0000-0000-0000-000000000007"], 7%N).
Proof. vm_compute. reflexivity. Qed.

(** C117: and when it encrypts its answer, it does so to the first usable key of the client metadata that the verifier's
    builder was given. *)
Lemma c117_secret_pf :
  forall (jwk_ok : obj -> bool) (jwe_encrypt : obj -> obj -> obj -> res string)
    (l : list (nat * (call * event))) (b : request_builder) (s : session) (a : aro) (vp : vp_token) (state : option string) (response : auth_response),
    agreed l b s a -> parsed_key (aro_to_obj a) -> NoDup (map fst vp) ->
    build_encrypted_response jwk_ok jwe_encrypt a vp state = Ok response ->
    exists cm keys key header claims jwe, client_metadata (rb_params b) cm /\ client_keys cm keys /\ first_key keys key
      /\ claims_of claims vp state /\ jwe_encrypt header claims key = Ok jwe /\ response = Jwt jwe.
Proof.
  intros jo je l b s a vp st resp (_ & _ & _ & B) P N H.
  apply (c49_contents_pf jo je a vp st resp P N) in H as (cm & keys & key & kid & encs & header & claims & jwe & -> & Cm & Ck & Fk & _ & _ & _ & _ & Cl & J).
  exists cm, keys, key, header, claims, jwe. split; [|auto]. unfold client_metadata in *. destruct B as (_ & _ & B & _). rewrite <- (B "client_metadata"); [exact Cm|discriminate..].
Qed.
Definition secret_key (kid : string) : obj := [("alg", JStr "ECDH-ES"); ("crv", JStr "P-256"); ("kid", JStr kid); ("kty", JStr "EC")].
Definition secret_builder (c : client) : request_builder :=
  mk_rb (Some toy_query) (obj_insert "client_metadata" (JObj [("jwks", JObj [("keys", JArr [JObj (secret_key "k1"); JObj (secret_key "k2")])])])
                           (obj_insert "response_mode" (JStr "direct_post.jwt") toy_params)) (rb_verifier (toy_builder false c)).
Example c117_secret_ex : option_map (fun x => match x with
    | Ok (s, _) => let o := JObj (aro_to_obj (s_request s)) in (jwf o && Nat.leb (jdepth o) 127,
        build_encrypted_response (fun _ => true) (fun h c k => Ok (jprint (JArr [JObj c; JObj k]))) (s_request s) [("pid", [VpString "x"])] None)
    | Err e => (false, Err e) end)
    (Some (rb_prepare simple_parse (secret_builder toy_client) 7%N toy_wm))
  = Some (true, Ok (Jwt "[{""vp_token"":{""pid"":[""x""]}},{""alg"":""ECDH-ES"",""crv"":""P-256"",""kid"":""k1"",""kty"":""EC""}]")).
Proof. vm_compute. reflexivity. Qed.

(** C117: for x509_san_dns clients there is no such guarantee: whoever issues themselves a certificate with the verifier's
    DNS name is taken for the verifier, although nothing was ever signed with the verifier's key and the wallet gave the
    library trusted roots. *)
Lemma c117_san_refuted_pf :
  exists (verifies : string -> string -> string -> bool) (roots : list string) (w : wallet) (r : auth_request) (der dns : string) (c : cert) (v : string),
    toy_cert der = Some c /\ certified c dns /\ p256_from_spki Some (c_spki c) "ES256" = Some v
    /\ (forall x sg, verifies v x sg = false)
    /\ (forall a jwt, w_hook w HX509San a jwt = Ok tt -> exists j, jwt = Some j
         /\ x509_san_validate toy_cert (p256_from_spki Some) verifies (w_metadata w) a j (Some roots) = Ok tt)
    /\ roots = [der]
    /\ exists a, snd (validate simple_parse any_header (fun _ => true) w r) = Ok a /\ text_at "client_id" (aro_to_obj a) ("x509_san_dns:" +:+ dns).
Proof.
  set (vf := fun k m sg => negb (String.eqb k "K") && toy_verifies k m sg).
  set (hk := fun (h : hook) (a : aro) (jwt : option string) => match h, jwt with
    | HX509San, Some j => x509_san_validate toy_cert (p256_from_spki Some) vf toy_wm a j (Some ["K|v.example"]) | _, _ => Err "not supported" end).
  set (w := mk_wallet toy_wm (fun _ => Err "no network") hk).
  set (go := let? c := x509_san_client toy_der [named ["v.example"; "v.example"] "X"] (toy_signer "X") in
    let? sd := rb_prepare simple_parse (toy_builder false c) 7%N toy_wm in
    let? a := snd (validate simple_parse any_header (fun _ => true) w (mk_ar None (ByValue (s_jwt (fst sd))))) in
    let? _ := of_bool (has_id (aro_to_obj a) "x509_san_dns:v.example") "client" in Ok (s_jwt (fst sd))).
  assert (G : is_ok go = true) by (vm_compute; reflexivity).
  destruct go as [jwt|e] eqn:E; [clear G|discriminate G]. unfold go in E.
  apply rbind_ok in E as (c & Ec & E). apply rbind_ok in E as ([s d] & Ep & E). apply rbind_ok in E as (a & Ea & E). apply rbind_ok in E as (t' & Ei & _). apply of_bool_ok in Ei. cbn [fst] in *.
  exists vf, ["K|v.example"], w, (mk_ar None (ByValue (s_jwt s))), "K|v.example", "v.example", (named ["other.example"; "v.example"] "K"), "K".
  split; [reflexivity|]. split; [apply certified_iff; cbn; auto|]. split; [reflexivity|]. split; [reflexivity|]. split.
  { intros a' [j|] H; [|discriminate H]. exists j. split; [reflexivity|exact H]. }
  split; [reflexivity|]. exists a. split; [exact Ea|].
  unfold has_id in Ei. unfold text_at. destruct (obj_get "client_id" (aro_to_obj a)) as [[]|]; try discriminate Ei. apply String.eqb_eq in Ei. now subst.
Qed.
