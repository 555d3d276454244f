(** Proofs: what the example wallet says about itself. *)
From Verif Require Import Base Utf8 Json JsonText Serde Url Object Formats Params Metadata Request Response Session Client Builder Jwe
  ExMatcher ExWallet ExMetadata SpecObject SpecRequest SpecJwe SpecBuilder SpecExample SpecVerifierEx
  JsonFacts BaseFacts PfText PfBuilder PfJwe PfExample PfExServer.

Definition es256 : json := JArr [JStr "ES256"].
Lemma served_is (url_parse : string -> option url) (endpoint : url) :
  served_metadata url_parse endpoint
  = JObj [("authorization_encryption_alg_values_supported", JArr [JStr "ECDH-ES"]);
          ("authorization_encryption_enc_values_supported", JArr [JStr "A256GCM"]);
          ("authorization_endpoint", JStr (url_str endpoint));
          ("client_id_prefixes_supported", JArr [JStr "redirect_uri"]);
          ("response_modes_supported", JArr [JStr "direct_post"; JStr "direct_post.jwt"]);
          ("response_types_supported", JArr [JStr "vp_token"]);
          ("vp_formats_supported", JObj [("dc+sd-jwt", JObj [("alg_values_supported", es256); ("kb-jwt_alg_values_supported", es256)])])].
Proof. reflexivity. Qed.

(** C92: the example wallet serves exactly these metadata, whatever its endpoint. *)
Lemma c92_served_pf
  : forall (url_parse : string -> option url) (endpoint : url),
    members_are (served_metadata url_parse endpoint)
      [("authorization_endpoint", JStr (url_str endpoint));
       ("vp_formats_supported",
          JObj [("dc+sd-jwt", JObj [("alg_values_supported", JArr [JStr "ES256"]); ("kb-jwt_alg_values_supported", JArr [JStr "ES256"])])]);
       ("response_types_supported", JArr [JStr "vp_token"]);
       ("response_modes_supported", JArr [JStr "direct_post"; JStr "direct_post.jwt"]);
       ("client_id_prefixes_supported", JArr [JStr "redirect_uri"]);
       ("authorization_encryption_alg_values_supported", JArr [JStr "ECDH-ES"]);
       ("authorization_encryption_enc_values_supported", JArr [JStr "A256GCM"])].
Proof.
  intros. rewrite served_is. apply members_of; [reflexivity|]. intros kv. cbn [In]. unfold es256. intuition.
Qed.

(** C92: a verifier that reads the text of these metadata gets wallet metadata with the wallet's endpoint, a wallet that
    knows SD-JWT credentials, that takes redirect_uri clients only and that encrypts with ECDH-ES and A256GCM only. *)
Lemma c92_read_pf
  : forall (url_parse : string -> option url) (endpoint : url),
    utf8_valid (url_str endpoint) = true -> url_parse (url_str endpoint) = Some endpoint ->
    exists j w,
      json_of_text (jprint (served_metadata url_parse endpoint)) = Some j /\ wm_of_json url_parse j = Ok w
      /\ wm_endpoint w = endpoint
      /\ (forall d, is_claim_format_supported (wm_formats w) d = true <-> d = DcSdJwt)
      /\ supported "client_id_prefixes_supported" ["pre-registered"] w = Ok ["redirect_uri"]
      /\ supported "authorization_encryption_alg_values_supported" [] w = Ok ["ECDH-ES"]
      /\ supported "authorization_encryption_enc_values_supported" [] w = Ok ["A256GCM"].
Proof.
  intros up ep U P. rewrite served_is.
  match goal with |- context [jprint ?o] => set (o0 := o) end.
  assert (W : jwf o0 = true).
  { subst o0. unfold jwf. apply andb_true_intro. split; [|reflexivity]. cbn -[utf8_valid url_str]. rewrite U. vm_compute. reflexivity. }
  exists o0.
  exists (mk_wm (match o0 with JObj m => m | _ => [] end) ep
            [(DcSdJwt, OtherPayload (JObj [("alg_values_supported", es256); ("kb-jwt_alg_values_supported", es256)]))]).
  split; [apply (proj1 (c66_roundtrip_pf o0 W)); subst o0; cbn; repeat constructor|].
  split; [|split; [reflexivity|split; [|repeat split; reflexivity]]].
  - unfold wm_of_json, wm_of_obj. subst o0. unfold de_obj, as_obj, ok_or, rbind at 1.
    assert (G : uo_get (p_authorization_endpoint up)
                  [("authorization_encryption_alg_values_supported", JArr [JStr "ECDH-ES"]);
          ("authorization_encryption_enc_values_supported", JArr [JStr "A256GCM"]);
          ("authorization_endpoint", JStr (url_str ep));
          ("client_id_prefixes_supported", JArr [JStr "redirect_uri"]);
          ("response_modes_supported", JArr [JStr "direct_post"; JStr "direct_post.jwt"]);
          ("response_types_supported", JArr [JStr "vp_token"]);
          ("vp_formats_supported", JObj [("dc+sd-jwt", JObj [("alg_values_supported", es256); ("kb-jwt_alg_values_supported", es256)])])] = Some (Ok ep)).
    { unfold uo_get, p_authorization_endpoint, p_url. cbn [tp_key tp_of]. cbn [obj_get]. cbv beta iota delta [String.eqb Ascii.eqb Bool.eqb].
      unfold de_url, de_str, as_str, ok_or, rbind. rewrite P. reflexivity. }
    rewrite G. reflexivity.
  - intros d. unfold is_claim_format_supported. cbn [wm_formats fm_get].
    destruct d; cbn [designation_eqb]; split; intros; try reflexivity; discriminate.
Qed.
Example c92_read_ex :
  exists w, wm_of_json simple_parse (served_metadata simple_parse ex_endpoint) = Ok w
  /\ url_str (wm_endpoint w) = "https://wallet.example/authorize".
Proof. eexists. split; [vm_compute; reflexivity|vm_compute; reflexivity]. Qed.

(** C92: so a verifier that goes by them builds requests for redirect_uri clients only. *)
Lemma c92_clients_pf
  : forall (url_parse : string -> option url) (endpoint : url) (w : wallet_metadata) (b : request_builder) (u : uuid) (m m' : store) (x : uuid * url),
    wm_of_json url_parse (served_metadata url_parse endpoint) = Ok w ->
    build url_parse b u w false m = (m', Ok x) ->
    cl_prefix (v_client (rb_verifier b)) = "redirect_uri".
Proof.
  intros up ep w b u m m' dest W B.
  assert (O : JObj (wm_obj w) = served_metadata up ep).
  { rewrite served_is in *. unfold wm_of_json, wm_of_obj, de_obj, as_obj, ok_or in W. cbn [rbind] in W.
    destruct (parsing_error _) as [e|]; [|discriminate]. cbn [rbind] in W.
    destruct (parsing_error _) as [f|]; [|discriminate]. cbn [rbind] in W.
    apply (f_equal (fun r => match r with Ok x => JObj (wm_obj x) | Err _ => JNull end)) in W. symmetry. exact W. }
  rewrite served_is in O. injection O as O.
  assert (S : supported "client_id_prefixes_supported" ["pre-registered"] w = Ok ["redirect_uri"]).
  { unfold supported. rewrite O. reflexivity. }
  destruct (string_dec (cl_prefix (v_client (rb_verifier b))) "redirect_uri") as [E|N]; [exact E|exfalso].
  destruct (c33_prefix_pf up b u w false m) as [_ [e E]].
  - intros l L. rewrite S in L. injection L as <-. intros [X|[]]. apply N. symmetry. exact X.
  - rewrite E in B. discriminate.
Qed.
Example c92_clients_ex :
  match wm_of_json simple_parse (served_metadata simple_parse ex_endpoint) with
  | Ok w => built_ok (build simple_parse (toy_builder false (mk_client "redirect_uri:x" "redirect_uri" (fun a => Ok (jprint (aro_to_json a))))) 8%N w false []) 8%N = true
  | Err _ => False
  end.
Proof. vm_compute. reflexivity. Qed.

(** C92: but whatever the example wallet encrypts is in A128GCM, which its metadata do not list. *)
Lemma c92_enc_refuted_pf
  : forall (url_parse : string -> option url) (endpoint : url) (w : wallet_metadata)
      (jwk_ok : obj -> bool) (jwe_encrypt : obj -> obj -> obj -> res string)
      (a : aro) (vp : vp_token) (st : option string) (jwe : string) (encs : list string),
    wm_of_json url_parse (served_metadata url_parse endpoint) = Ok w ->
    supported "authorization_encryption_enc_values_supported" [] w = Ok encs ->
    parsed_key (aro_to_obj a) -> NoDup (map fst vp) ->
    encrypted_answer jwk_ok jwe_encrypt a vp st = Ok jwe ->
    exists header claims key enc, jwe_encrypt header claims key = Ok jwe /\ text_at "enc" header enc /\ ~ In enc encs.
Proof.
  intros up ep w jk je a vp st jwe encs W S K N A.
  assert (O : JObj (wm_obj w) = served_metadata up ep).
  { rewrite served_is in *. unfold wm_of_json, wm_of_obj, de_obj, as_obj, ok_or in W. cbn [rbind] in W.
    destruct (parsing_error _) as [e|]; [|discriminate]. cbn [rbind] in W.
    destruct (parsing_error _) as [f|]; [|discriminate]. cbn [rbind] in W.
    apply (f_equal (fun r => match r with Ok x => JObj (wm_obj x) | Err _ => JNull end)) in W. symmetry. exact W. }
  rewrite served_is in O. injection O as O.
  unfold supported in S. rewrite O in S.
  assert (E : encs = ["A256GCM"]).
  { apply (f_equal (fun r => match r with Ok x => x | Err _ => [] end)) in S. symmetry. exact S. }
  subst encs.
  destruct (proj1 (c73_encryption_pf jk je a vp st jwe K N) A) as (cm & keys & key & kid & h & cl & _ & _ & _ & _ & _ & [_ H] & _ & J).
  exists h, cl, key, "A128GCM". split; [exact J|]. split.
  - unfold text_at. rewrite H. reflexivity.
  - intros [X|[]]. discriminate.
Qed.
Example c92_enc_refuted_ex :
  parsed_key (enc_request [] [key_p256 "enc" "2"])
  /\ exists jwe, ex_encrypted [] = Ok jwe.
Proof. split; [exact (proj1 c73_encryption_ex)|eexists; exact (proj2 c73_encryption_ex)]. Qed.

(** C92: and it answers clients of kinds that its metadata do not list. *)
Lemma c92_prefix_refuted_pf
  : exists (client : string) (o : obj) (w : wallet_metadata),
    text_at "client_id" o client /\ client = "x509_san_dns:v.example"
    /\ wm_of_json simple_parse (served_metadata simple_parse ex_endpoint) = Ok w
    /\ supported "client_id_prefixes_supported" ["pre-registered"] w = Ok ["redirect_uri"]
    /\ ex_posted None o = ["https://v.example/resp"] /\ snd (ex_run None o) = Ok None.
Proof.
  exists "x509_san_dns:v.example", (ex_object "x509_san_dns:v.example").
  destruct (c92_read_pf simple_parse ex_endpoint) as (j & w & J & W & _ & _ & S & _); [vm_compute; reflexivity|vm_compute; reflexivity|].
  assert (X : json_of_text (jprint (served_metadata simple_parse ex_endpoint)) = Some (served_metadata simple_parse ex_endpoint)) by (vm_compute; reflexivity).
  rewrite X in J. injection J as <-.
  exists w. split; [vm_compute; reflexivity|]. split; [reflexivity|]. split; [exact W|]. split; [exact S|]. split; vm_compute; reflexivity.
Qed.
