From Coq Require Import Lia ZArith.
From Verif Require Import Base BaseFacts Utf8 Utf8Facts Json JsonFacts JsonText JsonTextFacts Serde MapFacts Base64 Base64Facts Sha256 Url UrlEncoded Object
  Formats Params Metadata Dcql Effects Jwt Request Response Verify Did X509 SpecCert CertFacts Client Session Builder Server ExVerifier ExHttp ExWeb ExCache ExStart.
From Verif Require Import Spec SpecObject SpecRequest SpecVerify SpecJwe SpecBuilder SpecSession StoreFacts ParamFacts PfText PfRequest PfResolve PfVerify PfDid PfX509
  PfEncodings PfClient PfBuilder UuidFacts PfSession PfServer SpecVerifierEx PfExServer PfExInitiate SpecJsonText GrammarFacts PfGrammar CacheFacts SpecWeb SpecStart Signer SpecSigner PfSigner SpecEncodings PfWeb.

(* ------------------------------------------------------------ the host *)
Lemma split_once_at c a b : has_char c a = false -> split_once c (a +:+ String c b) = Some (a, b).
Proof.
  intros H. apply split_once_some. split; [reflexivity|exact H].
Qed.
Lemma starts_one c d r : starts_with (s1 c) (String d r) = Ascii.eqb c d.
Proof. unfold starts_with. cbn [s1 strip_prefix]. destruct (Ascii.eqb c d); reflexivity. Qed.
Lemma host_of a h : host_in a h -> forall u, u_auth u = Some a -> host_str u = Some h.
Proof.
  intros (Ne & user & port & -> & Hu & Hp & Hc) u Ha. unfold host_str. rewrite Ha.
  assert (E : (match rsplit_once "@" (user +:+ h +:+ port) with Some (_, x) => x | None => user +:+ h +:+ port end) = h +:+ port).
  { destruct Hu as [[-> N]|[w ->]].
    - change ("" +:+ h +:+ port) with (h +:+ port) in *. apply rsplit_once_none in N. now rewrite N.
    - rewrite sapp_assoc. change ("@" +:+ h +:+ port) with (String "@" (h +:+ port)).
      rewrite (proj2 (rsplit_once_some "@" (w +:+ String "@" (h +:+ port)) w (h +:+ port))); [reflexivity|]. split; [reflexivity|exact Hp]. }
  cbv zeta. rewrite E. destruct Hc as [(Hq & Hn & Hb)|(ip & -> & Hn)].
  - assert (B : starts_with "[" (h +:+ port) = false).
    { destruct h as [|c r]; [contradiction|]. change (String c r +:+ port) with (String c (r +:+ port)). rewrite (starts_one "[") in *. exact Hb. }
    rewrite B. destruct Hq as [->|(p & ->)].
    + rewrite sapp_nil_r. apply split_once_none in Hn. rewrite Hn. destruct h; [contradiction|reflexivity].
    + change (h +:+ ":" +:+ p) with (h +:+ String ":" p). rewrite split_once_at by exact Hn. destruct h; [contradiction|reflexivity].
  - assert (X : ("[" +:+ ip +:+ "]") +:+ port = ("[" +:+ ip) +:+ String "]" port) by (rewrite !sapp_assoc; reflexivity).
    rewrite X. rewrite split_once_at by exact Hn. cbn. now rewrite sapp_assoc || reflexivity.
Qed.

(* ------------------------------------------------------------ the start *)
Lemma startup_inv secret up pub sb ec td u mode ob ek a o : @startup up secret pub sb ec td u mode ob ek = Ok (a, o) ->
  exists domain k c der, host_str u = Some domain /\ ob domain = Some (k, c, der) /\ o = oidf_config pub sb k der domain
    /\ app_new up td c (request_signer ec (mk_p256 k (SpecSigner.bare (pub k)))) ek u (String.eqb mode "direct_post.jwt") = Ok a.
Proof.
  unfold startup. intros H. apply rbind_ok in H as (d & Hd & H). apply ok_or_ok in Hd. apply rbind_ok in H as ([[k c] der] & Hk & H). apply ok_or_ok in Hk.
  cbv zeta in H. apply rbind_ok in H as (s & Hs & H). apply new_iff in Hs. subst s. apply rbind_ok in H as (a' & Ha & H). injection H as <- <-.
  exists d, k, c, der. auto.
Qed.

(** C107: with a public URL that names no host the verifier does not start. *)
Lemma c107_hostless_pf :
  forall (secret : Type) (url_parse : string -> option url) (public : secret -> string * string) (secret_bytes : secret -> string)
    (ecdsa : secret -> string -> string) (to_der : cert -> res string) (u : url) (mode : string)
    (obtained : string -> option (secret * cert * string)) (enc_key : obj),
    hostless u -> exists e, startup url_parse public secret_bytes ecdsa to_der u mode obtained enc_key = Err e.
Proof.
  intros secret up pub sb ec td u mode ob ek H. assert (N : host_str u = None).
  { unfold host_str. destruct H as [->|(user & port & -> & Hu & Hp & Hc)]; [reflexivity|]. cbv zeta.
    assert (E : (match rsplit_once "@" (user +:+ port) with Some (_, x) => x | None => user +:+ port end) = port).
    { destruct Hu as [->|[w ->]].
      - change ("" +:+ port) with port. apply rsplit_once_none in Hp. now rewrite Hp.
      - rewrite sapp_assoc. change ("@" +:+ port) with (String "@" port).
        now rewrite (proj2 (rsplit_once_some "@" (w +:+ String "@" port) w port)) by (split; [reflexivity|exact Hp]). }
    rewrite E. destruct Hc as [->|[p ->]]; reflexivity. }
  unfold startup. rewrite N. cbn [ok_or rbind]. eexists. reflexivity.
Qed.
Example c107_hostless_ex :
  hostless (mk_url "https" (Some "me@:8443") "/" false None None) /\ hostless (mk_url "data" None "x" true None None)
  /\ ~ hostless (mk_url "https" (Some "v.example") "/" false None None).
Proof.
  split; [right; exists "me@", ":8443"; split; [reflexivity|]; split; [right; exists "me"; reflexivity|]; split; [reflexivity|right; exists "8443"; reflexivity]|].
  split; [left; reflexivity|]. intros [H|(user & port & H & Hu & _ & Hp)]; [discriminate|]. cbn [u_auth] in H. injection H as H.
  assert (A : has_char "@" "v.example" = false) by reflexivity. assert (B : has_char ":" "v.example" = false) by reflexivity.
  rewrite H in A, B. destruct Hu as [->|[w ->]].
  - destruct Hp as [->|[p ->]]; [discriminate|]. rewrite has_char_app in B. cbn in B. discriminate.
  - rewrite !has_char_app in A. cbn [has_char] in A. rewrite Ascii.eqb_refl, orb_true_r in A. discriminate.
Qed.

(* ------------------------------------------------------------ the printed configuration *)
Lemma plain_spells s : str_all (fun c => negb (Ascii.eqb c quote) && negb (Ascii.eqb c backslash) && (32 <=? byte c)%N) s = true -> spells s s.
Proof.
  induction s as [|c r IH]; cbn [str_all]; [constructor|]. rewrite !andb_true_iff, !negb_true_iff, !Ascii.eqb_neq, N.leb_le. intros [[[H1 H2] H3] Hr].
  apply sp_plain; auto.
Qed.
Definition b64_plain (al : b64_alphabet) : bool :=
  forallb (fun c => implb (b64_char al c) (negb (Ascii.eqb c quote) && negb (Ascii.eqb c backslash) && (32 <=? byte c)%N)) all_ascii.
Lemma b64_plain_all al : b64_plain al = true.
Proof. destruct al; vm_compute; reflexivity. Qed.
Lemma literal s : str_all (fun c => negb (Ascii.eqb c quote) && negb (Ascii.eqb c backslash) && (32 <=? byte c)%N) s = true -> utf8_valid s = true ->
  string_literal (String quote (s +:+ String quote "")) s.
Proof.
  intros H U. apply c95_utf8_pf in U as [l U]. exists s, l. split; [reflexivity|]. split; [now apply plain_spells|exact U].
Qed.
Lemma b64_literal al p s : string_literal (String quote (b64_encode al p s +:+ String quote "")) (b64_encode al p s).
Proof.
  apply literal; [|apply b64_utf8].
  assert (H : str_all (fun c => negb (Ascii.eqb c quote) && negb (Ascii.eqb c backslash) && (32 <=? byte c)%N) (b64_encode al false s) = true).
  { eapply str_all_impl; [|apply b64_encode_chars]. intros c Hc.
    assert (X := proj1 (forallb_forall _ _) (b64_plain_all al) c (all_ascii_in c)). cbn beta in X. now rewrite Hc in X. }
  destruct p; [|exact H]. destruct (b64_pad_suffix al s) as (q & -> & Hq). rewrite str_all_app, H. cbn [andb].
  eapply str_all_impl; [|exact Hq]. intros c Hc. apply Ascii.eqb_eq in Hc. subst c. reflexivity.
Qed.
Lemma blank_nl s : In s [newline; newline +:+ "  "; " "; ""] -> blank s.
Proof. intros [<-|[<-|[<-|[<-|[]]]]]; unfold blank; cbn; repeat (constructor; [cbn; auto|]); constructor. Qed.

Definition quoted (s : string) : string := String quote (s +:+ String quote "").
Lemma printed_reads al p al' x y d c :
  let text := "{" +:+ newline +:+ "  ""x"": """ +:+ b64_encode al false x +:+ """," +:+ newline +:+ "  ""y"": """ +:+ b64_encode al false y +:+ """," +:+ newline
    +:+ "  ""d"": """ +:+ b64_encode al false d +:+ """," +:+ newline +:+ "  ""x5c"": [""" +:+ b64_encode al' p c +:+ """]" +:+ newline +:+ "}" +:+ newline in
  json_text 127 text (JObj [("d", JStr (b64_encode al false d)); ("x", JStr (b64_encode al false x));
                            ("x5c", JArr [JStr (b64_encode al' p c)]); ("y", JStr (b64_encode al false y))]).
Proof.
  cbv zeta. pose proof (b64_literal al false x) as Lx. pose proof (b64_literal al false y) as Ly. pose proof (b64_literal al false d) as Ld. pose proof (b64_literal al' p c) as Lc.
  set (X := b64_encode al false x) in *. set (Y := b64_encode al false y) in *. set (D := b64_encode al false d) in *. set (C := b64_encode al' p c) in *.
  fold (quoted X) in Lx. fold (quoted Y) in Ly. fold (quoted D) in Ld. fold (quoted C) in Lc.
  set (m4 := (newline +:+ "  ") +:+ quoted "x5c" +:+ "" +:+ ":" +:+ " " +:+ ("[" +:+ ("" +:+ quoted C +:+ "") +:+ "]") +:+ newline).
  set (m3 := (newline +:+ "  ") +:+ quoted "d" +:+ "" +:+ ":" +:+ " " +:+ quoted D +:+ "" +:+ "," +:+ m4).
  set (m2 := (newline +:+ "  ") +:+ quoted "y" +:+ "" +:+ ":" +:+ " " +:+ quoted Y +:+ "" +:+ "," +:+ m3).
  set (m1 := (newline +:+ "  ") +:+ quoted "x" +:+ "" +:+ ":" +:+ " " +:+ quoted X +:+ "" +:+ "," +:+ m2).
  assert (K : forall s, In s ["x"; "y"; "d"; "x5c"] -> string_literal (quoted s) s) by (intros s [<-|[<-|[<-|[<-|[]]]]]; apply literal; reflexivity).
  exists "", ("{" +:+ m1 +:+ "}"), newline. split; [|split; [apply blank_nl; cbn; auto|split; [apply blank_nl; cbn; auto|]]].
  - unfold m1, m2, m3, m4, quoted, newline, s1. cbn [String.append]. repeat (rewrite !sapp_assoc; cbn [String.append]). reflexivity.
  - apply de_object with (l := [("x", JStr X); ("y", JStr Y); ("d", JStr D); ("x5c", JArr [JStr C])]).
    + unfold m1. apply me_more; try (apply blank_nl; cbn; auto; fail); [apply K; cbn; auto|now apply de_string|].
      unfold m2. apply me_more; try (apply blank_nl; cbn; auto; fail); [apply K; cbn; auto|now apply de_string|].
      unfold m3. apply me_more; try (apply blank_nl; cbn; auto; fail); [apply K; cbn; auto|now apply de_string|].
      unfold m4. apply me_last; try (apply blank_nl; cbn; auto; fail); [apply K; cbn; auto|].
      apply de_array. apply el_last; try (apply blank_nl; cbn; auto; fail). now apply de_string.
    + reflexivity.
    + now apply obj_of_list_iff.
Qed.
Lemma x509_signed {key} to_der c (s : signer key) der body jwt : sg_alg s = Ok "ES256" -> to_der c = Ok der ->
  x509_jwt to_der [c] s body = Ok jwt -> signed_with (sg_sign s) (b64std_encode der) jwt.
Proof.
  intros A D H. unfold x509_jwt in H. rewrite A in H. cbn [rbind mapM] in H. rewrite D in H. cbn [rbind] in H. injection H as <-.
  destruct (x5c_header_ok "ES256" [der] eq_refl) as [W P].
  destruct (made_jwt _ body s W P) as (h64 & p64 & s64 & C & Hh & _ & Hs).
  exists h64, p64, s64. eexists. split; [exact C|]. split; [exact Hh|]. split; [reflexivity|]. split; [reflexivity|exact Hs].
Qed.

(** C107: once started, the verifier has a certificate and key for the host of its public URL; what it prints is a JSON object
    with that key, both halves, and that certificate; and every request object it signs is signed with the printed key and names
    the printed certificate. *)
Lemma c107_printed_pf :
  forall (secret : Type) (url_parse : string -> option url) (public : secret -> string * string) (secret_bytes : secret -> string)
    (ecdsa : secret -> string -> string) (to_der : cert -> res string) (u : url) (mode : string)
    (obtained : string -> option (secret * cert * string)) (enc_key : obj) (a : adapter) (o : oidf) (authority host : string),
    startup url_parse public secret_bytes ecdsa to_der u mode obtained enc_key = Ok (a, o) ->
    u_auth u = Some authority -> host_in authority host ->
    exists k c der, obtained host = Some (k, c, der) /\ oi_client_id o = host
      /\ config_says (printed_config o) (public k) (secret_bytes k) (b64std_encode der)
      /\ (to_der c = Ok der -> forall body jwt, cl_jwt (v_client (ap_verifier a)) body = Ok jwt ->
          signed_with (ecdsa k) (b64std_encode der) jwt).
Proof.
  intros secret up pub sb ec td u mode ob ek a o au h H Hu Hh. apply startup_inv in H as (d & k & c & der & Hd & Ho & -> & Ha).
  rewrite (host_of _ _ Hh u Hu) in Hd. injection Hd as <-. exists k, c, der. split; [exact Ho|]. split; [reflexivity|]. split.
  - eexists _, (b64url_encode (fst (pub k))), (b64url_encode (snd (pub k))), (b64url_encode (sb k)). split; [apply (printed_reads UrlSafe true Std)|]. split; [apply members_of; [reflexivity|]; intros kv; cbn [In]; tauto|].
    split; [apply b64_rt|]. split; apply b64_rt.
  - intros Td body jwt J. apply app_inv in Ha as (ep & dns & names & su & ba & _ & _ & _ & _ & ->). cbn [ap_verifier v_client cl_jwt] in J.
    exact (x509_signed td c (request_signer ec (mk_p256 k (SpecSigner.bare (pub k)))) der body jwt eq_refl Td J).
Qed.

Definition toy_obtained (host : string) : option (string * cert * string) := Some ("K", named [host] "K", "K").
Definition spki_der (c : cert) : res string := Ok (c_spki c).
Definition toy_start (u mode : string) : res (adapter * oidf) :=
  startup simple_parse toy_public (fun k => k) toy_ecdsa spki_der (toy_url u) mode toy_obtained [("kty", JStr "EC")].
Example c107_printed_ex :
  (exists a o, toy_start "https://me@v.example:8443/" "direct_post" = Ok (a, o) /\ oi_client_id o = "v.example"
     /\ json_of_text (printed_config o) = Some (JObj [("d", JStr "Sw"); ("x", JStr "Sw"); ("x5c", JArr [JStr "Sw=="]); ("y", JStr "S0s")]))
  /\ host_in "me@v.example:8443" "v.example" /\ host_in "[::1]:80" "[::1]".
Proof.
  split; [|split].
  - eexists _, _. split; [reflexivity|]. split; vm_compute; reflexivity.
  - split; [discriminate|]. exists "me@", ":8443". split; [reflexivity|]. split; [right; now exists "me"|]. split; [reflexivity|]. left.
    split; [right; now exists "8443"|]. split; reflexivity.
  - split; [discriminate|]. exists "", ":80". split; [reflexivity|]. split; [left; split; reflexivity|]. split; [reflexivity|]. right. now exists "::1".
Qed.

(** C107: and a wallet accepts what is then initiated: if the certificate certifies the key and names the host, the request is
    stored with the printed client id, signed with the printed key and certificate, and passes the X.509 check of every wallet
    that supports ES256. *)
Lemma c107_accepted_pf :
  forall (secret root : Type) (url_parse : string -> option url) (public : secret -> string * string) (secret_bytes : secret -> string)
    (ecdsa : secret -> string -> string) (verifies : string * string -> string -> string -> bool) (spki_key : string -> option (string * string))
    (cert_of_der : string -> option cert) (to_der : cert -> res string) (u : url) (mode : string)
    (obtained : string -> option (secret * cert * string)) (enc_key : obj) (a : adapter) (o : oidf) (authority host : string)
    (k : secret) (c : cert) (der : string) (wm : wallet_metadata) (roots : option (list root))
    (nonce : option string) (fresh id : uuid) (validator : session -> auth_response -> Session.outcome) (m m' : store) calls (j : json),
    signs public ecdsa verifies -> (forall x der, to_der x = Ok der -> cert_of_der der = Some x) ->
    startup url_parse public secret_bytes ecdsa to_der u mode obtained enc_key = Ok (a, o) ->
    u_auth u = Some authority -> host_in authority host ->
    obtained host = Some (k, c, der) -> to_der c = Ok der -> dns_names c [host] -> spki_key (c_spki c) = Some (public k) ->
    alg_supported wm "ES256" ->
    run false validator (initiate_request url_parse a nonce fresh id) m = (m', calls, Ok (RJson 200 j)) ->
    exists sess, st_get id m' = Some sess /\ ro_client_id (s_request sess) = Some ("x509_san_dns:" +:+ oi_client_id o)
      /\ config_says (printed_config o) (public k) (secret_bytes k) (b64std_encode der)
      /\ signed_with (ecdsa k) (b64std_encode der) (s_jwt sess)
      /\ x509_san_validate cert_of_der (p256_from_spki spki_key) verifies wm (s_request sess) (s_jwt sess) roots = Ok tt.
Proof.
  intros secret root up pub sb ec ver sk cod td u mode ob ek a o au h k c der wm roots nonce fresh id val m m' calls j Hs Hd H Hu Hh Ho Ht Hn Hk Hw R.
  destruct (c107_printed_pf _ _ _ _ _ _ _ _ _ _ _ _ _ _ H Hu Hh) as (k' & c' & der' & Ho' & Hc & Cs & Sw).
  rewrite Ho in Ho'. injection Ho' as <- <- <-. specialize (Sw Ht).
  apply startup_inv in H as (d & k' & c' & der' & Hd' & Ho' & Eo & Ha). rewrite (host_of _ _ Hh u Hu) in Hd'. injection Hd' as <-.
  rewrite Ho in Ho'. injection Ho' as <- <- <-.
  pose proof (app_inv _ _ _ _ _ _ _ a Ha) as (ep & dns & names & su & ba & _ & Ed & _ & _ & Ea). apply dns_cons in Hn. rewrite Hn in Ed. injection Ed as <- <-.
  rewrite initiate_run in R. destruct (rb_prepare up (initiate_builder a nonce fresh) id (ap_wallet a)) as [[s0 dest]|e] eqn:P; [|discriminate R].
  injection R as <- _ _. apply prepare_inv in P as (E1 & _ & E3 & E4 & E5 & _).
  exists s0. rewrite E1, st_get_insert, N.eqb_refl. split; [reflexivity|].
  assert (Ci : ro_client_id (s_request s0) = Some ("x509_san_dns:" +:+ h)).
  { destruct E3 as (B1 & _). apply aro_of_inv in E4. pose proof (acc_client _ _ _ E4) as A.
    rewrite Ea in B1. match type of B1 with context [cl_client_id ?x] => change (cl_client_id x) with ("x509_san_dns:" +:+ h) in B1 end. destruct (ro_client_id (s_request s0)); unfold text_at, absent in *; congruence. }
  change (v_client (rb_verifier (initiate_builder a nonce fresh))) with (v_client (ap_verifier a)) in E5.
  split; [rewrite Hc; exact Ci|]. split; [exact Cs|]. split; [exact (Sw _ _ E5)|].
  refine (proj2 (c106_x509_pf secret root pub ec ver sk cod td k (mk_p256 k (SpecSigner.bare (pub k))) c [] (v_client (ap_verifier a)) (s_request s0) (s_request s0) (s_jwt s0) wm roots
    Hs Hd (proj2 (new_iff pub k _) eq_refl) Hk Hw E5 _) _).
  - rewrite Ea. exact Ci.
  - unfold x509_san_client. rewrite Hn. rewrite Ea. reflexivity.
Qed.
Definition spki_cert (der : string) : option cert := Some (named ["v.example"] der).
Example c107_accepted_ex :
  signs toy_public toy_ecdsa point_verifies /\ toy_point "K" = Some (toy_public "K")
  /\ match toy_start "https://v.example/" "direct_post.jwt" with
     | Ok (a, o) => match run false (app_validator toy_open) (initiate_request simple_parse a (Some "n") 1%N 7%N) [] with
                    | (m', _, Ok (RJson 200 _)) =>
                        match st_get 7%N m' with
                        | Some s => x509_san_validate spki_cert (p256_from_spki toy_point) point_verifies did_wallet (s_request s) (s_jwt s) (None : option (list nat))
                        | None => Err "not stored"
                        end
                    | _ => Err "failed"
                    end
     | Err e => Err e
     end = Ok tt.
Proof. split; [intros k m; apply String.eqb_refl|]. vm_compute. split; reflexivity. Qed.

(** C107: the verifier asks for encrypted responses exactly if it was started with the mode direct_post.jwt, and otherwise for
    plain ones. *)
Lemma c107_mode_pf :
  forall (secret : Type) (url_parse : string -> option url) (public : secret -> string * string) (secret_bytes : secret -> string)
    (ecdsa : secret -> string -> string) (to_der : cert -> res string) (u : url) (mode : string)
    (obtained : string -> option (secret * cert * string)) (enc_key : obj) (a : adapter) (o : oidf)
    (nonce : option string) (fresh id : uuid) (validator : session -> auth_response -> Session.outcome) (m m' : store) calls (j : json),
    startup url_parse public secret_bytes ecdsa to_der u mode obtained enc_key = Ok (a, o) ->
    run false validator (initiate_request url_parse a nonce fresh id) m = (m', calls, Ok (RJson 200 j)) ->
    exists sess dns n response encrypted, st_get id m' = Some sess
      /\ asks (aro_to_obj (s_request sess)) dns n enc_key encrypted response
      /\ (encrypted = true <-> mode = "direct_post.jwt").
Proof.
  intros secret up pub sb ec td u mode ob ek a o nonce fresh id val m m' calls j H R. apply startup_inv in H as (d & k & c & der & _ & _ & _ & Ha).
  destruct (c77_initiate_pf _ _ _ _ _ _ _ _ _ _ _ _ _ _ _ _ _ Ha R) as (dns & names & sess & response & rq & w & ep & dest & _ & _ & _ & G & _ & _ & _ & As & _).
  exists sess, dns, (match nonce with Some n => n | None => uuid_str fresh end), response, (String.eqb mode "direct_post.jwt").
  split; [exact G|]. split; [exact As|apply String.eqb_eq].
Qed.
Definition start_mode (mode : string) : option json :=
  match toy_start "https://v.example/" mode with
  | Ok (a, _) => match run false (app_validator toy_open) (initiate_request simple_parse a (Some "n") 1%N 7%N) [] with
                 | (m', _, Ok (RJson st _)) =>
                     if (st =? 200)%N then match st_get 7%N m' with Some s => obj_get "response_mode" (aro_to_obj (s_request s)) | None => None end else None
                 | _ => None
                 end
  | Err _ => None
  end.
Lemma start_mode_inv mode v : start_mode mode = Some v -> exists a o m' calls j sess,
  toy_start "https://v.example/" mode = Ok (a, o)
  /\ run false (app_validator toy_open) (initiate_request simple_parse a (Some "n") 1%N 7%N) [] = (m', calls, Ok (RJson 200 j))
  /\ st_get 7%N m' = Some sess /\ obj_get "response_mode" (aro_to_obj (s_request sess)) = Some v.
Proof.
  unfold start_mode. generalize (toy_start "https://v.example/" mode). intros [[a o]|e]; [|discriminate].
  assert (X : forall x, (match x with
                 | (m', _, Ok (RJson st _)) =>
                     if (st =? 200)%N then match st_get 7%N m' with Some s => obj_get "response_mode" (aro_to_obj (s_request s)) | None => None end else None
                 | _ => None end = Some v) -> run false (app_validator toy_open) (initiate_request simple_parse a (Some "n") 1%N 7%N) [] = x ->
     exists a0 o0 m' calls j sess, Ok (a, o) = Ok (a0, o0) /\ run false (app_validator toy_open) (initiate_request simple_parse a0 (Some "n") 1%N 7%N) [] = (m', calls, Ok (RJson 200 j))
       /\ st_get 7%N m' = Some sess /\ obj_get "response_mode" (aro_to_obj (s_request sess)) = Some v).
  { intros [[m' calls] [[st j|?|?]|?]]; try discriminate. destruct (N.eqb_spec st 200) as [->|]; [|discriminate].
    destruct (st_get 7%N m') as [sess|] eqn:G; [|discriminate]. intros H R. exists a, o, m', calls, j, sess. auto. }
  intros H. exact (X _ H eq_refl).
Qed.
Example c107_mode_ex :
  start_mode "direct_post.jwt" = Some (JStr "direct_post.jwt") /\ start_mode "direct_post" = Some (JStr "direct_post").
Proof. split; vm_compute; reflexivity. Qed.

(** C107 refuted as "the mode is one of the two that are documented, or the verifier does not start": any other word, though
    printed as the response mode, silently means plain responses. *)
Lemma c107_mode_refuted_pf :
  exists mode a o m' calls j sess,
    mode <> "direct_post" /\ mode <> "direct_post.jwt"
    /\ toy_start "https://v.example/" mode = Ok (a, o)
    /\ run false (app_validator toy_open) (initiate_request simple_parse a (Some "n") 1%N 7%N) [] = (m', calls, Ok (RJson 200 j))
    /\ st_get 7%N m' = Some sess /\ obj_get "response_mode" (aro_to_obj (s_request sess)) = Some (JStr "direct_post").
Proof.
  exists "direct_post_jwt".
  destruct (start_mode_inv "direct_post_jwt" (JStr "direct_post")) as (a & o & m' & calls & j & sess & E & R & G & O); [vm_compute; reflexivity|].
  exists a, o, m', calls, j, sess. split; [discriminate|]. split; [discriminate|]. split; [exact E|]. split; [exact R|]. split; [exact G|exact O].
Qed.
Lemma trim_root u a : at_root u a -> base_url u = u_scheme u +:+ "://" +:+ a.
Proof.
  intros (A & Ne & W & P & Q & F). unfold base_url, url_str. rewrite A, Q, F. rewrite !sapp_nil_r.
  assert (T : forall x y, y <> "" -> trim_end "/" (x +:+ y) = x +:+ trim_end "/" y \/ trim_end "/" y = "").
  { intros x y _. destruct (trim_end "/" y) as [|c r] eqn:E; [now right|left]. induction x as [|d x IH]; cbn [append trim_end]; [exact E|]. rewrite IH.
    destruct x; reflexivity. }
  assert (Ta : trim_end "/" (a +:+ u_path u) = a).
  { apply trim_end_app_pad; [now apply without_iff|]. destruct P as [->| ->]; reflexivity. }
  assert (E : u_scheme u +:+ ":" +:+ ("//" +:+ a) +:+ u_path u = (u_scheme u +:+ "://") +:+ a +:+ u_path u) by (rewrite !sapp_assoc; reflexivity).
  rewrite E. destruct (T (u_scheme u +:+ "://") (a +:+ u_path u)) as [X|X].
  - destruct a; [contradiction|discriminate].
  - rewrite X, Ta, sapp_assoc. reflexivity.
  - congruence.
Qed.

(** C107: for a public URL without a path of its own, every endpoint that is printed is one the server has, with that method, and
    the response endpoint printed for a session is where its request tells the wallet to respond. *)
Lemma c107_endpoints_pf :
  forall (u : url) (authority session_id : string),
    at_root u authority -> session_id <> "" -> without "/" session_id ->
    (forall method e, In (method, e) (printed_endpoints u session_id) ->
      exists path, e = u_scheme u +:+ "://" +:+ authority +:+ path /\ allowed path method)
    /\ (forall id response, session_id = uuid_str id -> at_session u "response" id response ->
        In ("POST", url_str response) (printed_endpoints u session_id)).
Proof.
  intros u a sid R Ns Ws. pose proof (trim_root u a R) as B. split.
  - intros me e I. unfold printed_endpoints in I. rewrite B in I.
    assert (Sg : forall ep, has_segment ep ("/" +:+ ep +:+ "/" +:+ sid)) by (intros ep; exists sid; split; [reflexivity|auto]).
    assert (As : forall x, (u_scheme u +:+ "://" +:+ a) +:+ x = u_scheme u +:+ "://" +:+ a +:+ x) by (intros x; now rewrite !sapp_assoc).
    rewrite !As in I. destruct I as [I|[I|[I|[I|[]]]]]; injection I as <- <-; eexists; (split; [reflexivity|]).
    + left. auto.
    + right. split; [right; left; exact (Sg "request")|now left].
    + left. split; [right; exact (Sg "response")|reflexivity].
    + right. split; [right; right; exact (Sg "status")|now left].
  - intros id r -> (base & (_ & _ & S1 & A1 & Q1 & F1 & dir & P1 & D) & (_ & _ & S2 & A2 & Q2 & F2 & P2)).
    unfold printed_endpoints. rewrite B. right. right. left. f_equal. destruct R as (A & Ne & W & P & _).
    assert (Ed : dir = "").
    { destruct D as [(l & E & Nl)|[_ ->]]; [|reflexivity]. destruct P as [P|P]; rewrite P in E; [destruct dir; discriminate|].
      destruct dir as [|x y]; [reflexivity|]. injection E as _ E. destruct y; discriminate. }
    subst dir. unfold url_str. rewrite S2, A2, Q2, F2, P2, S1, A1, Q1, F1, P1, A. cbn [append String.length Nat.eqb]. rewrite !sapp_assoc, !sapp_nil_r. reflexivity.
Qed.
Example c107_endpoints_ex :
  at_root (toy_url "https://v.example/") "v.example"
  /\ printed_endpoints (toy_url "https://v.example/") "7" = [("POST", "https://v.example/initiate"); ("GET", "https://v.example/request/7");
       ("POST", "https://v.example/response/7"); ("GET", "https://v.example/status/7")].
Proof.
  split; [|reflexivity]. split; [reflexivity|]. split; [discriminate|]. split; [now apply without_iff|]. split; [now right|]. split; reflexivity.
Qed.

(** C107 refuted for other public URLs: with a path, what is printed differs from what is served and from what wallets are told. *)
Lemma c107_endpoints_refuted_pf :
  exists u id response e path, u_auth u = Some "v.example" /\ at_session u "response" id response
    /\ In ("POST", e) (printed_endpoints u (uuid_str id)) /\ e = "https://v.example" +:+ path /\ ~ known path
    /\ ~ In ("POST", url_str response) (printed_endpoints u (uuid_str id)).
Proof.
  exists (toy_url "https://v.example/app"), 7%N, (toy_url "https://v.example/response/00000000-0000-0000-0000-000000000007"),
    "https://v.example/app/initiate", "/app/initiate".
  split; [reflexivity|]. split.
  - exists (toy_url "https://v.example/response"). split.
    + repeat (split; [reflexivity|]). exists "". split; [reflexivity|]. left. exists "app". split; reflexivity.
    + repeat (split; [reflexivity|]). vm_compute. reflexivity.
  - split; [left; reflexivity|]. split; [reflexivity|]. split.
    + intros [me [[[E|(s & E & _)] _]|[[E|[(s & E & _)|(s & E & _)]] _]]]; discriminate E.
    + intros I. assert (X : printed_endpoints (toy_url "https://v.example/app") (uuid_str 7%N) =
        [("POST", "https://v.example/app/initiate"); ("GET", "https://v.example/app/request/00000000-0000-0000-0000-000000000007");
         ("POST", "https://v.example/app/response/00000000-0000-0000-0000-000000000007"); ("GET", "https://v.example/app/status/00000000-0000-0000-0000-000000000007")])
        by (vm_compute; reflexivity).
      rewrite X in I. cbn in I. destruct I as [I|[I|[I|[I|[]]]]]; discriminate I.
Qed.
