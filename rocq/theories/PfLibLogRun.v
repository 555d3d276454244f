From Coq Require Import Lia.
From Verif Require Import Base BaseFacts Utf8 Json JsonFacts JsonText JsonTextFacts Base64 Base64Facts Sha256 Url Serde Object Formats Params Metadata
  Effects Jwt Request Verify Response Jwe Did X509 Client ExMatcher ExWallet LibLog LibLogRun MapFacts Spec SpecObject SpecRequest SpecVerify SpecJwe
  SpecExample SpecLog SpecLibLog SpecLibLogRun ParamFacts PfText PfRequest PfResolve PfVerify PfResponse PfJwe PfDid PfX509 PfClient PfExample PfLogWallet PfLibLog.

Lemma typ_says jwt redirect : validate_typ jwt redirect = Ok tt ->
  typ_noted (Some jwt) (typ_entries jwt redirect) /\ (typ_entries jwt redirect <> [] -> redirect = true).
Proof.
  intros V. split.
  2:{ intros H. apply (proj1 (c140_lenient_pf jwt redirect)) in H. exact (proj1 H). }
  unfold validate_typ in V. apply rbind_ok in V as ([[h p] s] & Es & V). apply rbind_ok in V as (m & Em & V).
  unfold typ_entries. rewrite Es. cbn [rbind]. rewrite Em. apply split_iff in Es. apply headers_iff in Em.
  rewrite typ_lookup in V. destruct (key_str "typ" m) as [t|] eqn:T.
  - apply key_str_some in T. destruct (String.eqb_spec t REQUEST_OBJECT_TYP) as [->|Nt].
    + exact (noted_right _ _ _ _ _ Es Em T).
    + destruct redirect; [|discriminate V]. exact (noted_wrong _ _ _ _ _ _ Es Em T Nt).
  - apply maybe_none in T. destruct redirect; [|discriminate V]. exact (noted_missing _ _ _ _ _ Es Em T).
Qed.
Lemma resolve_says up ssi uok http r a jwt : snd (resolve_request up ssi uok http r) = Ok (a, jwt) ->
  typ_noted jwt (resolve_log uok http r) /\ (resolve_log uok http r <> [] -> for_redirect r).
Proof.
  assert (R : PfResolve.is_redirect r = true -> for_redirect r).
  { unfold PfResolve.is_redirect, for_redirect. destruct (ar_client_id r) as [c|]; [|discriminate]. intros H.
    apply starts_with_iff in H as (x & ->). now exists x. }
  unfold resolve_log. fold (PfResolve.is_redirect r). destruct (ar_indirection r) as [j|u|o] eqn:E.
  - rewrite (resolve_value _ _ _ _ _ _ E). cbn [snd]. intros H. apply rbind_ok in H as ([] & V & H).
    apply rbind_ok in H as (b & _ & H). injection H as _ <-. destruct (typ_says _ _ V) as [X Y]. split; [exact X|auto].
  - rewrite (resolve_reference _ _ _ _ _ _ E). destruct (uok (url_str u)); [|discriminate]. cbn [snd].
    destruct (http (get_request u)) as [rs|e]; cbn [rbind]; [|discriminate].
    destruct (utf8_valid (rs_body rs)); cbn [of_bool rbind]; [|discriminate].
    destruct (is_success (rs_status rs)); cbn [of_bool rbind andb]; [|discriminate].
    intros H. apply rbind_ok in H as ([] & V & H). apply rbind_ok in H as (b & _ & H). injection H as _ <-.
    destruct (typ_says _ _ V) as [X Y]. split; [exact X|auto].
  - rewrite (resolve_direct _ _ _ _ _ _ E). cbn [snd]. intros H. apply rbind_ok in H as (b & _ & H). injection H as _ <-.
    split; [exact noted_plain|]. intros X. now destruct X.
Qed.
Lemma resolve_noted a : metadata_noted a (resolve_entries a).
Proof.
  unfold resolve_entries, metadata_noted, aro_get, uo_get, aro_to_obj. cbn [tp_key tp_of p_client_metadata].
  destruct (obj_get "client_metadata" (ro_inner a)) as [v|]; [left|right]; (split; [|reflexivity]); [discriminate|reflexivity].
Qed.
Lemma metadata_says wm a : validate_against_metadata wm a = Ok tt -> metadata_noted a (metadata_log wm a).
Proof.
  intros V. unfold validate_against_metadata in V. apply rbind_ok in V as ([] & P & _). unfold metadata_log. rewrite P.
  apply resolve_noted.
Qed.
Lemma snd_bind {E A B} (m : M E A) (f : A -> M E B) b : snd (mbind m f) = Ok b -> exists a, snd m = Ok a /\ snd (f a) = Ok b.
Proof. unfold mbind. destruct m as [t [a|e]]; cbn [fst snd]; [|discriminate]. destruct (f a) eqn:F. cbn [snd]. intros ->. exists a. now rewrite F. Qed.
Lemma fst_bind {E A B} (m : M E A) (f : A -> M E B) a e : snd m = Ok a -> In e (fst (f a)) -> In e (fst (mbind m f)).
Proof. unfold mbind. destruct m as [t [x|y]]; cbn [fst snd]; [|discriminate]. intros H. injection H as ->. destruct (f a). cbn [fst]. intros H. apply in_or_app. now right. Qed.
Lemma fst_here {E A B} (m : M E A) (f : A -> M E B) e : In e (fst m) -> In e (fst (mbind m f)).
Proof. unfold mbind. destruct m as [t [x|y]]; cbn [fst snd]; [|auto]. destruct (f x). cbn [fst]. intros H. apply in_or_app. now left. Qed.
Lemma hook_called w a jwt h : validate_against_metadata (w_metadata w) a = Ok tt -> hook_for (ro_scheme a) = Some h ->
  In (EHook h a jwt) (fst (verify_request w a jwt)).
Proof. intros V H. unfold verify_request. rewrite V, H. apply fst_bind with tt; [reflexivity|]. apply fst_here. now left. Qed.

(** C141: the log of an accepted request tells how it was accepted: what was lenient about its type, and only for a
    redirect_uri identifier; that it came without client metadata, exactly if it did; then whatever the wallet's check logs. *)
Lemma c141_accepted_pf
  : forall (url_parse : string -> option url) (ssi_header : obj -> option bool) (uri_ok : string -> bool)
      (hook_log : hook -> aro -> option string -> list entry) (w : wallet) (r : auth_request) (a : aro),
    snd (validate url_parse ssi_header uri_ok w r) = Ok a ->
    exists jwt h ts ms, snd (resolve_request url_parse ssi_header uri_ok (w_http w) r) = Ok (a, jwt)
      /\ In (EHook h a jwt) (fst (validate url_parse ssi_header uri_ok w r))
      /\ validate_log url_parse ssi_header uri_ok hook_log w r = ts ++ ms ++ hook_log h a jwt
      /\ typ_noted jwt ts /\ (ts <> [] -> for_redirect r) /\ metadata_noted a ms.
Proof.
  intros up ssi uok hl w r a H. unfold validate in H. apply snd_bind in H as ([b jwt] & R & H).
  apply snd_bind in H as ([] & V & H). apply snd_bind in H as (inner & _ & H).
  assert (E : b = a).
  { destruct (ar_client_id r), inner; try (now injection H).
    destruct (String.eqb _ _); [now injection H|discriminate H]. }
  subst b. assert (K := V). unfold verify_request in V. apply snd_bind in V as ([] & Va & V). cbn [lift snd] in Va.
  destruct (hook_for (ro_scheme a)) as [h|] eqn:Hh; [|discriminate V].
  exists jwt, h, (resolve_log uok (w_http w) r), (metadata_log (w_metadata w) a).
  split; [exact R|]. split.
  { unfold validate. eapply fst_bind; [exact R|]. cbv beta iota. apply fst_here. now apply hook_called. }
  split. { unfold validate_log. rewrite R, Va, Hh. reflexivity. }
  destruct (resolve_says _ _ _ _ _ _ _ R) as [X Y]. split; [exact X|]. split; [exact Y|now apply metadata_says].
Qed.
Definition run_http : http_client := fun _ => Err "no network".
Definition run_request : auth_request :=
  mk_ar (Some "redirect_uri:https://v.example/resp") (ByValue (jwt_of [("alg", JStr "ES256"); ("typ", JStr "JWT")]
    (filter (fun kv => negb (String.eqb (fst kv) "client_metadata")) (x509_request "redirect_uri:https://v.example/resp")))).
Example c141_accepted_ex :
  is_ok (snd (validate simple_parse any_header (fun _ => true) (lax_wallet ["redirect_uri"] run_http) run_request)) = true
  /\ map fst (validate_log simple_parse any_header (fun _ => true) (fun _ _ _ => [(Debug, "checked")]) (lax_wallet ["redirect_uri"] run_http) run_request)
     = [Warn; Warn; Debug].
Proof. split; vm_compute; reflexivity. Qed.

Lemma typ_few jwt b : length (typ_entries jwt b) <= 1 /\ Forall (fun e => fst e = Warn) (typ_entries jwt b).
Proof.
  unfold typ_entries. destruct (let? (h, _, _) := split_jws jwt in jws_headers h) as [m|]; [|split; [cbn; lia|constructor]].
  destruct (key_str "typ" m) as [t|]; [destruct (String.eqb _ _)|]; destruct b; (split; [cbn [length]; lia|]); try constructor; try constructor; reflexivity.
Qed.
Lemma resolve_few uok http r : length (resolve_log uok http r) <= 1 /\ Forall (fun e => fst e = Warn) (resolve_log uok http r).
Proof.
  assert (Z : @length entry [] <= 1 /\ Forall (fun e : entry => fst e = Warn) []) by (split; [cbn; lia|constructor]).
  unfold resolve_log. destruct (ar_indirection r) as [j|u|o]; [apply typ_few| |exact Z].
  destruct (uok _); [|exact Z]. destruct (http _) as [rs|]; [|exact Z]. destruct (utf8_valid _ && is_success _); [apply typ_few|exact Z].
Qed.
Lemma metadata_few wm a : length (metadata_log wm a) <= 1 /\ Forall (fun e => fst e = Warn) (metadata_log wm a).
Proof.
  unfold metadata_log, resolve_entries. destruct (match ro_scheme a with None => _ | Some p => _ end); [|split; [cbn; lia|constructor]].
  destruct (aro_get _ a); (split; [cbn [length]; lia|]); [constructor|]. constructor; [reflexivity|constructor].
Qed.
(** C141: whatever arrives, the library adds at most two lines of its own before the wallet's check is called, both
    warnings; everything else in the log is of a check that was really called. *)
Lemma c141_few_pf
  : forall (url_parse : string -> option url) (ssi_header : obj -> option bool) (uri_ok : string -> bool)
      (hook_log : hook -> aro -> option string -> list entry) (w : wallet) (r : auth_request),
    exists own rest, validate_log url_parse ssi_header uri_ok hook_log w r = own ++ rest
      /\ length own <= 2 /\ Forall (fun e => fst e = Warn) own
      /\ (rest = [] \/ exists h a jwt, In (EHook h a jwt) (fst (validate url_parse ssi_header uri_ok w r)) /\ rest = hook_log h a jwt).
Proof.
  intros up ssi uok hl w r. destruct (resolve_few uok (w_http w) r) as [L F]. unfold validate_log.
  destruct (snd (resolve_request up ssi uok (w_http w) r)) as [[a jwt]|e] eqn:R.
  2:{ exists (resolve_log uok (w_http w) r), []. split; [reflexivity|]. split; [lia|]. split; [exact F|now left]. }
  destruct (metadata_few (w_metadata w) a) as [L' F'].
  exists (resolve_log uok (w_http w) r ++ metadata_log (w_metadata w) a). eexists. split; [apply app_assoc|].
  split; [rewrite app_length; lia|]. split; [now apply Forall_app|].
  destruct (validate_against_metadata (w_metadata w) a) as [[]|e] eqn:V; [|now left].
  destruct (hook_for (ro_scheme a)) as [h|] eqn:Hh; [|now left]. right. exists h, a, jwt. split; [|reflexivity].
  unfold validate. eapply fst_bind; [exact R|]. cbv beta iota. apply fst_here. now apply hook_called.
Qed.
Example c141_few_ex :
  is_ok (snd (validate simple_parse any_header (fun _ => true) (lax_wallet ["x509_hash"] run_http) run_request)) = false
  /\ map fst (validate_log simple_parse any_header (fun _ => true) (fun _ _ _ => [(Debug, "checked")]) (lax_wallet ["x509_hash"] run_http) run_request)
     = [Warn].
Proof. split; vm_compute; reflexivity. Qed.

Lemma redirect_for r : PfResolve.is_redirect r = true -> for_redirect r.
Proof.
  unfold PfResolve.is_redirect, for_redirect. destruct (ar_client_id r) as [c|]; [|discriminate]. intros H.
  apply starts_with_iff in H as (x & ->). now exists x.
Qed.
Lemma typ_seen jwt b : typ_entries jwt b = [] \/ b = true /\ typ_noted (Some jwt) (typ_entries jwt b).
Proof.
  destruct (typ_entries jwt b) as [|e l] eqn:T; [now left|right].
  assert (X : typ_entries jwt b <> []) by (rewrite T; discriminate).
  apply (proj1 (c140_lenient_pf jwt b)) in X as (-> & V & _). split; [reflexivity|]. rewrite <- T. exact (proj1 (typ_says _ _ V)).
Qed.
Lemma prefix_iff wm a :
  match ro_scheme a with
  | None => Ok tt
  | Some prefix => let? l := uo_get_or_default p_client_id_prefixes default_prefixes (wm_obj wm) in of_bool (mem_str prefix l) "unsupported prefix"
  end = Ok tt <-> prefix_ok wm a.
Proof.
  unfold prefix_ok. destruct (ro_scheme a) as [p|].
  2:{ split; [intros _ p H; discriminate H|reflexivity]. }
  rewrite rbind_iff. split.
  - intros (l & E & H) q Q. injection Q as <-. apply prefixes_get in E. apply of_bool_ok, mem_str_iff in H. eauto.
  - intros H. destruct (H p eq_refl) as (l & E & I0). exists l. split; [now apply prefixes_get|].
    apply mem_str_iff in I0. now rewrite I0.
Qed.
(** C141: of a request that is not accepted the log tells as little: of one that cannot be read, nothing but the warning about
    the object that the wallet really obtained; of one whose prefix is not supported, not even whether it had client metadata. *)
Lemma c141_refused_pf
  : forall (url_parse : string -> option url) (ssi_header : obj -> option bool) (uri_ok : string -> bool)
      (hook_log : hook -> aro -> option string -> list entry) (w : wallet) (r : auth_request),
    let log := validate_log url_parse ssi_header uri_ok hook_log w r in
    (forall e, snd (resolve_request url_parse ssi_header uri_ok (w_http w) r) = Err e ->
       log = [] \/ exists jwt, obtained uri_ok (w_http w) r jwt /\ for_redirect r /\ typ_noted (Some jwt) log)
    /\ (forall a jwt, snd (resolve_request url_parse ssi_header uri_ok (w_http w) r) = Ok (a, jwt) ->
         (~ prefix_ok (w_metadata w) a -> typ_noted jwt log)
         /\ (prefix_ok (w_metadata w) a -> ~ metadata_accepts (w_metadata w) a ->
              exists ts ms, log = ts ++ ms /\ typ_noted jwt ts /\ metadata_noted a ms)).
Proof.
  intros up ssi uok hl w r log. subst log. unfold validate_log. split.
  - intros e R. rewrite R, app_nil_r. unfold resolve_log. fold (PfResolve.is_redirect r).
    destruct (ar_indirection r) as [j|u|o] eqn:E; [| |now left].
    + destruct (typ_seen j (PfResolve.is_redirect r)) as [T|[B T]]; [now left|right].
      exists j. split; [now apply from_value|]. split; [now apply redirect_for|exact T].
    + destruct (uok (url_str u)) eqn:U; [|now left]. destruct (w_http w (get_request u)) as [[st body]|x] eqn:H; [|now left].
      cbn [rs_body rs_status]. destruct (utf8_valid body) eqn:V; [|now left]. destruct (is_success st) eqn:S; [|now left]. cbn [andb].
      unfold is_success in S. apply andb_true_iff in S as [S1 S2]. apply N.leb_le in S1. apply N.ltb_lt in S2.
      destruct (typ_seen body (PfResolve.is_redirect r)) as [T|[B T]]; [now left|right].
      exists body. split; [apply from_address with u st; auto|]. split; [now apply redirect_for|exact T].
  - intros a jwt R. rewrite R. destruct (resolve_says _ _ _ _ _ _ _ R) as [X _]. unfold metadata_log.
    pose proof (prefix_iff (w_metadata w) a) as P.
    destruct (match ro_scheme a with None => Ok tt | Some prefix => _ end) as [[]|x].
    + split; [intros N0; exfalso; apply N0; now apply P|]. intros _ Na.
      assert (V : validate_against_metadata (w_metadata w) a <> Ok tt) by (intros V; apply Na; now apply c21_metadata_pf).
      exists (resolve_log uok (w_http w) r), (resolve_entries a). split.
      { apply f_equal. destruct (validate_against_metadata (w_metadata w) a) as [[]|y]; [now destruct V|]. apply app_nil_r. }
      split; [exact X|]. apply resolve_noted.
    + split; [|intros Q; apply P in Q; discriminate Q]. intros Np.
      assert (V : validate_against_metadata (w_metadata w) a <> Ok tt).
      { intros V. apply Np. apply c21_metadata_pf in V. exact (proj1 V). }
      destruct (validate_against_metadata (w_metadata w) a) as [[]|y]; [now destruct V|]. cbn [app]. now rewrite app_nil_r.
Qed.
Example c141_refused_ex :
  match snd (resolve_request simple_parse any_header (fun _ => true) run_http run_request) with Ok (a, Some _) => true | _ => false end = true
  /\ validate_log simple_parse any_header (fun _ => true) (fun _ _ _ => []) (lax_wallet ["x509_hash"] run_http) run_request
     = [(Warn, "Request Object has incorrect 'typ' header 'JWT' (expected 'oauth-authz-req+jwt'), but allowing for redirect_uri prefix per Section 5.9.3")].
Proof. split; vm_compute; reflexivity. Qed.

(** C141: it does not matter to the log whether a request object comes in the request or from the address in it. *)
Lemma c141_fetched_pf
  : forall (url_parse : string -> option url) (ssi_header : obj -> option bool) (uri_ok : string -> bool)
      (hook_log : hook -> aro -> option string -> list entry) (w : wallet) (c : option string) (u : url) (status : N) (jwt : string),
    uri_ok (url_str u) = true -> (200 <= status < 300)%N -> utf8_valid jwt = true -> w_http w (get_request u) = Ok (mk_resp status jwt) ->
    validate_log url_parse ssi_header uri_ok hook_log w (mk_ar c (ByReference u))
    = validate_log url_parse ssi_header uri_ok hook_log w (mk_ar c (ByValue jwt)).
Proof.
  intros up ssi uok hl w c u st jwt U S V H.
  assert (Su : is_success st = true) by (unfold is_success; apply andb_true_iff; rewrite N.leb_le, N.ltb_lt; exact S).
  unfold validate_log.
  rewrite (resolve_reference up ssi uok (w_http w) (mk_ar c (ByReference u)) u eq_refl), (resolve_value up ssi uok (w_http w) (mk_ar c (ByValue jwt)) jwt eq_refl).
  unfold resolve_log. cbn [ar_indirection ar_client_id]. rewrite U, H. cbn [snd rs_body rs_status rbind]. rewrite V, Su. reflexivity.
Qed.
Example c141_fetched_ex : option_map (fun u => is_ok (serve 200 "x" (get_request u))) (simple_parse "https://v.example/request") = Some true.
Proof. vm_compute. reflexivity. Qed.

Lemma right_quiet jwt h64 p64 s64 h b : compact jwt h64 p64 s64 -> header_text h64 h -> text_at "typ" h "oauth-authz-req+jwt" -> typ_entries jwt b = [].
Proof.
  intros C H T. apply split_iff in C. apply headers_iff in H. apply key_str_some in T. unfold typ_entries. rewrite C. cbn [rbind]. rewrite H, T. reflexivity.
Qed.
Lemma x509_quiet (key : Type) td ch (s : signer key) alg body jwt b : sg_alg s = Ok alg -> utf8_valid alg = true ->
  x509_jwt td ch s body = Ok jwt -> typ_entries jwt b = [].
Proof.
  intros A U J. unfold x509_jwt in J. rewrite A in J. cbn [rbind] in J. apply rbind_ok in J as (ders & _ & J). injection J as <-.
  destruct (x5c_header_ok alg ders U) as [W D]. destruct (made_jwt _ body s W D) as (h64 & p64 & s64 & C & H & _).
  apply (right_quiet _ _ _ _ _ b C H). reflexivity.
Qed.
(** C141: the request objects that the library's own clients sign cause no warning about their type, under any identifier. *)
Lemma c141_own_pf
  : forall (key : Type) (s : signer key) (alg : string) (body : aro) (jwt : string) (uri_ok : string -> bool) (http : http_client)
      (c : option string) (cl : client) (key_eqb : key -> key -> bool) (resolver : string -> res key) (vm : string)
      (to_der : cert -> res string) (chain : list cert),
    sg_alg s = Ok alg -> utf8_valid alg = true -> utf8_valid vm = true -> cl_jwt cl body = Ok jwt ->
    did_client key_eqb resolver vm s = Ok cl \/ x509_hash_client to_der chain s = Ok cl \/ x509_san_client to_der chain s = Ok cl ->
    resolve_log uri_ok http (mk_ar c (ByValue jwt)) = [].
Proof.
  intros key s alg body jwt uok http c cl eqb rs vm td ch A U Uv J K. unfold resolve_log. cbn [ar_indirection].
  generalize (match ar_client_id (mk_ar c (ByValue jwt)) with Some x => starts_with "redirect_uri:" x | None => false end). intros b.
  destruct K as [K|[K|K]].
  - unfold did_client in K. apply rbind_ok in K as ([id f] & _ & K). apply rbind_ok in K as (k1 & _ & K).
    apply rbind_ok in K as (k2 & _ & K). apply rbind_ok in K as ([] & _ & K). injection K as <-. cbn [cl_jwt] in J. rewrite A in J. cbn [rbind] in J.
    injection J as <-. destruct (did_header_ok alg vm U Uv) as [W D]. destruct (made_jwt _ body s W D) as (h64 & p64 & s64 & C & H & _).
    apply (right_quiet _ _ _ _ _ b C H). reflexivity.
  - unfold x509_hash_client in K. destruct ch as [|x ch]; [discriminate K|]. apply rbind_ok in K as (d & _ & K). injection K as <-.
    cbn [cl_jwt] in J. exact (x509_quiet _ _ _ _ _ _ _ b A U J).
  - unfold x509_san_client in K. destruct ch as [|x ch]; [discriminate K|]. apply rbind_ok in K as (d & _ & K). injection K as <-.
    cbn [cl_jwt] in J. exact (x509_quiet _ _ _ _ _ _ _ b A U J).
Qed.
Example c141_own_ex :
  match did_client String.eqb toy_resolver ("did:web:v.example" +:+ "#" +:+ "1") (toy_signer "K"), aro_of_obj simple_parse (x509_request "x") with
  | Ok c, Ok a => is_ok (cl_jwt c a) | _, _ => false end = true /\ is_ok (sg_alg (toy_signer "K")) = true.
Proof. split; vm_compute; reflexivity. Qed.

(** C141: what the holder's credentials contain does not show in the library's log: two wallets whose credentials differ only in
    their text have the same log, whatever is requested. *)
Lemma c141_holder_pf
  : forall (url_parse : string -> option url) (ssi_header : obj -> option bool) (uri_ok : string -> bool) (lower : string -> string)
      (http : http_client) (endpoint : url) (consent : bool) (p : params) (st st' : list credential),
    Forall2 same_but_text st st' ->
    wallet_log url_parse ssi_header uri_ok lower http endpoint st consent p = wallet_log url_parse ssi_header uri_ok lower http endpoint st' consent p.
Proof.
  intros up ssi uok lower http ep consent p st st' F. unfold wallet_log.
  destruct (from_url up _ ep) as [ar|e]; [|reflexivity]. apply f_equal.
  destruct (snd (resolve_request up ssi uok http ar)) as [[a jwt]|e]; [|reflexivity].
  destruct (aro_dcql a) as [[q|e]|]; [|reflexivity|reflexivity].
  pose proof (process_alike lower st st' consent F a) as X.
  destruct (process_request lower st consent a), (process_request lower st' consent a); try contradiction; reflexivity.
Qed.
Definition sealed_params : params :=
  ex_params (Some "redirect_uri:https://v.example/resp")
    (obj_insert "response_mode" (JStr "direct_post.jwt")
      (obj_insert "client_metadata" (JObj [("jwks", JObj [("keys", JArr [JObj [("kty", JStr "RSA")]])])])
        (ex_object "redirect_uri:https://v.example/resp"))).
Definition sealed_log (st : list credential) : list entry :=
  wallet_log simple_parse any_header (fun _ => true) (fun s => s) (serve 200 "{}") ex_endpoint st true sealed_params.
Example c141_holder_ex : Forall2 same_but_text [pid] [other_pid] /\ String.eqb (mc_raw pid) (mc_raw other_pid) = false
  /\ sealed_log [pid] = [(Debug, "JWK missing required 'alg' parameter, skipping")].
Proof.
  split; [|split; vm_compute; reflexivity]. constructor; [|constructor]. unfold same_but_text, other_pid. cbn. auto 6.
Qed.
(** C141: of any wallet the log tells one bit at most: the request alone fixes two logs, and every holder has one of them. *)
Lemma c141_bit_pf
  : forall (url_parse : string -> option url) (ssi_header : obj -> option bool) (uri_ok : string -> bool) (lower : string -> string)
      (http : http_client) (endpoint : url) (p : params),
    exists common extra, forall (st : list credential) (consent : bool),
      wallet_log url_parse ssi_header uri_ok lower http endpoint st consent p = common
      \/ wallet_log url_parse ssi_header uri_ok lower http endpoint st consent p = common ++ extra.
Proof.
  intros up ssi uok lower http ep p. unfold wallet_log.
  destruct (from_url up _ ep) as [ar|e]; [|exists [], []; intros; now left].
  exists (resolve_log uok http ar).
  destruct (snd (resolve_request up ssi uok http ar)) as [[a jwt]|e]; [|exists []; intros; right; reflexivity].
  destruct (aro_dcql a) as [[q|e]|]; [|exists []; intros; right; reflexivity|exists []; intros; right; reflexivity].
  eexists. intros st consent. destruct (process_request lower st consent a); [right; reflexivity|left; apply app_nil_r].
Qed.
Example c141_bit_ex : sealed_log [] = [] /\ sealed_log [pid] = [(Debug, "JWK missing required 'alg' parameter, skipping")].
Proof. split; vm_compute; reflexivity. Qed.

Lemma accepted_hook up ssi uok w r a : snd (validate up ssi uok w r) = Ok a ->
  exists jwt h, hook_for (ro_scheme a) = Some h /\ w_hook w h a jwt = Ok tt
    /\ forall hl, exists own, validate_log up ssi uok hl w r = own ++ hl h a jwt /\ length own <= 2.
Proof.
  intros H. unfold validate in H. apply snd_bind in H as ([b jwt] & R & H). apply snd_bind in H as ([] & V & H). apply snd_bind in H as (inner & _ & H).
  assert (E : b = a).
  { destruct (ar_client_id r), inner; try (now injection H).
    destruct (String.eqb _ _); [now injection H|discriminate H]. }
  subst b. unfold verify_request in V. apply snd_bind in V as ([] & Va & V). cbn [lift snd] in Va.
  destruct (hook_for (ro_scheme a)) as [h|] eqn:Hh; [|discriminate V]. apply snd_bind in V as ([] & _ & V). cbn [lift snd] in V.
  exists jwt, h. split; [reflexivity|]. split; [exact V|]. intros hl.
  exists (resolve_log uok (w_http w) r ++ metadata_log (w_metadata w) a). split.
  - unfold validate_log. rewrite R, Va, Hh. apply app_assoc.
  - rewrite app_length. pose proof (proj1 (resolve_few uok (w_http w) r)). pose proof (proj1 (metadata_few (w_metadata w) a)). lia.
Qed.
(** C141: when a wallet that uses the library's checks accepts a request for a certificate hash, its log ends with the
    certificate and its hash, once as expected and once as computed: the one in the client identifier. *)
Lemma c141_hash_pf
  : forall (url_parse : string -> option url) (ssi_header : obj -> option bool) (uri_ok : string -> bool) (show_cert : cert -> string)
      (cert_of_der : string -> option cert) (vkey : Type) (from_spki : string -> string -> option vkey)
      (verifies : vkey -> string -> string -> bool) (root : Type) (roots : option (list root))
      (hook_log : hook -> aro -> option string -> list entry) (w : wallet) (r : auth_request) (a : aro),
    (forall b jwt, w_hook w HX509Hash b (Some jwt) = x509_hash_validate cert_of_der from_spki verifies (w_metadata w) b jwt roots) ->
    (forall b, w_hook w HX509Hash b None <> Ok tt) ->
    (forall b jwt, hook_log HX509Hash b (Some jwt) = hash_entries show_cert cert_of_der (w_metadata w) b jwt) ->
    snd (validate url_parse ssi_header uri_ok w r) = Ok a -> ro_scheme a = Some "x509_hash" ->
    exists own client_id hash der c,
      validate_log url_parse ssi_header uri_ok hook_log w r
      = own ++ [(Debug, "Leaf certificate: " +:+ show_cert c);
                (Debug, "x509_hash verification: expected='" +:+ hash +:+ "', computed='" +:+ hash +:+ "'")]
      /\ length own <= 2 /\ ro_client_id a = Some client_id /\ names "x509_hash" client_id hash
      /\ cert_of_der der = Some c /\ hash = b64url_encode (sha256 der).
Proof.
  intros up ssi uok sc cod vkey fs vv root roots hl w r a Hw Hn Hl V S.
  apply accepted_hook in V as (jwt & h & Hh & K & L). rewrite S in Hh.
  change (Some HX509Hash = Some h) in Hh. injection Hh as <-.
  destruct jwt as [jwt|]; [|now destruct (Hn a)]. rewrite Hw in K. destruct (L hl) as (own & -> & Lo). rewrite Hl.
  unfold x509_hash_validate in K. apply rbind_ok in K as (cid & Hc & K). cbv zeta in K.
  apply rbind_ok in K as ([[[[[h64 p64] s64] alg] der] c] & Lf & K). apply rbind_ok in K as (u & Q & _).
  assert (Ec : ro_client_id a = Some cid) by (destruct (ro_client_id a); [now injection Hc as ->|discriminate Hc]).
  apply of_bool_ok, String.eqb_eq in Q.
  exists own, cid, (b64url_encode (sha256 der)), der, c. split.
  { unfold hash_entries. rewrite Ec, Lf, <- Q. reflexivity. }
  split; [exact Lo|]. split; [exact Ec|]. split; [apply names_iff; symmetry; exact Q|]. split; [|reflexivity].
  apply leaf_iff in Lf as (x & _ & _ & _ & _ & _ & D). exact D.
Qed.
Definition hash_wm : wallet_metadata :=
  mk_wm [("client_id_prefixes_supported", jstrs ["x509_hash"]); ("request_object_signing_alg_values_supported", jstrs ["ES256"])]
    (mk_url "openid4vp" None "" true None None) [].
Definition hash_wallet : wallet :=
  mk_wallet hash_wm run_http
    (fun h a jwt => match h, jwt with
       | HX509Hash, Some j => x509_hash_validate toy_cert (p256_from_spki Some) toy_verifies hash_wm a j (None : option (list nat))
       | _, _ => Err "not supported" end).
Definition hash_run (key : string) : res aro :=
  let? a := aro_of_obj simple_parse (x509_request toy_hash_id) in
  snd (validate simple_parse any_header (fun _ => true) hash_wallet
    (mk_ar (Some toy_hash_id) (ByValue (make_jwt (x5c_header "ES256" [b64std_encode "K|v.example"]) a (toy_signer key))))).
Example c141_hash_ex :
  match hash_run "K" with Ok a => match ro_scheme a with Some s => String.eqb s "x509_hash" | None => false end | Err _ => false end = true
  /\ is_ok (hash_run "X") = false.
Proof. split; vm_compute; reflexivity. Qed.
