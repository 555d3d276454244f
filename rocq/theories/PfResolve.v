From Coq Require Import Lia.
From Verif Require Import Base BaseFacts Utf8 Json JsonFacts JsonText JsonTextFacts Serde MapFacts Base64 Base64Facts Url UrlEncoded Object Formats Params
  Metadata Dcql Effects Jwt Request Verify Client Spec SpecObject SpecRequest ParamFacts PfRequest.

Lemma http_app a b : http_events (a ++ b) = http_events a ++ http_events b.
Proof. apply flat_map_app. Qed.
Lemma hook_app a b : hook_events (a ++ b) = hook_events a ++ hook_events b.
Proof. apply flat_map_app. Qed.

(** One step of the trace monad. *)
Lemma mbind_ok {E A B} (m : M E A) (f : A -> M E B) b :
  snd (mbind m f) = Ok b <-> exists a, snd m = Ok a /\ snd (f a) = Ok b.
Proof.
  unfold mbind. destruct (snd m) as [a|e]; cbn; split; [eauto| |discriminate|]; intros (x & H & K); congruence.
Qed.
Lemma lift_bind {E A B} (r : res A) (f : A -> M E B) :
  mbind (lift r) f = match r with Ok a => f a | Err e => ([], Err e) end.
Proof. unfold mbind, lift. cbn. destruct r as [a|e]; [|reflexivity]. now destruct (f a). Qed.

Section Resolve.
Variable up : string -> option url.
Variable ssi : obj -> option bool.
Variable uri_ok : string -> bool.

Definition is_redirect (r : auth_request) : bool :=
  match ar_client_id r with Some c => starts_with "redirect_uri:" c | None => false end.

Lemma resolve_value http r jwt : ar_indirection r = ByValue jwt ->
  resolve_request up ssi uri_ok http r
  = ([], let? _ := validate_typ jwt (is_redirect r) in let? a := decode_aro up ssi jwt in Ok (a, Some jwt)).
Proof.
  intros E. unfold resolve_request. rewrite E. fold (is_redirect r). rewrite lift_bind.
  destruct (validate_typ jwt (is_redirect r)); cbn [rbind]; [|reflexivity]. rewrite lift_bind.
  destruct (decode_aro up ssi jwt); reflexivity.
Qed.
Lemma resolve_reference http r u : ar_indirection r = ByReference u ->
  resolve_request up ssi uri_ok http r
  = if uri_ok (url_str u) then
      ([EHttp (get_request u)],
       let? rs := http (get_request u) in
       let? _ := of_bool (utf8_valid (rs_body rs)) "not UTF-8" in
       let? _ := of_bool (is_success (rs_status rs)) "unsuccessful" in
       let? _ := validate_typ (rs_body rs) (is_redirect r) in
       let? a := decode_aro up ssi (rs_body rs) in Ok (a, Some (rs_body rs)))
    else ([], Err "failed to build request").
Proof.
  intros E. unfold resolve_request. rewrite E. fold (is_redirect r). rewrite lift_bind. unfold of_bool at 1.
  destruct (uri_ok (url_str u)); [|reflexivity]. unfold send, emit, mbind, lift. cbn [fst snd].
  destruct (http (get_request u)) as [rs|e]; cbn [fst snd rbind app]; [|reflexivity].
  destruct (utf8_valid (rs_body rs)); cbn [of_bool rbind fst snd app]; [|reflexivity].
  destruct (is_success (rs_status rs)); cbn [of_bool rbind fst snd app]; [|reflexivity].
  destruct (validate_typ (rs_body rs) (is_redirect r)); cbn [rbind fst snd app]; [|reflexivity].
  destruct (decode_aro up ssi (rs_body rs)); reflexivity.
Qed.
Lemma resolve_direct http r o : ar_indirection r = Direct o ->
  resolve_request up ssi uri_ok http r
  = ([], let? a := aro_of_obj up (match ar_client_id r with Some c => obj_insert "client_id" (JStr c) o | None => o end) in
         Ok (a, None)).
Proof.
  intros E. unfold resolve_request. rewrite E. rewrite lift_bind.
  replace (match ar_client_id r with Some c => uo_put p_client_id c o | None => o end)
    with (match ar_client_id r with Some c => obj_insert "client_id" (JStr c) o | None => o end)
    by (destruct (ar_client_id r); reflexivity).
  destruct (aro_of_obj up _); reflexivity.
Qed.

Lemma verify_trace w a jwt :
  verify_request w a jwt
  = match validate_against_metadata (w_metadata w) a with
    | Err e => ([], Err e)
    | Ok _ => match hook_for (ro_scheme a) with
              | None => ([], Err "'origin' is reserved")
              | Some h => ([EHook h a jwt], w_hook w h a jwt)
              end
    end.
Proof.
  unfold verify_request. rewrite lift_bind. destruct (validate_against_metadata _ a); [|reflexivity].
  destruct (hook_for (ro_scheme a)); reflexivity.
Qed.
Lemma verify_no_http w a jwt : http_events (fst (verify_request w a jwt)) = [].
Proof.
  rewrite verify_trace. destruct (validate_against_metadata _ a); [|reflexivity].
  destruct (hook_for (ro_scheme a)); reflexivity.
Qed.

(** What happens after resolution and verification. *)
Definition final_check (r : auth_request) (a : aro) : res aro :=
  let? inner := match aro_get p_client_id a with
                | None => Ok None
                | Some x => rmap Some (context x "'client_id' could not be parsed")
                end in
  match ar_client_id r, inner with
  | Some x, Some y => if String.eqb x y then Ok a else Err "different client ids"
  | _, _ => Ok a
  end.
Lemma validate_trace w r :
  validate up ssi uri_ok w r
  = let rr := resolve_request up ssi uri_ok (w_http w) r in
    match snd rr with
    | Err e => (fst rr, Err e)
    | Ok (a, jwt) =>
        (fst rr ++ fst (verify_request w a jwt),
         let? _ := snd (verify_request w a jwt) in final_check r a)
    end.
Proof.
  unfold validate. unfold mbind at 1. destruct (snd (resolve_request up ssi uri_ok (w_http w) r)) as [[a jwt]|e]; [|reflexivity].
  cbn [fst snd]. destruct (verify_request w a jwt) as [t [x|e]]; unfold mbind at 1 3; cbn [fst snd rbind]; [|reflexivity].
  unfold final_check. rewrite !lift_bind. destruct (match aro_get p_client_id a with Some _ => _ | None => _ end) as [i|e]; cbn [rbind fst snd].
  - destruct (ar_client_id r) as [x0|], i as [y|]; cbn; rewrite ?app_nil_r; try reflexivity.
    destruct (String.eqb x0 y); cbn; now rewrite app_nil_r.
  - now rewrite app_nil_r.
Qed.
End Resolve.

Definition get_events (uri_ok : string -> bool) (r : auth_request) : list http_req :=
  match ar_indirection r with
  | ByReference u => if uri_ok (url_str u) then [mk_req "GET" (url_str u) [("Prefer", "OID4VP-1.0.0")] EmptyString] else []
  | _ => []
  end.
Lemma resolve_http up ssi uri_ok http r :
  http_events (fst (resolve_request up ssi uri_ok http r)) = get_events uri_ok r.
Proof.
  unfold get_events. destruct (ar_indirection r) as [jwt|u|o] eqn:E.
  - now rewrite (resolve_value _ _ _ _ _ _ E).
  - rewrite (resolve_reference _ _ _ _ _ _ E). destruct (uri_ok (url_str u)); reflexivity.
  - now rewrite (resolve_direct _ _ _ _ _ _ E).
Qed.
Lemma resolve_hooks up ssi uri_ok http r : hook_events (fst (resolve_request up ssi uri_ok http r)) = [].
Proof.
  destruct (ar_indirection r) as [jwt|u|o] eqn:E.
  - now rewrite (resolve_value _ _ _ _ _ _ E).
  - rewrite (resolve_reference _ _ _ _ _ _ E). destruct (uri_ok (url_str u)); reflexivity.
  - now rewrite (resolve_direct _ _ _ _ _ _ E).
Qed.

(** C13: validating (and resolving) a request sends exactly one HTTP request, the GET of the request URI,
    when the request is by reference, and none otherwise, whatever the server, the wallet's metadata and
    its hooks do. *)
Lemma c13_traffic_pf :
  forall (url_parse : string -> option url) (ssi_header : obj -> option bool) (uri_ok : string -> bool)
    (w : wallet) (r : auth_request),
    let traffic :=
      match ar_indirection r with
      | ByReference u =>
          if uri_ok (url_str u)
          then [mk_req "GET" (url_str u) [("Prefer", "OID4VP-1.0.0")] EmptyString] else []
      | _ => []
      end in
    http_events (fst (validate url_parse ssi_header uri_ok w r)) = traffic
    /\ http_events (fst (resolve_request url_parse ssi_header uri_ok (w_http w) r)) = traffic.
Proof.
  intros up ssi uok w r traffic. split; [|apply resolve_http].
  rewrite validate_trace. cbn zeta. destruct (snd (resolve_request up ssi uok (w_http w) r)) as [[a jwt]|e]; cbn [fst].
  - now rewrite http_app, verify_no_http, app_nil_r, resolve_http.
  - apply resolve_http.
Qed.

(** A wallet that accepts everything, and one JWT, for the witnesses. *)
Definition any_header : obj -> option bool := fun _ => Some true.
Definition body_of (m : obj) : aro := mk_aro m None None DirectPost RtVpToken (mk_url "x" None "" true None None) "".
Definition jwt_of (h m : obj) : string :=
  make_jwt (JObj h) (body_of m) (mk_signer (key := unit) (Ok "ES256") (Ok tt) (fun _ => "sig")).
Definition typ_ok : obj := [("alg", JStr "ES256"); ("typ", JStr "oauth-authz-req+jwt")].
Definition lax_wallet (prefixes : list string) (http : http_client) : wallet :=
  mk_wallet (mk_wm [("client_id_prefixes_supported", jstrs prefixes)] (mk_url "openid4vp" None "" true None None) [])
    http (fun _ _ _ => Ok tt).
Definition sample_uri : url := mk_url "https" (Some "v.example") "/req" false None None.
Definition serve (status : N) (body : string) : http_client := fun _ => Ok (mk_resp status body).

Example c13_traffic_ex :
  let w := lax_wallet ["x509_san_dns"] (serve 200 (jwt_of typ_ok sample_request)) in
  let v := validate simple_parse any_header (fun _ => true) w
             (mk_ar (Some "x509_san_dns:v.example") (ByReference sample_uri)) in
  http_events (fst v) = [mk_req "GET" "https://v.example/req" [("Prefer", "OID4VP-1.0.0")] ""]
  /\ length (fst v) = 2 /\ is_ok (snd v) = true.
Proof. vm_compute. repeat split. Qed.

(* ------------------------------------------------------------ C14 *)
Lemma headers_of jwt h p s m : split_jws jwt = Ok (h, p, s) -> jws_headers h = Ok m -> protected_header jwt m.
Proof.
  unfold split_jws, jws_headers, map_of_text. destruct (split_once "." jwt) as [[x r]|] eqn:E; [|discriminate].
  destruct (split_once "." r) as [[y z]|]; [|discriminate]. intros H. injection H as -> _ _.
  intros H. apply rbind_ok in H as (b & Eb & H). apply ok_or_ok in Eb.
  destruct (json_of_text b) as [[| | | | | |mm]|] eqn:Ej; try discriminate. injection H as ->.
  apply split_once_some in E as [-> N]. exists h, r, b. auto.
Qed.
Lemma typ_strict jwt u : validate_typ jwt false = Ok u ->
  exists m, protected_header jwt m /\ obj_get "typ" m = Some (JStr "oauth-authz-req+jwt").
Proof.
  unfold validate_typ. intros H. apply rbind_ok in H as ([[h p] s] & Es & H).
  apply rbind_ok in H as (m & Em & H). exists m. split; [eapply headers_of; eauto|].
  destruct (obj_get "typ" m) as [v|]; [|discriminate].
  destruct (as_str v) as [t|] eqn:E; cbn in H; [|discriminate].
  destruct v; try discriminate. injection E as ->.
  unfold REQUEST_OBJECT_TYP in H. destruct (String.eqb_spec t "oauth-authz-req+jwt") as [Et|]; [now rewrite Et|discriminate].
Qed.
Lemma resolve_jwt up ssi uok http r a jwt :
  snd (resolve_request up ssi uok http r) = Ok (a, Some jwt) ->
  validate_typ jwt (is_redirect r) = Ok tt /\ decode_aro up ssi jwt = Ok a.
Proof.
  destruct (ar_indirection r) as [j|u|o] eqn:E.
  - rewrite (resolve_value _ _ _ _ _ _ E). cbn [snd]. intros H. apply rbind_ok in H as ([] & H1 & H).
    apply rbind_ok in H as (b & H2 & H). injection H as <- <-. auto.
  - rewrite (resolve_reference _ _ _ _ _ _ E). destruct (uok (url_str u)); [|discriminate]. cbn [snd].
    intros H. apply rbind_ok in H as (rs & _ & H). apply rbind_ok in H as (? & _ & H). apply rbind_ok in H as (? & _ & H).
    apply rbind_ok in H as ([] & H1 & H). apply rbind_ok in H as (b & H2 & H). injection H as <- <-. auto.
  - rewrite (resolve_direct _ _ _ _ _ _ E). cbn [snd]. intros H. apply rbind_ok in H as (b & _ & H). discriminate.
Qed.

(** C14: unless the outer client_id is a redirect_uri identifier, a JWT is only resolved if its protected
    header says typ = oauth-authz-req+jwt. *)
Lemma c14_typ_pf :
  forall (url_parse : string -> option url) (ssi_header : obj -> option bool) (uri_ok : string -> bool)
    (http : http_client) (r : auth_request) (a : aro) (jwt : string),
    (forall rest, ar_client_id r <> Some ("redirect_uri:" +:+ rest)) ->
    snd (resolve_request url_parse ssi_header uri_ok http r) = Ok (a, Some jwt) ->
    exists h, protected_header jwt h /\ obj_get "typ" h = Some (JStr "oauth-authz-req+jwt").
Proof.
  intros up ssi uok http r a jwt N H. apply resolve_jwt in H as [H _].
  assert (E : is_redirect r = false).
  { unfold is_redirect. destruct (ar_client_id r) as [c|]; [|reflexivity].
    destruct (starts_with "redirect_uri:" c) eqn:E; [|reflexivity]. apply starts_with_iff in E as [x ->].
    exfalso. now apply (N x). }
  rewrite E in H. now apply typ_strict in H.
Qed.

Example c14_typ_ex :
  is_ok (snd (resolve_request simple_parse any_header (fun _ => true) (serve 200 "")
    (mk_ar (Some "x509_san_dns:v.example") (ByValue (jwt_of typ_ok sample_request))))) = true
  /\ snd (resolve_request simple_parse any_header (fun _ => true) (serve 200 "")
    (mk_ar (Some "x509_san_dns:v.example") (ByValue (jwt_of [("alg", JStr "ES256"); ("typ", JStr "JWT")] sample_request))))
    = Err "wrong typ".
Proof. split; vm_compute; reflexivity. Qed.

Lemma jwt_of_header h m : jwf (JObj h) = true -> Nat.leb (jdepth (JObj h)) 127 = true -> protected_header (jwt_of h m) h.
Proof.
  intros W D. apply Nat.leb_le in D. unfold jwt_of, make_jwt.
  eexists. eexists. exists (jprint (JObj h)). split; [reflexivity|]. split; [apply b64url_no_dot|].
  split; [apply b64_rt|]. now apply json_text_rt.
Qed.

(** C14: with an outer redirect_uri client_id, a JWT without the right typ is validated, although the request
    object does not name a redirect_uri client (it goes to the pre-registered hook). *)
Lemma c14_bypass_refuted_pf :
  exists w r a h jwt, ar_indirection r = ByValue jwt /\ protected_header jwt h /\ obj_get "typ" h = Some (JStr "JWT")
    /\ snd (validate simple_parse any_header (fun _ => true) w r) = Ok a /\ ro_scheme a = None
    /\ map (fun e => fst (fst e)) (hook_events (fst (validate simple_parse any_header (fun _ => true) w r))) = [HPreregistered].
Proof.
  set (m := obj_remove "client_id" sample_request).
  set (h := [("alg", JStr "ES256"); ("typ", JStr "JWT")]).
  exists (lax_wallet [] (serve 404 "")), (mk_ar (Some "redirect_uri:x") (ByValue (jwt_of h m))).
  eexists. exists h, (jwt_of h m). split; [reflexivity|]. split.
  - apply jwt_of_header; vm_compute; reflexivity.
  - split; [reflexivity|]. split; [vm_compute; reflexivity|]. split; vm_compute; reflexivity.
Qed.

(* ------------------------------------------------------------ C15 *)
(** C15: a request by reference is only resolved from a 2xx answer with a UTF-8 body, and the JWT is that
    body; in every other case validation fails without running a hook. *)
Lemma c15_body_pf :
  forall (url_parse : string -> option url) (ssi_header : obj -> option bool) (uri_ok : string -> bool)
    (w : wallet) (r : auth_request) (u : url),
    ar_indirection r = ByReference u ->
    (forall a jwt, snd (resolve_request url_parse ssi_header uri_ok (w_http w) r) = Ok (a, jwt) ->
       exists rs, w_http w (mk_req "GET" (url_str u) [("Prefer", "OID4VP-1.0.0")] EmptyString) = Ok rs
         /\ (200 <= rs_status rs < 300)%N /\ utf8_valid (rs_body rs) = true /\ jwt = Some (rs_body rs))
    /\ (forall e, snd (resolve_request url_parse ssi_header uri_ok (w_http w) r) = Err e ->
         snd (validate url_parse ssi_header uri_ok w r) = Err e
         /\ hook_events (fst (validate url_parse ssi_header uri_ok w r)) = []).
Proof.
  intros up ssi uok w r u E. split.
  - intros a jwt. rewrite (resolve_reference _ _ _ _ _ _ E). destruct (uok (url_str u)); [|discriminate]. cbn [snd].
    intros H. apply rbind_ok in H as (rs & H1 & H). apply rbind_ok in H as (? & H2 & H). apply rbind_ok in H as (? & H3 & H).
    apply rbind_ok in H as (? & _ & H). apply rbind_ok in H as (b & _ & H). injection H as <- <-.
    apply of_bool_ok in H2, H3. exists rs. split; [exact H1|]. split; [|auto].
    unfold is_success in H3. apply andb_true_iff in H3 as [A B]. apply N.leb_le in A. apply N.ltb_lt in B. lia.
  - intros e H. rewrite validate_trace. cbn zeta. rewrite H. cbn [fst snd]. split; [reflexivity|apply resolve_hooks].
Qed.

Example c15_body_ex :
  let r := mk_ar (Some "x509_san_dns:v.example") (ByReference sample_uri) in
  let j := jwt_of typ_ok sample_request in
  let go s b := snd (resolve_request simple_parse any_header (fun _ => true) (serve s b) r) in
  is_ok (go 200%N j) = true /\ is_ok (go 299%N j) = true /\ go 300%N j = Err "unsuccessful"
  /\ go 199%N j = Err "unsuccessful" /\ go 200%N (String "255" "") = Err "not UTF-8".
Proof. vm_compute. repeat split. Qed.

(* ------------------------------------------------------------ C16 *)
Lemma validate_ok up ssi uok w r a : snd (validate up ssi uok w r) = Ok a ->
  exists jwt, snd (resolve_request up ssi uok (w_http w) r) = Ok (a, jwt)
    /\ snd (verify_request w a jwt) = Ok tt /\ final_check r a = Ok a.
Proof.
  rewrite validate_trace. cbn zeta. destruct (snd (resolve_request up ssi uok (w_http w) r)) as [[b jwt]|e]; [|discriminate].
  cbn [snd]. intros H. apply rbind_ok in H as ([] & H1 & H2).
  assert (b = a).
  { unfold final_check in H2. apply rbind_ok in H2 as (i & _ & H2). destruct (ar_client_id r), i; try (now injection H2).
    destruct (String.eqb s s0); [now injection H2|discriminate]. }
  subst b. eauto.
Qed.

(** C16: a validated request has equal outer and inner client identifiers whenever both are present. *)
Lemma c16_client_ids_pf :
  forall (url_parse : string -> option url) (ssi_header : obj -> option bool) (uri_ok : string -> bool)
    (w : wallet) (r : auth_request) (a : aro) (outer : string),
    snd (validate url_parse ssi_header uri_ok w r) = Ok a ->
    ar_client_id r = Some outer ->
    text_at "client_id" (aro_to_obj a) outer /\ ro_client_id a = Some outer
    \/ absent "client_id" (aro_to_obj a) /\ ro_client_id a = None.
Proof.
  intros up ssi uok w r a c H Ec. apply validate_ok in H as (jwt & H & _ & F).
  assert (exists o, aro_of_obj up o = Ok a) as [o Ho].
  { destruct jwt as [jwt|].
    - apply resolve_jwt in H as [_ H]. unfold decode_aro in H. apply rbind_ok in H as (o & _ & H). eauto.
    - destruct (ar_indirection r) as [j|u|o] eqn:E.
      + rewrite (resolve_value _ _ _ _ _ _ E) in H. cbn [snd] in H. apply rbind_ok in H as (? & _ & H).
        apply rbind_ok in H as (? & _ & H). discriminate.
      + rewrite (resolve_reference _ _ _ _ _ _ E) in H. destruct (uok (url_str u)); [|discriminate]. cbn [snd] in H.
        repeat (apply rbind_ok in H as (? & _ & H)). discriminate.
      + rewrite (resolve_direct _ _ _ _ _ _ E) in H. cbn [snd] in H. apply rbind_ok in H as (x & H & H').
        injection H' as ->. eauto. }
  apply aro_of_inv in Ho as [Hi Hcl _ _ _ _ _ _]. unfold aro_to_obj. rewrite Hi.
  unfold final_check in F. rewrite Ec in F. unfold aro_get, uo_get in F. cbn [tp_key tp_of p_client_id p_string] in F.
  rewrite Hi in F. unfold text_at, absent in *. destruct (ro_client_id a) as [i|].
  - rewrite Hcl in F. cbn in F. destruct (String.eqb_spec c i) as [->|]; [|discriminate]. auto.
  - auto.
Qed.

Example c16_client_ids_ex :
  let w := lax_wallet ["x509_san_dns"] (serve 404 "") in
  let j := jwt_of typ_ok sample_request in
  is_ok (snd (validate simple_parse any_header (fun _ => true) w (mk_ar (Some "x509_san_dns:v.example") (ByValue j)))) = true
  /\ snd (validate simple_parse any_header (fun _ => true) w (mk_ar (Some "x509_san_dns:other") (ByValue j))) = Err "different client ids".
Proof. split; vm_compute; reflexivity. Qed.

(** C16: the comparison happens after verification: a hook already ran for a request whose identifiers
    disagree. *)
Lemma c16_late_refuted_pf :
  exists w r, snd (validate simple_parse any_header (fun _ => true) w r) = Err "different client ids"
    /\ length (hook_events (fst (validate simple_parse any_header (fun _ => true) w r))) = 1.
Proof.
  exists (lax_wallet ["x509_san_dns"] (serve 404 "")),
    (mk_ar (Some "x509_san_dns:other") (ByValue (jwt_of typ_ok sample_request))).
  split; vm_compute; reflexivity.
Qed.

(** C16: a request object without client_id is validated whatever the outer client_id is; the hook of the
    outer identifier's prefix does not run, the pre-registered one does. *)
Lemma c16_missing_inner_refuted_pf :
  exists w r a, ar_client_id r = Some "x509_san_dns:bank.example"
    /\ snd (validate simple_parse any_header (fun _ => true) w r) = Ok a
    /\ map (fun e => fst (fst e)) (hook_events (fst (validate simple_parse any_header (fun _ => true) w r))) = [HPreregistered].
Proof.
  exists (lax_wallet [] (serve 404 "")),
    (mk_ar (Some "x509_san_dns:bank.example") (ByValue (jwt_of typ_ok (obj_remove "client_id" sample_request)))).
  eexists. split; [reflexivity|]. split; vm_compute; reflexivity.
Qed.

(* ------------------------------------------------------------ C17 *)
(** C17: a request given directly: the object has the outer client_id (if there is one) and otherwise the
    given parameters; no JWT is passed to the hook. *)
Lemma c17_direct_pf :
  forall (url_parse : string -> option url) (ssi_header : obj -> option bool) (uri_ok : string -> bool)
    (http : http_client) (r : auth_request) (o : obj) (a : aro) (jwt : option string),
    ar_indirection r = Direct o ->
    snd (resolve_request url_parse ssi_header uri_ok http r) = Ok (a, jwt) ->
    jwt = None
    /\ (forall c, ar_client_id r = Some c -> ro_client_id a = Some c /\ text_at "client_id" (aro_to_obj a) c)
    /\ (ar_client_id r = None -> aro_to_obj a = o)
    /\ (forall k, k <> "client_id" -> obj_get k (aro_to_obj a) = obj_get k o).
Proof.
  intros up ssi uok http r o a jwt E H. rewrite (resolve_direct _ _ _ _ _ _ E) in H. cbn [snd] in H.
  apply rbind_ok in H as (b & H & H'). injection H' as -> <-. apply aro_of_inv in H as [Hi Hcl _ _ _ _ _ _].
  unfold aro_to_obj. rewrite Hi. split; [reflexivity|]. split; [|split].
  - intros c Ec. rewrite Ec in Hcl |- *. unfold text_at, absent in *. rewrite obj_get_insert_eq in Hcl |- *.
    split; [|reflexivity]. destruct (ro_client_id a); congruence.
  - intros Ec. now rewrite Ec.
  - intros k N. destruct (ar_client_id r); [|reflexivity]. now apply obj_get_insert_neq.
Qed.

Example c17_direct_ex :
  is_ok (snd (resolve_request simple_parse any_header (fun _ => true) (serve 404 "")
     (mk_ar (Some "c") (Direct (obj_remove "client_id" sample_request))))) = true.
Proof. vm_compute. reflexivity. Qed.

(* ------------------------------------------------------------ C69 *)
Lemma denotes_text up l r o : denotes up l r -> ar_indirection r = Direct o ->
  forall k v, obj_get k o = Some v -> exists s, v = JStr s.
Proof. intros [_ H] E. rewrite E in H. destruct H as (_ & _ & _ & G). intros k v X. apply G in X as (_ & s & -> & _). eauto. Qed.

(** C69: a request whose parameters are given directly in a query string can never convey client metadata or
    a DCQL query: every member of the resolved object is text. So in an encrypted response mode it never
    passes validation. *)
Lemma c69_direct_text_pf :
  forall (url_parse : string -> option url) (ssi_header : obj -> option bool) (uri_ok : string -> bool)
    (w : wallet) (query : string) (r : auth_request) (o : obj),
    from_query_params url_parse query = Ok r -> ar_indirection r = Direct o ->
    (forall a jwt, snd (resolve_request url_parse ssi_header uri_ok (w_http w) r) = Ok (a, jwt) ->
       (forall q, aro_dcql a <> Some (Ok q))
       /\ (forall m, aro_client_metadata a <> Ok m)
       /\ (forall k v, obj_get k (aro_to_obj a) = Some v -> exists s, v = JStr s))
    /\ (forall a, snd (validate url_parse ssi_header uri_ok w r) = Ok a -> ro_mode a = DirectPost \/ ro_mode a = DcApi).
Proof.
  intros up ssi uok w query r o Hq Ed.
  assert (T : forall k v, obj_get k o = Some v -> exists s, v = JStr s).
  { eapply denotes_text; [|exact Ed]. apply (c10_classification_pf up query). exact Hq. }
  assert (R : forall a jwt, snd (resolve_request up ssi uok (w_http w) r) = Ok (a, jwt) ->
     forall k v, obj_get k (aro_to_obj a) = Some v -> exists s, v = JStr s).
  { intros a jwt H k v G. destruct (c17_direct_pf _ _ _ _ _ _ _ _ Ed H) as (_ & C & N & K).
    destruct (String.eqb_spec k "client_id") as [->|D]; [|rewrite K in G by exact D; eauto].
    destruct (ar_client_id r) as [c|]; [|rewrite N in G by reflexivity; eauto].
    destruct (C c eq_refl) as [_ G']. unfold text_at in G'. rewrite G' in G. injection G as <-. eauto. }
  split.
  - intros a jwt H. split; [|split; [|exact (R _ _ H)]].
    + intros q. unfold aro_dcql, aro_get, uo_get. cbn [tp_key tp_of p_dcql]. change (ro_inner a) with (aro_to_obj a).
      destruct (obj_get "dcql_query" (aro_to_obj a)) as [v|] eqn:G; [|discriminate].
      destruct (R _ _ H _ _ G) as [s ->]. discriminate.
    + intros m. unfold aro_client_metadata, aro_get, uo_get. cbn [tp_key tp_of p_client_metadata]. change (ro_inner a) with (aro_to_obj a).
      destruct (obj_get "client_metadata" (aro_to_obj a)) as [v|] eqn:G; [|discriminate].
      destruct (R _ _ H _ _ G) as [s ->]. discriminate.
  - intros a H. apply validate_ok in H as (jwt & H & V & _). pose proof (R _ _ H) as RR.
    rewrite verify_trace in V. destruct (validate_against_metadata (w_metadata w) a) as [x|] eqn:VM; [|discriminate]. clear V.
    unfold validate_against_metadata in VM. apply rbind_ok in VM as (? & _ & VM). apply rbind_ok in VM as (cm & Ecm & VM).
    apply rbind_ok in VM as (mode & Em & VM). apply rbind_ok in VM as (j & Ej & VM).
    assert (Hm : ro_mode a = mode).
    { rewrite (resolve_direct _ _ _ _ _ _ Ed) in H. cbn [snd] in H. apply rbind_ok in H as (b & H & H').
      injection H' as -> <-. apply aro_of_inv in H as [Hi _ _ Hm _ _ _ _]. unfold aro_get, uo_get in Em. rewrite Hi in Em.
      cbn [tp_key tp_of p_response_mode] in Em. destruct Hm as [[A _]|(s & A & ->)]; unfold absent, text_at in A; rewrite A in Em; cbn in Em.
      - discriminate.
      - injection Em as <-. reflexivity. }
    assert (Hcm : cm = []).
    { unfold resolve_client_metadata, aro_get, uo_get in Ecm. cbn [tp_key tp_of p_client_metadata] in Ecm. change (ro_inner a) with (aro_to_obj a) in Ecm.
      destruct (obj_get "client_metadata" (aro_to_obj a)) as [v|] eqn:G; [|now injection Ecm].
      destruct (RR _ _ G) as [s ->]. discriminate. }
    rewrite Hm. subst cm. destruct mode; cbn in Ej; try (injection Ej as <-); try discriminate; auto.
Qed.

Example c69_direct_text_ex :
  exists r o, from_query_params simple_parse
      "client_id=c&nonce=n&response_type=vp_token&response_uri=https%3A%2F%2Fv.example%2F&response_mode=direct_post&dcql_query=%7B%22credentials%22%3A%5B%5D%7D" = Ok r
  /\ ar_indirection r = Direct o
  /\ obj_get "dcql_query" o = Some (JStr "{""credentials"":[]}")
  /\ is_ok (snd (validate simple_parse any_header (fun _ => true) (lax_wallet [] (serve 404 "")) r)) = true.
Proof. eexists. eexists. split; [vm_compute; reflexivity|]. split; [reflexivity|]. split; vm_compute; reflexivity. Qed.
