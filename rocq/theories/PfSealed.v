From Coq Require Import Lia ZArith.
From Verif Require Import Base BaseFacts Utf8 Utf8Facts Json JsonFacts JsonText JsonTextFacts Base64 Base64Facts Sha256 Serde Url UrlEncoded UrlEncodedFacts
  Object Formats Params Metadata Dcql Effects Jwt Request Response Session X509 SpecCert CertFacts Client Builder Server Jwe ExMatcher ExWallet ExVerifier.
From Verif Require Import Verify Wallet SpecWallet PfWallet MapFacts Spec SpecObject SpecRequest PfRequest PfResolve SpecResponse PfResponse SpecJwe PfJwe SpecBuilder SpecSession StoreFacts
  PfBuilder UuidFacts PfSession PfServer PfClient SpecExample PfExample PfInterop ExWeb SpecHttp PfHttp.

Lemma res_dec (x y : res string) : x = y \/ x <> y.
Proof. destruct x as [a|a], y as [b|b]; try (right; discriminate); destruct (string_dec a b); subst; auto; right; congruence. Qed.

Lemma bind_to {E A B} (m : M E A) (f : A -> M E B) x : snd m = Ok x -> mbind m f = (fst m ++ fst (f x), snd (f x)).
Proof. intros H. unfold mbind. now rewrite H. Qed.

(** Building a JWE for a request: either it fails whatever is to be said, or the header and the key do not depend on what is said. *)
Lemma example_seal jok enc a :
  (exists e, forall vp st, encrypted_answer jok enc a vp st = Err e)
  \/ exists h k, forall vp st, encrypted_answer jok enc a vp st = enc h (response_payload vp st) k.
Proof.
  unfold encrypted_answer. destruct (verifier_key jok a) as [[jwk alg kid]|e]; [|left; exists e; reflexivity]. cbn [rbind ki_alg ki_kid ki_jwk].
  unfold jb_set_key_json. destruct (jwk_of_text jok (jprint (JObj jwk))) as [key|e]; [|left; exists e; reflexivity]. cbn [rbind].
  unfold jwe_build.
  destruct (String.eqb alg "ECDH-ES") eqn:Ea.
  - right. exists (jwe_header alg DEFAULT_ENC (match kid with Some k => Some k | None => key_str "kid" key end)), key. intros vp st.
    pose proof (proj2 (claims_iff _) (payload_types vp st)) as T.
    destruct kid as [k|]; cbn [jb_payload jb_key jb_alg jb_enc jb_kid jb_set_kid jb_set_enc jb_set_alg jb_set_key jb_set_payload jb_new ok_or rbind];
      rewrite Ea; cbn [of_bool rbind]; rewrite T; cbn [of_bool rbind]; reflexivity.
  - left. exists "unsupported algorithm". intros vp st.
    destruct kid as [k|]; cbn [jb_payload jb_key jb_alg jb_enc jb_kid jb_set_kid jb_set_enc jb_set_alg jb_set_key jb_set_payload jb_new ok_or rbind];
      rewrite Ea; reflexivity.
Qed.
Lemma library_seal jok enc a :
  (exists e, forall vp st, build_encrypted_response jok enc a vp st = Err e)
  \/ exists h k, forall vp st, build_encrypted_response jok enc a vp st = (let? j := enc h (response_payload vp st) k in Ok (Jwt j)).
Proof.
  unfold build_encrypted_response. destruct (resolve_client_metadata a) as [cm|e]; [|left; exists e; reflexivity]. cbn [rbind].
  destruct (parsing_error (cm_jwks cm)) as [keys|e]; [|left; exists e; reflexivity]. cbn [rbind].
  destruct (find_encryption_jwk jok keys) as [[jwk alg kid]|e]; [|left; exists e; reflexivity]. cbn [rbind ki_alg ki_kid ki_jwk].
  destruct (cm_encs cm) as [encs|e]; [|left; exists e; reflexivity]. cbn [rbind].
  unfold jb_set_key_json. destruct (jwk_of_text jok (jprint (JObj jwk))) as [key|e]; [|left; exists e; reflexivity]. cbn [rbind].
  unfold jwe_build.
  destruct (String.eqb alg "ECDH-ES") eqn:Ea.
  - right. exists (jwe_header alg (match encs with e :: _ => e | [] => DEFAULT_ENC end) (match kid with Some k => Some k | None => key_str "kid" key end)), key. intros vp st.
    pose proof (proj2 (claims_iff _) (payload_types vp st)) as T.
    destruct kid as [k|]; cbn [jb_payload jb_key jb_alg jb_enc jb_kid jb_set_kid jb_set_enc jb_set_alg jb_set_key jb_set_payload jb_new ok_or rbind];
      rewrite Ea; cbn [of_bool rbind]; rewrite T; cbn [of_bool rbind]; reflexivity.
  - left. exists "unsupported algorithm". intros vp st.
    destruct kid as [k|]; cbn [jb_payload jb_key jb_alg jb_enc jb_kid jb_set_kid jb_set_enc jb_set_alg jb_set_key jb_set_payload jb_new ok_or rbind];
      rewrite Ea; reflexivity.
Qed.

(** C132: what an encrypted answer shows on the network: for a request that asks for an encrypted answer there are a JWE header and a key such that,
    whatever two wallets hold, sign with and take for the time, all their traffic (every request with its address, headers and body, in order)
    is the same, and if they answer also the outcome, unless only one of them answers or someone has told two JWEs made with that header
    and key apart. The network and the verifier may react to what they see as they like. *)
Lemma c132_example_pf :
  forall (url_parse : string -> option url) (ssi_header : obj -> option bool) (uri_ok : string -> bool)
    (jwk_ok : obj -> bool) (jwe_encrypt : obj -> obj -> obj -> res string) (lower : string -> string)
    (http : http_client) (endpoint : url) (p : params) (ar : auth_request) (a : aro) (jwt : option string),
    from_url url_parse (build_request_url endpoint p) endpoint = Ok ar ->
    snd (resolve_request url_parse ssi_header uri_ok http ar) = Ok (a, jwt) ->
    ro_mode a = DirectPostJwt ->
    exists header key, forall (sign sign' : string -> string) (now now' : Z) (store store' : list credential) (auto auto' : bool),
      let run := authorize url_parse ssi_header uri_ok jwk_ok jwe_encrypt lower sign now http endpoint store auto p in
      let run' := authorize url_parse ssi_header uri_ok jwk_ok jwe_encrypt lower sign' now' http endpoint store' auto' p in
      (fst run = fst run' /\ (posts (http_events (fst run)) <> [] -> run = run'))
      \/ (posts (http_events (fst run)) = [] <-> posts (http_events (fst run')) <> [])
      \/ exists vp vp' state claims claims', claims_of claims vp state /\ claims_of claims' vp' state
           /\ jwe_encrypt header claims key <> jwe_encrypt header claims' key.
Proof.
  intros up sh uo jo enc lower http ep p ar a j F R Em.
  destruct (example_seal jo enc a) as [(e & X)|(h & k & X)].
  - exists [], []. intros sign sign' now now' st st' au au'. cbn zeta. left.
    assert (Y : forall sign now st au, fst (authorize up sh uo jo enc lower sign now http ep st au p) = fst (resolve_request up sh uo http ar)).
    { clear - F R X Em. intros sign now st au. unfold authorize. rewrite lift_bind, F, mbind_fst, R. 
      rewrite lift_bind. destruct (match aro_dcql a with Some r => _ | None => _ end); [|apply app_nil_r].
      rewrite lift_bind. destruct (process_request lower st au a); [|apply app_nil_r].
      rewrite lift_bind. destruct (of_bool _ _); [|apply app_nil_r]. rewrite Em, lift_bind, X. apply app_nil_r. }
    rewrite !Y. split; [reflexivity|]. intros Z. exfalso. apply Z. apply posts_resolve.
  - exists h, k. intros sign sign' now now' st st' au au'. cbn zeta.
    pose (go := fun c => mbind (lift (enc h c k)) (fun jwe => deliver up http (ro_return a) (form_serialize [("response", jwe)]))).
    assert (Y : forall sign now st au,
      fst (authorize up sh uo jo enc lower sign now http ep st au p) = fst (resolve_request up sh uo http ar)
      \/ exists vp, NoDup (map fst vp)
         /\ authorize up sh uo jo enc lower sign now http ep st au p
           = (fst (resolve_request up sh uo http ar) ++ fst (go (response_payload vp (match aro_state a with Some (Ok s) => Some s | _ => pa_state p end))),
              snd (go (response_payload vp (match aro_state a with Some (Ok s) => Some s | _ => pa_state p end))))).
    { clear sign sign' now now' st st' au au'. intros sign now st au. unfold authorize. rewrite lift_bind, F.
      rewrite (bind_to _ _ _ R). cbn [fst].
      rewrite lift_bind. destruct (match aro_dcql a with Some r => _ | None => _ end); [|left; apply app_nil_r].
      rewrite lift_bind. destruct (process_request lower st au a) as [sel|] eqn:Ep; [|left; apply app_nil_r].
      rewrite lift_bind. destruct (of_bool _ _); [|left; apply app_nil_r]. rewrite Em, X. right.
      eexists. split; [|reflexivity]. apply token_nodup. unfold process_request in Ep.
      apply rbind_ok in Ep as (? & _ & Ep). apply rbind_ok in Ep as (q & _ & Ep). apply c67_sound_pf in Ep. apply Ep. }
    pose proof (posts_resolve up sh uo http ar) as P0.
    assert (P1 : forall c, fst (resolve_request up sh uo http ar) ++ fst (go c) = fst (resolve_request up sh uo http ar)
                        \/ posts (http_events (fst (resolve_request up sh uo http ar) ++ fst (go c))) <> []).
    { intros c. unfold go. rewrite lift_bind. destruct (enc h c k); [right|left; apply app_nil_r]. rewrite http_app, posts_app, P0, posts_deliver. discriminate. }
    set (s0 := match aro_state a with Some (Ok s) => Some s | _ => pa_state p end) in *.
    destruct (Y sign now st au) as [E|(vp & N1 & E)], (Y sign' now' st' au') as [E'|(vp' & N2 & E')].
    + left. rewrite E, E'. split; [reflexivity|]. intros Z. exfalso. rewrite P0 in Z. apply Z. reflexivity.
    + rewrite E, E'. cbn [fst]. destruct (P1 (response_payload vp' s0)) as [Q|Q].
      * left. rewrite Q. split; [reflexivity|]. intros Z. exfalso. rewrite P0 in Z. apply Z. reflexivity.
      * right. left. rewrite P0. split; [intros _; exact Q|reflexivity].
    + rewrite E, E'. cbn [fst]. destruct (P1 (response_payload vp s0)) as [Q|Q].
      * left. rewrite Q. split; [reflexivity|]. intros Z. exfalso. rewrite P0 in Z. apply Z. reflexivity.
      * right. left. rewrite P0. split; [intros Z; now contradiction Q|intros Z; now contradiction Z].
    + destruct (res_dec (enc h (response_payload vp s0) k) (enc h (response_payload vp' s0) k)) as [D|D].
      * left. rewrite E, E'. unfold go. rewrite D. split; reflexivity.
      * right. right. exists vp, vp', s0, (response_payload vp s0), (response_payload vp' s0).
        split; [now apply payload_is|]. split; [now apply payload_is|exact D].
Qed.

(** C132: and so for a wallet made with the library: for every request object there are a header and a key such that any two answers encrypted and
    submitted by the library make the same traffic, with the same result, unless someone has told two JWEs made with them apart. *)
Lemma c132_library_pf :
  forall (url_parse : string -> option url) (uri_ok : string -> bool) (jwk_ok : obj -> bool) (jwe_encrypt : obj -> obj -> obj -> res string)
    (http : http_client) (a : aro),
    exists header key, forall (vp vp' : vp_token) (state state' : option string), NoDup (map fst vp) -> NoDup (map fst vp') ->
      let run t s := match build_encrypted_response jwk_ok jwe_encrypt a t s with
                     | Ok r => submit_response url_parse uri_ok http a r
                     | Err e => ([], Err e)
                     end in
      run vp state = run vp' state'
      \/ exists claims claims', claims_of claims vp state /\ claims_of claims' vp' state'
           /\ jwe_encrypt header claims key <> jwe_encrypt header claims' key.
Proof.
  intros up uo jo enc http a. destruct (library_seal jo enc a) as [(e & X)|(h & k & X)].
  - exists [], []. intros vp vp' st st' _ _. cbn zeta. left. now rewrite !X.
  - exists h, k. intros vp vp' st st' N1 N2. cbv beta zeta. rewrite !X.
    destruct (res_dec (enc h (response_payload vp st) k) (enc h (response_payload vp' st') k)) as [D|D].
    + left. now rewrite D.
    + right. exists (response_payload vp st), (response_payload vp' st'). split; [now apply payload_is|]. split; [now apply payload_is|exact D].
Qed.

(** C132: wallets whose credentials look alike from outside always do the same, answering or not, but for such JWEs. *)
Lemma c132_alike_pf :
  forall (url_parse : string -> option url) (ssi_header : obj -> option bool) (uri_ok : string -> bool)
    (jwk_ok : obj -> bool) (jwe_encrypt : obj -> obj -> obj -> res string) (lower : string -> string)
    (http : http_client) (endpoint : url) (p : params) (ar : auth_request) (a : aro) (jwt : option string) (auto : bool),
    from_url url_parse (build_request_url endpoint p) endpoint = Ok ar ->
    snd (resolve_request url_parse ssi_header uri_ok http ar) = Ok (a, jwt) ->
    ro_mode a = DirectPostJwt ->
    exists header key, forall (sign sign' : string -> string) (now now' : Z) (store store' : list credential),
      Forall2 same_outside store store' ->
      authorize url_parse ssi_header uri_ok jwk_ok jwe_encrypt lower sign now http endpoint store auto p
      = authorize url_parse ssi_header uri_ok jwk_ok jwe_encrypt lower sign' now' http endpoint store' auto p
      \/ exists vp vp' state claims claims', claims_of claims vp state /\ claims_of claims' vp' state
           /\ jwe_encrypt header claims key <> jwe_encrypt header claims' key.
Proof.
  intros up sh uo jo enc lower http ep p ar a j au F R Em.
  assert (W : exists h k, (forall vp st, encrypted_answer jo enc a vp st = enc h (response_payload vp st) k) \/ (exists e, forall vp st, encrypted_answer jo enc a vp st = Err e)).
  { destruct (example_seal jo enc a) as [(e & X)|(h & k & X)]; [exists [], []; right; eauto|exists h, k; left; exact X]. }
  destruct W as (h & k & X). exists h, k. intros sign sign' now now' st st' S.
  unfold authorize. rewrite !lift_bind, F, !(bind_to _ _ _ R), !lift_bind.
  destruct (match aro_dcql a with Some r => _ | None => _ end); [|left; reflexivity]. rewrite ?lift_bind.
  pose proof (engine_same lower st st' au a S) as E.
  destruct (process_request lower st au a) as [s|e] eqn:Es, (process_request lower st' au a) as [s'|e'] eqn:Es'; try contradiction; [|left; now rewrite E].
  rewrite ?lift_bind. destruct (of_bool _ _); [|left; reflexivity]. rewrite Em, ?lift_bind.
  set (s0 := match aro_state a with Some (Ok _) => _ | _ => _ end).
  assert (Nd : forall st s sign now au x, process_request lower st au a = Ok s -> NoDup (map fst (build_vp_token sign now s (ro_nonce a) x))).
  { clear. intros st s sign now au x Ep. apply token_nodup. unfold process_request in Ep.
    apply rbind_ok in Ep as (? & _ & Ep). apply rbind_ok in Ep as (q & _ & Ep). apply c67_sound_pf in Ep. apply Ep. }
  set (c0 := match ro_client_id a with Some c => c | None => _ end).
  pose proof (Nd st s sign now au c0 Es) as N1. pose proof (Nd st' s' sign' now' au c0 Es') as N2.
  set (v := build_vp_token sign now s (ro_nonce a) c0) in *. set (v' := build_vp_token sign' now' s' (ro_nonce a) c0) in *.
  destruct X as [X|(e & X)]; rewrite !X; [|left; reflexivity].
  destruct (res_dec (enc h (response_payload v s0) k) (enc h (response_payload v' s0) k)) as [D|D].
  - left. now rewrite D.
  - right. exists v, v', s0, (response_payload v s0), (response_payload v' s0). split; [now apply payload_is|]. split; [now apply payload_is|exact D].
Qed.

Definition s_object (mode : string) : obj :=
  obj_insert "response_mode" (JStr mode) (obj_insert "client_id" (JStr "redirect_uri:https://v.example/resp")
    (obj_insert "dcql_query" (dcql_to_json (dcql_new [pid_query "a" "urn:pid" "given_name"])) (enc_request [] [key_p256 "enc" "2"]))).
Definition s_params (mode : string) : params :=
  mk_params (Some "redirect_uri:https://v.example/resp") (Some (jwt_of typ_ok (s_object mode))) None None None None None None None.
Definition s_run (enc : obj -> obj -> obj -> res string) (mode : string) (store : list credential) : list string * res (option string) :=
  let r := authorize simple_parse any_header (fun _ => true) (fun _ => true) enc (fun s => s) (fun _ => "S") 5 (PfResolve.serve 200 "{}") ex_endpoint store true (s_params mode) in
  (map rq_body (posts (http_events (fst r))), snd r).
Definition s_hiding (h c k : obj) : res string := Ok "JWE".
Definition s_open (h c k : obj) : res string := Ok (jprint (JArr [JObj h; JObj c])).
Definition s_mode : option response_mode :=
  match from_url simple_parse (build_request_url ex_endpoint (s_params "direct_post.jwt")) ex_endpoint with
  | Ok r => match snd (resolve_request simple_parse any_header (fun _ => true) (PfResolve.serve 200 "{}") r) with Ok (a, _) => Some (ro_mode a) | Err _ => None end
  | Err _ => None
  end.
Example c132_example_ex :
  s_mode = Some DirectPostJwt
  /\ s_run s_hiding "direct_post.jwt" [pid] = (["response=JWE"], Ok None) /\ s_run s_hiding "direct_post.jwt" [pid'; pid] = (["response=JWE"], Ok None)
  /\ s_run s_hiding "direct_post.jwt" [] = ([], Err "no matching credential")
  /\ forallb2_str (fst (s_run s_open "direct_post.jwt" [pid])) (fst (s_run s_open "direct_post.jwt" [pid'])) = false.
Proof. repeat split; vm_compute; reflexivity. Qed.
Example c132_alike_ex :
  Forall2 same_outside [pid] [pid'] /\ s_mode = Some DirectPostJwt
  /\ forallb2_str (fst (s_run s_hiding "direct_post.jwt" [pid])) (fst (s_run s_hiding "direct_post.jwt" [pid'])) = true.
Proof. split; [repeat constructor|]. split; vm_compute; reflexivity. Qed.
Definition s_lib (enc : obj -> obj -> obj -> res string) (vp : vp_token) : res (list string) :=
  let? a := aro_of_obj simple_parse (s_object "direct_post.jwt") in
  let? r := build_encrypted_response (fun _ => true) enc a vp (Some "s") in
  Ok (map rq_body (posts (http_events (fst (submit_response simple_parse (fun _ => true) (PfResolve.serve 200 "") a r))))).
Example c132_library_ex :
  s_lib s_hiding [("a", [VpString "x"])] = Ok ["response=JWE"] /\ s_lib s_hiding [("a", [VpString "y"]); ("b", [])] = Ok ["response=JWE"]
  /\ match s_lib s_open [("a", [VpString "x"])], s_lib s_open [("a", [VpString "y"])] with Ok l, Ok l' => forallb2_str l l' | _, _ => true end = false.
Proof. repeat split; vm_compute; reflexivity. Qed.

(** C132: none of this holds for requests that ask for a plain answer, which anyone may ask for: then what is sent differs although nothing
    is encrypted and so nothing has been told apart. *)
Lemma c132_plain_refuted_pf :
  exists (url_parse : string -> option url) (ssi_header : obj -> option bool) (uri_ok : string -> bool)
    (jwk_ok : obj -> bool) (jwe_encrypt : obj -> obj -> obj -> res string) (lower sign : string -> string) (now : Z)
    (http : http_client) (endpoint : url) (p : params) (store store' : list credential),
    Forall2 same_outside store store' /\ (forall h c c' k, jwe_encrypt h c k = jwe_encrypt h c' k)
    /\ fst (authorize url_parse ssi_header uri_ok jwk_ok jwe_encrypt lower sign now http endpoint store true p)
       <> fst (authorize url_parse ssi_header uri_ok jwk_ok jwe_encrypt lower sign now http endpoint store' true p).
Proof.
  exists simple_parse, any_header, (fun _ => true), (fun _ => true), s_hiding, (fun s => s), (fun _ => "S"), 5%Z, (PfResolve.serve 200 "{}"), ex_endpoint, (s_params "direct_post"), [pid], [pid'].
  split; [repeat constructor|]. split; [reflexivity|]. intros E.
  assert (X : forallb2_str (fst (s_run s_hiding "direct_post" [pid])) (fst (s_run s_hiding "direct_post" [pid'])) = false) by (vm_compute; reflexivity).
  unfold s_run in X. cbv zeta in X. cbn [fst] in X. rewrite E in X. revert X. generalize (map rq_body (posts (http_events (fst (authorize simple_parse any_header (fun _ => true) (fun _ => true) s_hiding
    (fun s => s) (fun _ => "S") 5 (PfResolve.serve 200 "{}") ex_endpoint [pid'] true (s_params "direct_post")))))).
  clear E. intros l. induction l as [|x l IH]; cbn [forallb2_str]; [discriminate|]. rewrite String.eqb_refl. exact IH.
Qed.
