From Coq Require Import Lia.
From Verif Require Import Base BaseFacts Utf8 Json JsonFacts Serde MapFacts Url Object Formats Params
  Metadata Effects Jwt Request Verify Spec SpecObject SpecRequest ParamFacts PfRequest PfResolve.

(** The wallet's list of client identifier prefixes. *)
Lemma prefixes_get w l :
  uo_get_or_default p_client_id_prefixes default_prefixes (wm_obj w) = Ok l
  <-> supported "client_id_prefixes_supported" ["pre-registered"] w = Ok l.
Proof.
  unfold uo_get_or_default, supported. cbn [tp_key tp_of p_client_id_prefixes p_strings].
  destruct (obj_get "client_id_prefixes_supported" (wm_obj w)) as [j|]; [|reflexivity].
  destruct j; cbn; split; try discriminate; auto.
Qed.

(** C18: no verification hook runs for a request object whose client identifier has a prefix that is not in
    the wallet's list (which is just pre-registered when absent). *)
Lemma c18_gate_pf :
  forall (w : wallet) (a : aro) (jwt : option string) (prefix : string),
    ro_scheme a = Some prefix ->
    ~ (exists l, supported "client_id_prefixes_supported" ["pre-registered"] (w_metadata w) = Ok l /\ In prefix l) ->
    hook_events (fst (verify_request w a jwt)) = [] /\ exists e, snd (verify_request w a jwt) = Err e.
Proof.
  intros w a jwt p Hp N. rewrite verify_trace. unfold validate_against_metadata. rewrite Hp.
  destruct (uo_get_or_default p_client_id_prefixes default_prefixes (wm_obj (w_metadata w))) as [l|e] eqn:E; cbn [rbind].
  - apply prefixes_get in E. destruct (mem_str p l) eqn:M; cbn [of_bool rbind].
    + apply mem_str_iff in M. exfalso. eauto.
    + cbn. eauto.
  - cbn. eauto.
Qed.

Example c18_gate_ex :
  exists a, aro_of_obj simple_parse sample_request = Ok a /\ ro_scheme a = Some "x509_san_dns"
  /\ snd (verify_request (lax_wallet ["x509_hash"] (serve 404 "")) a None) = Err "unsupported prefix".
Proof. eexists. repeat split. Qed.

(** C18: the same for whole validations: whatever hooks ran, the prefix of the request object they were given
    is in the wallet's list. *)
Lemma c18_validate_pf :
  forall (url_parse : string -> option url) (ssi_header : obj -> option bool) (uri_ok : string -> bool)
    (w : wallet) (r : auth_request) (h : hook) (a : aro) (jwt : option string) (prefix : string),
    In (h, a, jwt) (hook_events (fst (validate url_parse ssi_header uri_ok w r))) ->
    ro_scheme a = Some prefix ->
    exists l, supported "client_id_prefixes_supported" ["pre-registered"] (w_metadata w) = Ok l /\ In prefix l.
Proof.
  intros up ssi uok w r h a jwt p H Hp. rewrite validate_trace in H. cbn zeta in H.
  destruct (snd (resolve_request up ssi uok (w_http w) r)) as [[b j]|e]; cbn [fst] in H;
    [|rewrite resolve_hooks in H; destruct H].
  rewrite hook_app, resolve_hooks in H. cbn [app] in H.
  assert (b = a).
  { rewrite verify_trace in H. destruct (validate_against_metadata (w_metadata w) b); [|destruct H].
    destruct (hook_for (ro_scheme b)); cbn in H; [|destruct H]. destruct H as [H|[]]. now injection H. }
  subst b. rewrite verify_trace in H. unfold validate_against_metadata in H. rewrite Hp in H.
  destruct (uo_get_or_default p_client_id_prefixes default_prefixes (wm_obj (w_metadata w))) as [l|e] eqn:E; cbn [rbind] in H; [|destruct H].
  apply prefixes_get in E. destruct (mem_str p l) eqn:M; [|destruct H]. apply mem_str_iff in M. eauto.
Qed.

Example c18_validate_ex :
  let w := lax_wallet ["x509_hash"; "x509_san_dns"] (serve 404 "") in
  length (hook_events (fst (validate simple_parse any_header (fun _ => true) w
     (mk_ar None (ByValue (jwt_of typ_ok sample_request)))))) = 1.
Proof. vm_compute. reflexivity. Qed.

(** C18: an identifier without a prefix is not checked against the list: a wallet that lists only x509_hash
    still runs its pre-registered hook. *)
Lemma c18_preregistered_refuted_pf :
  exists (w : wallet) (a : aro),
    supported "client_id_prefixes_supported" ["pre-registered"] (w_metadata w) = Ok ["x509_hash"]
    /\ ro_client_id a = Some "client" /\ ro_scheme a = None
    /\ hook_events (fst (verify_request w a None)) = [(HPreregistered, a, None)]
    /\ snd (verify_request w a None) = Ok tt.
Proof.
  exists (lax_wallet ["x509_hash"] (serve 404 "")).
  destruct (aro_of_obj simple_parse (obj_insert "client_id" (JStr "client") sample_request)) as [a|] eqn:E;
    vm_compute in E; [|discriminate].
  injection E as E. exists a. subst a. repeat split; vm_compute; reflexivity.
Qed.

(* ------------------------------------------------------------ C21 *)
Lemma rbind_iff {A B} (r : res A) (f : A -> res B) b :
  rbind r f = Ok b <-> exists a, r = Ok a /\ f a = Ok b.
Proof.
  split; [apply rbind_ok|]. intros (a & -> & H). exact H.
Qed.
Lemma key_str_some k key s : key_str k key = Some s <-> text_at k key s.
Proof.
  unfold key_str, text_at. destruct (obj_get k key) as [v|]; [|split; discriminate].
  destruct v; cbn; split; congruence.
Qed.
Lemma enc_algs_in alg keys : In alg (encryption_algs keys) <-> encryption_alg keys alg.
Proof.
  unfold encryption_algs, encryption_alg. rewrite in_flat_map. split.
  - intros (k & Hk & Ha). apply filter_In in Hk as [Hk Hm]. exists k. split; [exact Hk|].
    unfold marked_enc in Hm. destruct (key_str "use" k) as [u|] eqn:U; [|discriminate].
    apply String.eqb_eq in Hm. subst u. apply key_str_some in U. split; [exact U|].
    destruct (key_str "alg" k) as [x|] eqn:A; [|destruct Ha]. destruct Ha as [<-|[]]. now apply key_str_some in A.
  - intros (k & Hk & U & A). exists k. apply key_str_some in U, A. split.
    + apply filter_In. split; [exact Hk|]. unfold marked_enc. now rewrite U.
    + rewrite A. now left.
Qed.
Lemma strings_get v l : de_list de_str v = Ok l <-> v = JArr (map JStr l).
Proof. split; [apply de_list_de_str|]. intros ->. apply de_list_strs. Qed.
Lemma list_allows_ok wm k vs :
  list_allows (uo_get (p_strings k) (wm_obj wm)) vs = Ok tt <-> wallet_allows wm k (fun v => In v vs).
Proof.
  unfold list_allows, wallet_allows, uo_get. cbn [tp_key tp_of p_strings].
  destruct (obj_get k (wm_obj wm)) as [v|].
  - split.
    + intros H. apply rbind_ok in H as (l & E & H). apply strings_get in E. subst v. right.
      apply of_bool_ok in H. apply existsb_exists in H as (v & Hv & M). apply mem_str_iff in M. eauto 6.
    + intros [H|(l & x & H & Hx & Hl)]; [discriminate|]. injection H as H. apply strings_get in H. rewrite H. cbn [rbind].
      assert (X : existsb (fun v => mem_str v l) vs = true) by (apply existsb_exists; exists x; split; [exact Hl|now apply mem_str_iff]).
      now rewrite X.
  - split; auto.
Qed.
Lemma keys_get cm keys :
  match uo_get p_jwks cm with None => Err "'jwks' is required" | Some r => context r "failed to parse 'jwks'" end = Ok keys
  <-> client_keys cm keys.
Proof.
  assert (D : forall j, de_list de_obj j = Ok keys <-> j = JArr (map JObj keys)).
  { intros j. split.
    - destruct j; cbn [de_list]; try discriminate. intros H. apply mapM_ok in H. f_equal.
      induction H as [|x y l l' E _ IH]; [reflexivity|]. cbn. rewrite IH. destruct x; cbn in E; try discriminate.
      injection E as ->. reflexivity.
    - intros ->. apply de_list_map. now apply Forall_all. }
  unfold uo_get, client_keys. cbn [tp_key tp_of p_jwks]. destruct (obj_get "jwks" cm) as [v|].
  2:{ split; [discriminate|]. intros (v & X & _). discriminate. }
  set (msg := "failed to parse 'jwks'").
  assert (C : forall r : res (list obj), context r msg = Ok keys <-> r = Ok keys) by (intros [x|e]; cbn; split; congruence).
  rewrite C. clear C. split.
  - intros H. exists v. split; [reflexivity|].
    destruct v as [| | | | |[|x [|y l]]|o]; cbn in H; try discriminate.
    + apply D in H. subst x. now right.
    + destruct (obj_get "keys" o) as [k|] eqn:E; cbn in H; [|discriminate]. apply D in H. subst k. left. eauto.
  - intros (v' & X & [(o & V & E)|E]); injection X as <-.
    + subst v. cbn. rewrite E. cbn. now apply (D (JArr (map JObj keys))).
    + subst v. cbn. now apply (D (JArr (map JObj keys))).
Qed.
Lemma encs_get cm encs :
  uo_get_or_default p_response_encs default_encs cm = Ok encs <-> client_encs cm encs.
Proof.
  unfold uo_get_or_default, client_encs. cbn [tp_key tp_of p_response_encs p_strings].
  destruct (obj_get "encrypted_response_enc_values_supported" cm) as [v|]; [apply strings_get|].
  unfold default_encs. split; [intros H; now injection H|now intros ->].
Qed.
Lemma metadata_get a cm : resolve_client_metadata a = Ok cm <-> client_metadata (aro_to_obj a) cm.
Proof.
  unfold resolve_client_metadata, client_metadata, aro_get, uo_get, aro_to_obj. cbn [tp_key tp_of p_client_metadata].
  destruct (obj_get "client_metadata" (ro_inner a)) as [v|].
  - destruct v; cbn; split; try discriminate; congruence.
  - split; [intros H; now injection H|now intros ->].
Qed.
Lemma mode_explicit a m :
  parsing_error (aro_get p_response_mode a) = Ok m
  <-> exists s, text_at "response_mode" (aro_to_obj a) s /\ m = mode_of_string s.
Proof.
  unfold aro_get, uo_get, aro_to_obj, text_at. cbn [tp_key tp_of p_response_mode].
  destruct (obj_get "response_mode" (ro_inner a)) as [v|].
  - destruct v; cbn; split; try discriminate; try (intros (s & X & _); discriminate).
    + intros H. injection H as <-. eauto.
    + intros (s' & X & ->). injection X as ->. reflexivity.
  - cbn. split; [discriminate|]. intros (s & X & _). discriminate.
Qed.
Lemma jarm_of s b : is_jarm (mode_of_string s) = Ok b <->
  b = false /\ (s = "direct_post" \/ s = "dc_api") \/ b = true /\ (s = "direct_post.jwt" \/ s = "dc_api.jwt").
Proof.
  split.
  - unfold mode_of_string. repeat match goal with |- context [String.eqb s ?x] => destruct (String.eqb_spec s x) end; cbn;
      intros H; try discriminate; injection H as <-; tauto.
  - intros [[-> [-> | ->]]|[-> [-> | ->]]]; reflexivity.
Qed.

(** C21: what the metadata check accepts, exactly. In an encrypted response mode the client metadata must
    contain a key marked for encryption with an alg; one such alg must be among the wallet's, when it lists
    any, and one of the client's enc values (A128GCM when it gives none) among the wallet's, when it lists
    any. The prefix of the client identifier must be among the wallet's and response_mode explicit. *)
Lemma c21_metadata_pf :
  forall (wm : wallet_metadata) (a : aro),
    validate_against_metadata wm a = Ok tt <-> metadata_accepts wm a.
Proof.
  intros wm a. unfold validate_against_metadata, metadata_accepts. rewrite rbind_iff.
  assert (P : (match ro_scheme a with
            | None => Ok tt
            | Some prefix =>
                let? l := uo_get_or_default p_client_id_prefixes default_prefixes (wm_obj wm) in
                of_bool (mem_str prefix l) "unsupported prefix"
            end = Ok tt) <-> prefix_ok wm a).
  { unfold prefix_ok. destruct (ro_scheme a) as [p|].
    - rewrite rbind_iff. split.
      + intros (l & E & H) q Q. injection Q as <-. apply prefixes_get in E. apply of_bool_ok, mem_str_iff in H. eauto.
      + intros H. destruct (H p eq_refl) as (l & E & I). exists l. split; [now apply prefixes_get|].
        apply mem_str_iff in I. now rewrite I.
    - split; [discriminate|reflexivity]. }
  split.
  - intros ([] & H0 & H). apply P in H0. split; [exact H0|].
    apply rbind_ok in H as (cm & Ecm & H). apply rbind_ok in H as (m & Em & H). apply rbind_ok in H as (j & Ej & H).
    apply metadata_get in Ecm. apply mode_explicit in Em as (mode & Em & ->). apply jarm_of in Ej.
    exists cm, mode. split; [exact Ecm|]. split; [exact Em|]. destruct Ej as [[-> X]|[-> X]]; [tauto|]. right; right.
    split; [exact X|]. apply rbind_ok in H as (keys & Ek & H). apply rbind_ok in H as (? & Ea & H).
    apply rbind_ok in H as ([] & El & H). apply rbind_ok in H as (encs & Ee & H).
    apply keys_get in Ek. apply encs_get in Ee. apply list_allows_ok in El, H. exists keys, encs.
    refine (conj Ek (conj Ee (conj _ (conj _ H)))).
    + apply of_bool_ok in Ea. destruct (encryption_algs keys) as [|alg algs] eqn:E; [discriminate|].
      exists alg. apply enc_algs_in. rewrite E. now left.
    + destruct El as [El|(l & v & L & I & V)]; [now left|right]. exists l, v. apply enc_algs_in in V. auto.
  - intros (H0 & cm & mode & Ecm & Em & H). exists tt. split; [now apply P|].
    apply metadata_get in Ecm. rewrite Ecm. cbn [rbind].
    assert (X : parsing_error (aro_get p_response_mode a) = Ok (mode_of_string mode)) by (apply mode_explicit; eauto).
    rewrite X. cbn [rbind]. clear X.
    destruct H as [->|[->|[Hj (keys & encs & Hk & He & [alg Ha] & Hl & H)]]]; [reflexivity|reflexivity|].
    assert (X : is_jarm (mode_of_string mode) = Ok true) by (apply jarm_of; tauto). rewrite X. cbn [rbind]. clear X.
    apply keys_get in Hk. rewrite Hk. cbn [rbind]. apply enc_algs_in in Ha.
    destruct (encryption_algs keys) as [|x t] eqn:E; [destruct Ha|]. cbn [of_bool rbind]. rewrite <- E in *.
    assert (X : list_allows (uo_get p_encryption_algs (wm_obj wm)) (encryption_algs keys) = Ok tt).
    { apply list_allows_ok. destruct Hl as [Hl|(l & v & L & I & V)]; [now left|right].
      exists l, v. apply enc_algs_in in V. auto. }
    rewrite X. cbn [rbind]. apply encs_get in He. rewrite He. cbn [rbind]. now apply list_allows_ok.
Qed.

Definition jarm_request (keys : list json) : obj :=
  obj_insert "response_mode" (JStr "direct_post.jwt")
    (obj_insert "client_metadata" (JObj [("jwks", JObj [("keys", JArr keys)])]) sample_request).
Definition enc_wallet : wallet_metadata :=
  mk_wm [("authorization_encryption_alg_values_supported", jstrs ["ECDH-ES"]);
         ("authorization_encryption_enc_values_supported", jstrs ["A128GCM"; "A256GCM"]);
         ("client_id_prefixes_supported", jstrs ["x509_san_dns"])] (mk_url "openid4vp" None "" true None None) [].
Example c21_metadata_ex :
  (exists a, aro_of_obj simple_parse (jarm_request [JObj [("alg", JStr "ECDH-ES"); ("use", JStr "enc")]]) = Ok a
     /\ validate_against_metadata enc_wallet a = Ok tt)
  /\ (exists a, aro_of_obj simple_parse (jarm_request [JObj [("alg", JStr "RSA-OAEP"); ("use", JStr "enc")]]) = Ok a
     /\ validate_against_metadata enc_wallet a = Err "not supported by wallet")
  /\ (exists a, aro_of_obj simple_parse (jarm_request [JObj [("alg", JStr "ECDH-ES")]]) = Ok a
     /\ validate_against_metadata enc_wallet a = Err "no encryption key").
Proof. repeat split; eexists; split; vm_compute; reflexivity. Qed.

(* ------------------------------------------------------------ C19 *)
(** C19: verification accepts exactly when the metadata checks pass and the hook for the prefix accepts;
    that hook, with this request and JWT, is the only one that runs; it runs exactly when the checks pass. *)
Lemma c19_one_hook_pf :
  forall (w : wallet) (a : aro) (jwt : option string) (h : hook),
    hook_of_prefix (ro_scheme a) h ->
    (snd (verify_request w a jwt) = Ok tt
     <-> metadata_accepts (w_metadata w) a /\ w_hook w h a jwt = Ok tt)
    /\ (metadata_accepts (w_metadata w) a ->
        hook_events (fst (verify_request w a jwt)) = [(h, a, jwt)])
    /\ (~ metadata_accepts (w_metadata w) a ->
        hook_events (fst (verify_request w a jwt)) = []).
Proof.
  intros w a jwt h Hh.
  assert (E : hook_for (ro_scheme a) = Some h).
  { unfold hook_of_prefix in Hh. unfold hook_for.
    destruct (ro_scheme a) as [p|]; [|now subst h].
    destruct Hh as [H|H].
    - unfold known_hooks in H. cbn in H.
      repeat (destruct H as [H|H]; [injection H as <- <-; reflexivity|]). destruct H.
    - destruct H as (-> & N1 & N2). cbn in N1.
      repeat (match goal with |- (if String.eqb p ?x then _ else _) = _ => destruct (String.eqb_spec p x) as [->|] end;
        [exfalso; first [apply N2; reflexivity | apply N1; cbn; tauto]|]).
      reflexivity. }
  assert (M := c21_metadata_pf (w_metadata w) a). rewrite <- M.
  rewrite verify_trace, E. destruct (validate_against_metadata (w_metadata w) a) as [[]|e]; cbn.
  - split; [tauto|]. split; [reflexivity|]. intros H. exfalso. now apply H.
  - split; [split; [discriminate|intros [H _]; discriminate]|]. split; [discriminate|reflexivity].
Qed.

Example c19_one_hook_ex :
  exists a, aro_of_obj simple_parse sample_request = Ok a /\ hook_of_prefix (ro_scheme a) HX509San
  /\ metadata_accepts (w_metadata (lax_wallet ["x509_san_dns"] (serve 404 ""))) a
  /\ hook_of_prefix (Some "urn") (HOther "urn").
Proof.
  eexists. split; [reflexivity|]. split; [left; cbn; tauto|]. split; [apply c21_metadata_pf; vm_compute; reflexivity|].
  right. cbn. repeat split; intuition discriminate.
Qed.

(** C19: the reserved prefix origin is always rejected and runs no hook. *)
Lemma c19_origin_pf :
  forall (w : wallet) (a : aro) (jwt : option string),
    ro_scheme a = Some "origin" ->
    hook_events (fst (verify_request w a jwt)) = [] /\ exists e, snd (verify_request w a jwt) = Err e.
Proof.
  intros w a jwt H. rewrite verify_trace, H. cbn. destruct (validate_against_metadata (w_metadata w) a); cbn; eauto.
Qed.

Example c19_origin_ex :
  exists a, aro_of_obj simple_parse (obj_insert "client_id" (JStr "origin:https://x") sample_request) = Ok a
  /\ ro_scheme a = Some "origin".
Proof. eexists. split; reflexivity. Qed.

(** C19: validation as a whole: a validated request was accepted by the one hook for its prefix, on the very
    object that is returned and the very JWT that was decoded. *)
Lemma c19_validate_pf :
  forall (url_parse : string -> option url) (ssi_header : obj -> option bool) (uri_ok : string -> bool)
    (w : wallet) (r : auth_request) (a : aro),
    snd (validate url_parse ssi_header uri_ok w r) = Ok a ->
    exists jwt h, snd (resolve_request url_parse ssi_header uri_ok (w_http w) r) = Ok (a, jwt)
      /\ hook_of_prefix (ro_scheme a) h /\ w_hook w h a jwt = Ok tt
      /\ metadata_accepts (w_metadata w) a
      /\ hook_events (fst (validate url_parse ssi_header uri_ok w r)) = [(h, a, jwt)].
Proof.
  intros up ssi uok w r a H. pose proof H as H0. apply validate_ok in H as (jwt & R & V & _).
  exists jwt. rewrite validate_trace. cbn zeta. rewrite R. cbn [fst]. rewrite hook_app, resolve_hooks. cbn [app].
  assert (M := c21_metadata_pf (w_metadata w) a). 
  rewrite verify_trace in V |- *.
  destruct (validate_against_metadata (w_metadata w) a) as [[]|e]; [|discriminate].
  destruct (hook_for (ro_scheme a)) as [h|] eqn:E; [|discriminate]. exists h. split; [reflexivity|].
  split; [|split; [exact V|split; [now apply M|reflexivity]]].
  unfold hook_for in E. unfold hook_of_prefix. destruct (ro_scheme a) as [p|]; [|now injection E].
  destruct (String.eqb_spec p DECENTRALIZED_IDENTIFIER) as [D|N1]; [injection E as <-; left; rewrite D; now left|].
  destruct (String.eqb_spec p OPENID_FEDERATION) as [D|N2]; [injection E as <-; left; rewrite D; now right; left|].
  destruct (String.eqb_spec p REDIRECT_URI) as [D|N3]; [injection E as <-; left; rewrite D; now do 2 right; left|].
  destruct (String.eqb_spec p VERIFIER_ATTESTATION) as [D|N4]; [injection E as <-; left; rewrite D; now do 3 right; left|].
  destruct (String.eqb_spec p X509_SAN_DNS) as [D|N5]; [injection E as <-; left; rewrite D; now do 4 right; left|].
  destruct (String.eqb_spec p X509_HASH) as [D|N6]; [injection E as <-; left; rewrite D; now do 5 right; left|].
  destruct (String.eqb_spec p ORIGIN) as [D|N7]; [discriminate|].
  unfold DECENTRALIZED_IDENTIFIER, OPENID_FEDERATION, REDIRECT_URI, VERIFIER_ATTESTATION, X509_SAN_DNS, X509_HASH in *.
  injection E as <-. right. cbn. split; [reflexivity|]. split; [intuition congruence|assumption].
Qed.

Example c19_validate_ex :
  is_ok (snd (validate simple_parse any_header (fun _ => true) (lax_wallet ["x509_san_dns"] (serve 404 ""))
    (mk_ar None (ByValue (jwt_of typ_ok sample_request))))) = true.
Proof. vm_compute. reflexivity. Qed.

(* ------------------------------------------------------------ C20 *)
(** C20: with the default hooks no request is accepted. *)
Lemma c20_default_pf :
  forall (url_parse : string -> option url) (ssi_header : obj -> option bool) (uri_ok : string -> bool)
    (wm : wallet_metadata) (http : http_client) (r : auth_request),
    exists e, snd (validate url_parse ssi_header uri_ok (mk_wallet wm http default_hook) r) = Err e.
Proof.
  intros up ssi uok wm http r. destruct (snd (validate _ _ _ _ _)) as [a|e] eqn:E; [|eauto]. exfalso.
  apply c19_validate_pf in E as (jwt & h & _ & _ & H & _). discriminate.
Qed.

Example c20_default_ex :
  snd (validate simple_parse any_header (fun _ => true)
    (mk_wallet (w_metadata (lax_wallet ["x509_san_dns"] (serve 404 ""))) (serve 404 "") default_hook)
    (mk_ar None (ByValue (jwt_of typ_ok sample_request)))) = Err "client verification not implemented".
Proof. vm_compute. reflexivity. Qed.

(* ------------------------------------------------------------ C22 *)
(** C22: validation rejects every request object without an explicit response_mode, although parsing takes
    its absence to mean direct_post. No hook runs. *)
Lemma c22_explicit_mode_pf :
  forall (url_parse : string -> option url) (w : wallet) (o : obj) (a : aro) (jwt : option string),
    aro_of_obj url_parse o = Ok a -> absent "response_mode" o ->
    ro_mode a = DirectPost
    /\ (exists e, snd (verify_request w a jwt) = Err e)
    /\ hook_events (fst (verify_request w a jwt)) = [].
Proof.
  intros up w o a jwt H N. apply aro_of_inv in H as [Hi _ _ Hm _ _ _ _]. unfold absent in N. split.
  - destruct Hm as [[_ ->]|(s & T & _)]; [reflexivity|]. unfold text_at in T. congruence.
  - rewrite verify_trace.
    assert (X : exists e, validate_against_metadata (w_metadata w) a = Err e).
    { unfold validate_against_metadata.
      match goal with |- exists e, (let? _ := ?m in _) = _ => destruct m as [x|e]; cbn [rbind]; [|eauto] end.
      destruct (resolve_client_metadata a) as [cm|e]; cbn [rbind]; [|eauto].
      unfold aro_get, uo_get. cbn [tp_key p_response_mode]. rewrite Hi, N. cbn. eauto. }
    destruct X as [e ->]. cbn. eauto.
Qed.

Example c22_explicit_mode_ex :
  exists a, aro_of_obj simple_parse (obj_remove "response_mode" sample_request) = Ok a
  /\ absent "response_mode" (obj_remove "response_mode" sample_request).
Proof. eexists. split; reflexivity. Qed.

(** C22: hence no validated request lacks response_mode. *)
Lemma c22_validate_pf :
  forall (url_parse : string -> option url) (ssi_header : obj -> option bool) (uri_ok : string -> bool)
    (w : wallet) (r : auth_request) (a : aro),
    snd (validate url_parse ssi_header uri_ok w r) = Ok a ->
    exists mode, text_at "response_mode" (aro_to_obj a) mode
      /\ In mode ["direct_post"; "direct_post.jwt"; "dc_api"; "dc_api.jwt"].
Proof.
  intros up ssi uok w r a H. apply c19_validate_pf in H as (jwt & h & _ & _ & _ & H & _).
  destruct H as (_ & cm & mode & _ & T & M). exists mode. split; [exact T|]. cbn. intuition.
Qed.

Example c22_validate_ex :
  is_ok (snd (validate simple_parse any_header (fun _ => true) (lax_wallet ["x509_san_dns"] (serve 404 ""))
    (mk_ar None (ByValue (jwt_of typ_ok sample_request))))) = true
  /\ snd (validate simple_parse any_header (fun _ => true) (lax_wallet ["x509_san_dns"] (serve 404 ""))
    (mk_ar None (ByValue (jwt_of typ_ok (obj_remove "response_mode" sample_request))))) = Err "missing parameter".
Proof. split; vm_compute; reflexivity. Qed.
