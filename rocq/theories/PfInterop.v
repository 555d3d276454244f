From Coq Require Import Lia ZArith.
From Verif Require Import Base BaseFacts Utf8 Utf8Facts Json JsonFacts JsonText JsonTextFacts Base64 Base64Facts Sha256 Serde Url UrlEncoded UrlEncodedFacts
  Object Formats Params Metadata Dcql Effects Jwt Request Response Session X509 SpecCert CertFacts Client Builder Server Jwe ExMatcher ExWallet ExVerifier.
From Verif Require Import MapFacts Spec SpecObject SpecRequest PfRequest PfResolve SpecResponse PfResponse SpecJwe PfJwe SpecBuilder SpecSession StoreFacts
  PfBuilder UuidFacts PfSession PfServer PfClient SpecExample PfExample SpecVerifierEx PfExServer PfExInitiate PfText.

(* --------------------------------------------------------------------- C79 *)
Lemma mbind_snd {E A B} (m : M E A) (f : A -> M E B) : snd (mbind m f) = match snd m with Ok a => snd (f a) | Err e => Err e end.
Proof. unfold mbind. destruct (snd m); reflexivity. Qed.
Lemma deliver_ok up http u body rs : http (plain_post u body) = Ok rs -> (200 <= rs_status rs < 300)%N ->
  exists x, snd (deliver up http u body) = Ok x.
Proof.
  intros H S. unfold deliver, send. rewrite !mbind_snd. cbn [snd lift emit]. rewrite H. cbn [snd].
  assert (E : is_success (rs_status rs) = true) by (unfold is_success; apply andb_true_iff; split; [apply N.leb_le|apply N.ltb_lt]; lia).
  rewrite mbind_snd. cbn [snd lift]. rewrite E. cbn [of_bool].
  destruct (match json_of_text _ with Some (JObj m) => _ | _ => None end) as [x|]; [|eexists; reflexivity].
  destruct (up x); eexists; reflexivity.
Qed.
Lemma deliver_none up http u body : http (plain_post u body) = Ok (mk_resp 200 (jprint (JObj []))) -> snd (deliver up http u body) = Ok None.
Proof. intros H. unfold deliver, send. rewrite !mbind_snd. cbn [snd lift emit]. rewrite H. reflexivity. Qed.
Lemma bound_true up a : accepted up (aro_to_obj a) a ->
  (forall uri, text_at "client_id" (aro_to_obj a) ("redirect_uri:" +:+ uri) -> url_str (ro_return a) = uri) -> redirect_uri_bound a = true.
Proof.
  intros Ac H. pose proof (acc_client _ _ _ Ac) as K. unfold redirect_uri_bound. destruct (ro_client_id a) as [c|]; [|reflexivity].
  destruct (strip_prefix "redirect_uri:" c) as [e|] eqn:E; [|reflexivity]. apply strip_prefix_some in E. subst c. apply String.eqb_eq. now apply H.
Qed.

Section W.
Variable up : string -> option url.
Variable ssi : obj -> option bool.
Variable uri_ok : string -> bool.
Variable jwk_ok : obj -> bool.
Variable enc : obj -> obj -> obj -> res string.
Variable lower sign : string -> string.
Variable now : Z.
Variable http : http_client.
Variable endpoint : url.
Variable store : list credential.
Variable p : params.
Let wallet := authorize up ssi uri_ok jwk_ok enc lower sign now http endpoint store true p.

Lemma answers ar a jwt q sel body :
  from_url up (build_request_url endpoint p) endpoint = Ok ar ->
  snd (resolve_request up ssi uri_ok http ar) = Ok (a, jwt) ->
  aro_dcql a = Some (Ok q) -> match_query lower store q = Ok sel -> redirect_uri_bound a = true ->
  let vp := build_vp_token sign now sel (ro_nonce a) (match ro_client_id a with Some c => c | None => "unknown-verifier" end) in
  let st := match aro_state a with Some (Ok s) => Some s | _ => pa_state p end in
  (ro_mode a = DirectPost /\ body = unencoded_form (mk_unencoded vp st)
   \/ ro_mode a = DirectPostJwt /\ exists jwe, encrypted_answer jwk_ok enc a vp st = Ok jwe /\ body = form_serialize [("response", jwe)]) ->
  posts (http_events (fst wallet)) = [plain_post (ro_return a) body] /\ snd wallet = snd (deliver up http (ro_return a) body).
Proof.
  intros Ef Er Eq Es Eb vp st Em. unfold wallet, authorize. rewrite lift_bind, Ef.
  rewrite mbind_fst, mbind_snd, http_app, posts_app, posts_resolve, Er. cbn [app]. rewrite lift_bind. rewrite Eq at 1. cbn [context].
  rewrite lift_bind. unfold process_request. rewrite Eq. cbn [of_bool rbind context]. rewrite Es.
  rewrite lift_bind, Eb. cbn [of_bool]. fold vp. fold st.
  destruct Em as [[-> ->]|[-> (jwe & Ej & ->)]].
  - split; [apply posts_deliver|reflexivity].
  - rewrite lift_bind, Ej. split; [apply posts_deliver|reflexivity].
Qed.
End W.


Lemma maybe_kid key : exists kid, maybe_text "kid" key kid.
Proof.
  unfold maybe_text, text_at. destruct (obj_get "kid" key) as [v|] eqn:E.
  - destruct v; try (exists None; intros ? X; congruence). exists (Some s). reflexivity.
  - exists None. intros ? X. congruence.
Qed.
Lemma token_nodup sign now sel nonce aud : NoDup (map fst sel) -> NoDup (map fst (build_vp_token sign now sel nonce aud)).
Proof. intros H. unfold build_vp_token. rewrite token_of_selection by exact H. now rewrite map_map. Qed.

(** C79: the example wallet answers whenever it can: when the request resolves to a signed request object whose
    credential queries are all met by its store, the response URI fits the client, the response mode is one of the
    two it knows, in the encrypted one there is a key to encrypt to, and the verifier accepts the POST, then it makes
    exactly one POST, to the response URI, and reports success. *)
Lemma c79_wallet_pf
  : forall (url_parse : string -> option url) (ssi_header : obj -> option bool) (uri_ok : string -> bool)
    (jwk_ok : obj -> bool) (jwe_encrypt : obj -> obj -> obj -> res string) (lower sign : string -> string) (now : Z)
    (http : http_client) (endpoint : url) (store : list credential) (p : params)
    (ar : auth_request) (a : aro) (jwt : string) (q : dcql),
    let run := authorize url_parse ssi_header uri_ok jwk_ok jwe_encrypt lower sign now http endpoint store true p in
    from_url url_parse (build_request_url endpoint p) endpoint = Ok ar ->
    snd (resolve_request url_parse ssi_header uri_ok http ar) = Ok (a, Some jwt) ->
    aro_dcql a = Some (Ok q) -> dq_credentials q <> [] ->
    (forall cq, In cq (dq_credentials q) -> exists c, In c store /\ satisfies lower cq c) ->
    (forall uri, text_at "client_id" (aro_to_obj a) ("redirect_uri:" +:+ uri) -> url_str (ro_return a) = uri) ->
    (ro_mode a = DirectPost
     \/ ro_mode a = DirectPostJwt
        /\ exists cm keys key, obj_get "client_metadata" (aro_to_obj a) = Some (JObj cm) /\ client_keys cm keys
             /\ first_key keys key /\ jwk_ok key = true
             /\ forall header claims, exists jwe, jwe_encrypt header claims key = Ok jwe) ->
    (forall body, exists rs, http (wallet_post (ro_return a) body) = Ok rs /\ (200 <= rs_status rs < 300)%N) ->
    exists body x, posts (http_events (fst run)) = [wallet_post (ro_return a) body] /\ snd run = Ok x.
Proof. change wallet_post with plain_post.
  intros up ssi uok jok enc lower sign now http ep store p ar a jwt q run Ef Er Eq Hn Hs Hb Hm Hp.
  assert (Pa : parsed_key (aro_to_obj a)).
  { apply resolve_jwt in Er as [_ Er]. apply rbind_ok in Er as (o & Ed & Ea). apply decoded_wf in Ed. apply aro_of_inv in Ea.
    unfold aro_to_obj. now rewrite (acc_inner _ _ _ Ea). }
  assert (Eb : redirect_uri_bound a = true) by (eapply bound_true; [eapply resolve_accepted; exact Er|exact Hb]).
  assert (Es : exists sel, match_query lower store q = Ok sel) by (apply c67_complete_pf; auto). destruct Es as (sel & Es).
  assert (Nd : NoDup (map fst sel)) by (apply c67_sound_pf in Es; apply Es).
  set (vp := build_vp_token sign now sel (ro_nonce a) (match ro_client_id a with Some c => c | None => "unknown-verifier" end)).
  set (st := match aro_state a with Some (Ok s) => Some s | _ => pa_state p end).
  assert (B : exists body, ro_mode a = DirectPost /\ body = unencoded_form (mk_unencoded vp st)
     \/ ro_mode a = DirectPostJwt /\ exists jwe, encrypted_answer jok enc a vp st = Ok jwe /\ body = form_serialize [("response", jwe)]).
  { destruct Hm as [Hm|(Hm & cm & keys & key & Ec & Ek & Hf & Hj & He)]; [eexists; left; eauto|].
    destruct (maybe_kid key) as (kid & Mk). destruct (He (jwe_header "ECDH-ES" "A128GCM" kid) (response_payload vp st)) as (jwe & Ej).
    eexists. right. split; [exact Hm|]. exists jwe. split; [|reflexivity]. apply c73_encryption_pf; [exact Pa|now apply token_nodup|].
    exists cm, keys, key, kid, (jwe_header "ECDH-ES" "A128GCM" kid), (response_payload vp st).
    do 5 (split; [assumption|]). split; [apply jwe_header_is|]. split; [apply payload_is; now apply token_nodup|exact Ej]. }
  destruct B as (body & B).
  destruct (answers up ssi uok jok enc lower sign now http ep store p ar a (Some jwt) q sel body Ef Er Eq Es Eb B) as [P W].
  destruct (Hp body) as (rs & R1 & R2). destruct (deliver_ok up http (ro_return a) body rs R1 R2) as (x & X).
  exists body, x. split; [exact P|]. unfold run. now rewrite W.
Qed.

Example c79_wallet_ex :
  match from_url simple_parse (build_request_url ex_endpoint (ex_params None (ex_object "x509_san_dns:v.example"))) ex_endpoint with
  | Ok ar =>
      match snd (resolve_request simple_parse any_header (fun _ => true) (PfResolve.serve 200 "{}") ar) with
      | Ok (a, Some jwt) =>
          match aro_dcql a with Some (Ok q) => length (dq_credentials q) = 1 /\ is_ok (match_query (fun s => s) [pid] q) = true | _ => False end
          /\ ro_mode a = DirectPost /\ ex_posted None (ex_object "x509_san_dns:v.example") = [url_str (ro_return a)]
      | _ => False
      end
  | Err _ => False
  end
  /\ snd (ex_run None (ex_object "x509_san_dns:v.example")) = Ok None.
Proof. vm_compute. repeat split. Qed.

(* ------------------------------------------------------------ end to end *)
Lemma utf8_prefix a c r : is_ascii c = true -> forall p, Forall (fun x => (128 <= fst x)%N) p ->
  utf8_go p (a +:+ String c r) = true -> utf8_go p a = true.
Proof.
  intros Hc. induction a as [|d a IH]; intros p Hp; cbn [String.append].
  - destruct p as [|[lo hi] p]; [reflexivity|]. cbn [utf8_go]. inversion_clear Hp as [|? ? H _]. cbn [fst] in H.
    unfold in_range. unfold is_ascii in Hc. apply N.ltb_lt in Hc. destruct (N.leb_spec lo (byte c)); [lia|discriminate].
  - cbn [utf8_go]. destruct p as [|[lo hi] p].
    + destruct (utf8_start d) as [p|] eqn:E; [|discriminate]. apply IH. unfold utf8_start in E.
      repeat match type of E with (if ?x then _ else _) = _ => destruct x; [injection E as <-; repeat constructor; cbn; lia|] end. discriminate.
    + rewrite andb_true_iff. intros [-> H]. cbn. apply IH; [now inversion Hp|exact H].
Qed.
Lemma str_all_join f l : f "&"%char = true -> Forall (fun s => str_all f s = true) l -> str_all f (join "&" l) = true.
Proof.
  intros Hf. induction 1 as [|x l H F IH]; [reflexivity|]. cbn [join]. destruct l; [exact H|]. rewrite !str_all_app, H, IH. cbn. now rewrite Hf.
Qed.
Lemma form_utf8 l : utf8_valid (form_serialize l) = true.
Proof.
  assert (A : forall c, enc_char_ok c = true -> is_ascii c = true).
  { intros c. assert (X : forallb (fun c => implb (enc_char_ok c) (is_ascii c)) all_ascii = true) by (vm_compute; reflexivity).
    intros H. pose proof (proj1 (forallb_forall _ all_ascii) X c (all_ascii_in c)) as Y. cbn beta in Y. now rewrite H in Y. }
  assert (E : forall s, str_all is_ascii (form_enc s) = true).
  { intros s. pose proof (form_enc_ok s) as H. induction (form_enc s) as [|c t IH]; [reflexivity|]. cbn in *. apply andb_true_iff in H as [H1 H2].
    now rewrite A, IH. }
  apply utf8_ascii. apply str_all_join; [reflexivity|]. apply Forall_forall. intros x Hx. apply in_map_iff in Hx as ([k v] & <- & _).
  rewrite str_all_app, E. cbn [str_all fst snd]. now rewrite E.
Qed.
Lemma present_utf8 sign now nonce aud raw i : utf8_valid raw = true -> i = present sign now nonce aud raw ->
  item_ok i /\ forall m, i <> VpObject m.
Proof.
  intros Hr ->. unfold present. destruct (rsplit_once "~" raw) as [[sd old]|] eqn:E.
  - apply rsplit_once_some in E as [-> Ho]. rewrite (split_all_last "~" old sd Ho).
    assert (L : Nat.leb 2 (length (split_all "~" sd ++ [old])) = true).
    { apply Nat.leb_le. rewrite app_length. cbn. pose proof (split_all_nonempty "~" sd). destruct (split_all "~" sd); [easy|cbn; lia]. }
    rewrite L, removelast_last. pose proof (join_split_all "~" sd) as J. change (s1 "~") with "~" in J. rewrite J.
    split; [|discriminate]. cbn [item_ok]. apply (utf8_prefix sd "~" old eq_refl []) in Hr; [|constructor]. rewrite sapp_assoc.
    apply utf8_valid_cat; [exact Hr|]. apply utf8_valid_cat; [reflexivity|]. unfold key_binding_jwt.
    repeat (apply utf8_valid_cat; [try reflexivity; apply b64_utf8|]). apply b64_utf8.
  - apply rsplit_once_none in E. rewrite (split_all_nochar _ _ E). split; [exact Hr|discriminate].
Qed.

(* objects given by their members *)
Lemma wf_members o d : keys_sorted o = true ->
  (forall n v, obj_get n o = Some v -> utf8_valid n = true /\ jwf v = true /\ jdepth v <= d) ->
  jwf (JObj o) = true /\ jdepth (JObj o) <= S d.
Proof.
  intros K H. assert (H' : forall n v, In (n, v) o -> utf8_valid n = true /\ jwf v = true /\ jdepth v <= d).
  { intros n v I. apply H. apply ksorted_get_in; [now apply keys_sorted_iff|exact I]. }
  unfold jwf. cbn [jtext_ok jsorted jdepth]. rewrite K. split.
  - rewrite andb_true_iff, andb_true_iff, !forallb_forall. repeat split; intros [n v] I; apply H' in I as (H1 & H2 & _); cbn [fst snd];
      unfold jwf in H2; apply andb_true_iff in H2 as [H2 H3]; [now rewrite H1, H2|exact H3].
  - apply le_n_S. clear H K. induction o as [|[n v] o IH]; cbn; [lia|]. apply Nat.max_lub; [apply (H' n v); now left|]. apply IH. intros n' v' I.
    apply (H' n' v'). now right.
Qed.
Lemma wf_holds o l d : holds o l -> (forall n v, In (n, v) l -> utf8_valid n = true /\ jwf v = true /\ jdepth v <= d) ->
  jwf (JObj o) = true /\ jdepth (JObj o) <= S d.
Proof. intros [K H] F. apply wf_members; [exact K|]. intros n v G. apply F, H, G. Qed.
Lemma jwf_get o n v : jwf (JObj o) = true -> obj_get n o = Some v -> utf8_valid n = true /\ jwf v = true /\ jdepth v < jdepth (JObj o).
Proof.
  unfold jwf. rewrite andb_true_iff. cbn [jtext_ok jsorted]. rewrite andb_true_iff, !forallb_forall. intros (H1 & _ & H2) G.
  apply obj_get_in in G. pose proof (H1 _ G) as A. pose proof (H2 _ G) as B. cbn [fst snd] in *. apply andb_true_iff in A as [A1 A2].
  split; [exact A1|]. split; [now rewrite A2, B|]. cbn [jdepth]. apply Nat.lt_succ_r, max_fold_le. apply in_map_iff. exists (n, v). auto.
Qed.
Lemma key_wf k key : (keys_sorted k = true -> keys_sorted key = true) -> jwf (JObj k) = true -> jdepth (JObj k) <= 100 ->
  (forall n, obj_get n key = if String.eqb n "kid" then Some (JStr "enc-key-1") else if String.eqb n "alg" then Some (JStr "ECDH-ES")
                             else if String.eqb n "use" then Some (JStr "enc") else obj_get n k) ->
  jwf (JObj key) = true /\ jdepth (JObj key) <= 101.
Proof.
  intros K W D G. apply wf_members.
  - apply K. unfold jwf in W. apply andb_true_iff in W as [_ W]. cbn [jsorted] in W. now apply andb_true_iff in W.
  - intros n v E. rewrite G in E.
    repeat match type of E with context [String.eqb n ?t] => destruct (String.eqb_spec n t) as [->|?]; [injection E as <-; repeat split; cbn; lia|] end.
    apply (jwf_get k n v W) in E as (E1 & E2 & E3). repeat split; auto. lia.
Qed.
Lemma asks_wf o dns nonce k enc response : asks o dns nonce k enc response -> utf8_valid dns = true -> utf8_valid nonce = true ->
  utf8_valid (url_str response) = true -> jwf (JObj k) = true -> jdepth (JObj k) <= 100 ->
  jwf (JObj o) = true /\ jdepth (JObj o) <= 127.
Proof.
  intros (meta & (m & key & -> & Hm & Ks & Kg) & Ho) Hd Hn Hr Wk Dk. destruct (key_wf k key Ks Wk Dk Kg) as [W1 D1].
  assert (Wm : jwf (JObj m) = true /\ jdepth (JObj m) <= S 105).
  { apply (wf_holds _ _ 105 Hm). intros n v [I|I]; [injection I as <- <-; repeat split; cbn; lia|]. destruct enc; [|destruct I].
    destruct I as [I|[]]. injection I as <- <-. split; [reflexivity|]. unfold jwf in *. cbn [jtext_ok jsorted jdepth forallb snd fst map fold_right keys_sorted] in *.
    apply andb_true_iff in W1 as [W1 W2]. rewrite W1, W2. split; [reflexivity|lia]. }
  destruct Wm as [Wm Dm].
  assert (X : jwf (JObj o) = true /\ jdepth (JObj o) <= S 126); [|exact X].
  apply (wf_holds _ _ 126 Ho). intros n v I. cbn [In] in I.
  assert (T : forall s, utf8_valid s = true -> jwf (JStr s) = true /\ jdepth (JStr s) <= 126).
  { intros s H. unfold jwf. cbn. rewrite H. split; [reflexivity|lia]. }
  repeat (destruct I as [I|I]); try contradiction; injection I as <- <-; (split; [reflexivity|]);
    first [apply T; first [exact Hn|exact Hr|destruct enc; reflexivity|exact (utf8_valid_cat "x509_san_dns:" dns eq_refl Hd)]
          |split; [exact Wm|lia] |split; [reflexivity|cbn; lia]].
Qed.

(* the parameters of the authorization URL *)
Lemma params_by_reference p c r : param_pairs p = [("client_id", c); ("request_uri", r)] ->
  p = mk_params (Some c) None (Some r) None None None None None None.
Proof.
  destruct p as [x1 x2 x3 x4 x5 x6 x7 x8 x9]. unfold param_pairs. cbn [pa_client_id pa_request pa_request_uri pa_response_type pa_nonce pa_state pa_response_mode pa_response_uri pa_dcql_query].
  cbn [flat_map snd fst].
  destruct x1, x2, x3; cbn [app]; intros H; try discriminate H;
    destruct x4, x5, x6, x7, x8, x9; cbn [app] in H; try discriminate H; now injection H as -> ->.
Qed.
Lemma set_query_str u q : u_query u = None -> u_frag u = None -> url_str (set_query u q) = url_str u +:+ String "?" q.
Proof.
  intros Q F. unfold url_str, set_query. cbn [u_scheme u_auth u_path u_query u_frag]. rewrite Q, F. rewrite !sapp_assoc. cbn [String.append].
  repeat f_equal. now rewrite !sapp_nil_r.
Qed.

Definition encryption_key' (key : obj) : Prop := text_at "kid" key "enc-key-1" /\ text_at "alg" key "ECDH-ES" /\ text_at "use" key "enc".
Definition asked : dcql :=
  dcql_new [mk_cred "pid" DcSdJwt [("vct_values", jstrs ["urn:eudi:pid:1"])] None None None None None].
Lemma asks_get o dns nonce k enc r : asks o dns nonce k enc r ->
  text_at "client_id" o ("x509_san_dns:" +:+ dns) /\ text_at "response_mode" o (if enc then "direct_post.jwt" else "direct_post")
  /\ text_at "response_uri" o (url_str r) /\ text_at "nonce" o nonce /\ absent "state" o
  /\ obj_get "dcql_query" o = Some (dcql_to_json asked)
  /\ exists m key, obj_get "client_metadata" o = Some (JObj m) /\ same_material k key /\ encryption_key' key
     /\ (enc = true -> client_keys m [key]).
Proof.
  intros (meta & (m & key & -> & [Ks Hm] & Kk & Kg) & [So Ho]). unfold text_at, absent.
  split; [apply Ho; cbn; tauto|]. split; [apply Ho; cbn; tauto|]. split; [apply Ho; cbn; tauto|]. split; [apply Ho; cbn; tauto|]. split.
  { destruct (obj_get "state" o) as [v|] eqn:E; [|reflexivity]. apply Ho in E. exfalso. cbn [In] in E.
    repeat (destruct E as [E|E]; [discriminate E|]). destruct E. }
  split. { apply Ho. cbn [In]. do 6 right. left. reflexivity. }
  exists m, key. split; [apply Ho; cbn; tauto|]. split.
  { intros n N. rewrite Kg. cbn [In] in N. repeat match goal with |- context [String.eqb n ?t] => destruct (String.eqb_spec n t) as [->|?]; [tauto|] end. reflexivity. }
  split. { split; [|split]; unfold text_at; rewrite Kg; reflexivity. }
  intros ->. exists (JObj [("keys", JArr [JObj key])]). split; [apply Hm; cbn; tauto|]. left. eexists. split; [reflexivity|]. reflexivity.
Qed.

Lemma asks_read up o dns nonce k enc r a : asks o dns nonce k enc r -> accepted up o a -> up (url_str r) = Some r ->
  aro_dcql a = Some (Ok asked) /\ ro_mode a = (if enc then DirectPostJwt else DirectPost) /\ ro_return a = r /\ ro_nonce a = nonce
  /\ ro_client_id a = Some ("x509_san_dns:" +:+ dns) /\ aro_state a = None /\ redirect_uri_bound a = true.
Proof.
  intros H Ac Hu. destruct (asks_get _ _ _ _ _ _ H) as (H1 & H2 & H3 & H4 & H5 & H6 & _). destruct Ac as [A1 A2 _ A4 _ A6 _ A8].
  assert (C : ro_client_id a = Some ("x509_san_dns:" +:+ dns)).
  { unfold text_at, absent in *. destruct (ro_client_id a); congruence. }
  assert (M : ro_mode a = if enc then DirectPostJwt else DirectPost).
  { destruct A4 as [[A4 _]|(t & A4 & ->)]; [unfold text_at, absent in *; congruence|]. rewrite (text_unique _ _ _ _ A4 H2). now destruct enc. }
  split. { unfold aro_dcql, aro_get, uo_get. cbn [tp_key p_dcql]. rewrite A1, H6. vm_compute. reflexivity. }
  split; [exact M|]. split. { rewrite M in A8. assert (exists s, text_at "response_uri" o s /\ up s = Some (ro_return a)) as (s & S1 & S2) by (destruct enc; exact A8).
    rewrite (text_unique _ _ _ _ S1 H3) in S2. congruence. }
  split; [eapply text_unique; eassumption|]. split; [exact C|]. split.
  { unfold aro_state, aro_get, uo_get. cbn [tp_key tp_of p_state p_string]. now rewrite A1, H5. }
  unfold redirect_uri_bound. rewrite C. cbn [strip_prefix String.append]. reflexivity.
Qed.

Lemma asked_matches lower store : (exists c, In c store /\ is_pid c) ->
  exists c, In c store /\ is_pid c /\ match_query lower store asked = Ok [("pid", [mc_raw c])].
Proof.
  intros (c0 & I0 & F0 & V0). set (cq := mk_cred "pid" DcSdJwt [("vct_values", jstrs ["urn:eudi:pid:1"])] None None None None None).
  assert (L : lists_types cq) by (exists [JStr "urn:eudi:pid:1"]; reflexivity).
  assert (E : exists sel, match_query lower store asked = Ok sel).
  { apply c67_complete_pf. split; [discriminate|]. intros x [<-|[]]. exists c0. split; [exact I0|]. split; [now left|]. split.
    - intros _. exists "urn:eudi:pid:1". split; [exact V0|]. exists [JStr "urn:eudi:pid:1"]. split; [reflexivity|now left].
    - split; intros N; now destruct (N L). }
  destruct E as (sel & E). unfold match_query in E. apply rbind_ok in E as (s & Em & E). cbn [asked dcql_new dq_credentials match_all] in Em.
  apply rbind_ok in Em as (c & Ec & Em). cbn [cq_id sel_add] in Em. injection Em as <-. exists c.
  assert (Eq : match_query lower store asked = Ok [("pid", [mc_raw c])]).
  { unfold match_query. cbn [asked dcql_new dq_credentials match_all]. rewrite Ec. reflexivity. }
  fold cq in Ec. rewrite match_find in Ec. apply ok_or_ok in Ec. apply find_some in Ec as [I S]. apply qualifies_iff in S. split; [exact I|]. split; [|exact Eq].
  destruct S as ([S|(x & y & _ & S & _)] & T & _); [|discriminate S]. split; [exact S|]. destruct (T L) as (v & Tv & l & Tl & Ti).
  cbn in Tl. injection Tl as <-. destruct Ti as [Ti|[]]. congruence.
Qed.

Lemma hexdig_sweep : forallb (fun d => is_ascii (hexdig d)) [0;1;2;3;4;5;6;7;8;9;10;11;12;13;14;15]%N = true.
Proof. vm_compute. reflexivity. Qed.
Lemma hex_ascii n : forall x, utf8_valid (hex_digits n x) = true.
Proof.
  induction n as [|n IH]; intros x; [reflexivity|]. cbn [hex_digits]. apply utf8_valid_cat; [apply IH|]. unfold s1. rewrite utf8_cons_ascii; [reflexivity|].
  apply (proj1 (forallb_forall _ _) hexdig_sweep). apply small_in, N.mod_lt. discriminate.
Qed.
Lemma uuid_utf8 u : utf8_valid (uuid_str u) = true.
Proof. unfold uuid_str. repeat (apply utf8_valid_cat; [first [reflexivity|apply hex_ascii]|]). apply hex_ascii. Qed.

Lemma extended_unique b seg x y : extended b seg x -> extended b seg y -> x = y.
Proof. destruct x, y. unfold extended. cbn. intros (_ & -> & -> & -> & -> & -> & ->) (_ & -> & -> & -> & -> & -> & ->). reflexivity. Qed.
Lemma respond_run up op ad id body m sess r : (id < 2 ^ 128)%N -> st_get id m = Some sess -> utf8_valid body = true -> from_form body = Ok r ->
  exists m', serves up op ad (HResponse (uuid_str id) body) m m' (RJson 200 (JObj []))
    /\ serves up op ad (HStatus (uuid_str id)) m' m' (RJson 200 (status_json (Complete (app_validator op sess r)))).
Proof.
  intros Hid G V F. pose proof (c40_verify_response_pf id r (app_validator op) m) as C. rewrite G in C. destruct C as (m' & C & _ & s' & G' & _ & St).
  exists m'. split.
  - exists [(sess, r)]. cbn [handler]. unfold receive_response. rewrite V, (uuid_back id Hid), F, run_pfinish. unfold verify_response in C. now rewrite C.
  - exists []. cbn [handler]. unfold get_status. rewrite (uuid_back id Hid), run_pfinish. unfold poll_code. cbn [Session.run]. unfold get_session, ok_or. rewrite G'.
    cbn [Session.run rmap status_reply]. now rewrite St.
Qed.

(** C79: the two examples work together: for a wallet that holds an SD-JWT PID and whose HTTP client reaches the
    verifier, following the authorization URL that the verifier answers ends with success in the wallet after one
    POST, to the response endpoint of that session, with 200 for that POST, and with the verifier's status reporting
    success: one credential received, or in the encrypted mode the claims with exactly a PID of the wallet, presented
    for the verifier's client id and nonce. *)
Lemma c79_interop_pf
  : forall (key : Type) (url_parse : string -> option url) (ssi_header : obj -> option bool) (uri_ok : string -> bool)
      (jwk_ok : obj -> bool) (jwe_encrypt : obj -> obj -> obj -> res string) (jwe_open : string -> res string)
      (lower sign : string -> string) (now : Z)
      (to_der : cert -> res string) (c : cert) (s : signer key) (alg : string) (k : obj) (public : url) (encrypted : bool) (a : adapter)
      (nonce : option string) (fresh id : uuid) (m m1 : store) (answer : obj) (query : string)
      (http : http_client) (endpoint : url) (credentials : list credential) (p : params),
    (* the verifier *)
    app_new url_parse to_der c s k public encrypted = Ok a -> (id < 2 ^ 128)%N ->
    sg_alg s = Ok alg -> utf8_valid alg = true ->
    (forall certs h, x5c_header alg certs = JObj h -> ssi_header h = Some true) ->
    (forall d, certified c d -> utf8_valid d = true) -> (forall n, nonce = Some n -> utf8_valid n = true) ->
    jwf (JObj k) = true -> jdepth (JObj k) <= 100 ->
    (encrypted = true ->
       text_at "crv" k "P-256"
       /\ forall pub, same_material k pub ->
            jwk_ok pub = true
            /\ forall header claims, exists jwe, jwe_encrypt header claims pub = Ok jwe /\ utf8_valid jwe = true
                 /\ jwe_open jwe = Ok (jprint (JObj claims))) ->
    (* it is asked to initiate a presentation *)
    serves url_parse jwe_open a (HInitiate nonce fresh id) m m1 (RJson 200 (JObj answer)) ->
    (* the network *)
    (forall segment r, In segment ["request"; "response"] -> at_session public segment id r ->
       utf8_valid (url_str r) = true /\ url_parse (url_str r) = Some r /\ uri_ok (url_str r) = true) ->
    (forall request response, at_session public "request" id request -> at_session public "response" id response ->
       relays url_parse jwe_open a id request response m1 http) ->
    (* the wallet, called with the parameters of the authorization URL *)
    (forall w, url_parse conformance_wallet = Some w -> url_parse (url_str w) = Some endpoint) ->
    u_query endpoint = None -> u_frag endpoint = None ->
    text_at "authorization_url" answer (url_str endpoint +:+ "?" +:+ query) -> param_pairs p = form_parse query ->
    clock_ok now -> (forall x, In x credentials -> utf8_valid (mc_raw x) = true) ->
    (exists x, In x credentials /\ is_pid x) ->
    let run := authorize url_parse ssi_header uri_ok jwk_ok jwe_encrypt lower sign now http endpoint credentials true p in
    exists response body m2 jwt m3 status info,
      at_session public "response" id response
      /\ posts (http_events (fst run)) = [wallet_post response body] /\ snd run = Ok None
      /\ serves url_parse jwe_open a (HRequest (uuid_str id)) m1 m2 (RJwt jwt)
      /\ serves url_parse jwe_open a (HResponse (uuid_str id) body) m2 m3 (RJson 200 (JObj []))
      /\ serves url_parse jwe_open a (HStatus (uuid_str id)) m3 m3 (RJson 200 status)
      /\ says_success status info
      /\ if encrypted
         then exists claims i x dns names,
                members_are info [("message", JStr "JARM response decrypted and verified"); ("decrypted_payload", JObj claims)]
                /\ claims_of claims [("pid", [i])] None /\ In x credentials /\ is_pid x /\ dns_names c (dns :: names)
                /\ presented sign now (match nonce with Some n => n | None => uuid_str fresh end) ("x509_san_dns:" +:+ dns) (mc_raw x) i
         else members_are info [("message", JStr "Verification successful"); ("credentials_received", JInt 1)].
Proof. change conformance_wallet with WALLET_AUTHORIZATION_ENDPOINT. change wallet_post with plain_post.
  intros key up ssi uok jok enc op lower sign now td c s alg k public encd a nonce fresh id m m1 ans query http ep creds p
    Ha Hid Hal Ual Hssi Hdns Hnonce Wk Dk Henc Hini Hnet Hrel Hep Qe Fe Hurl Hp Hc Hraw Hpid run.
  destruct Hini as (calls & Hini). cbn [handler] in Hini.
  destruct (c77_initiate_pf key up td c s k public encd a nonce fresh id (app_validator op) m m1 calls (JObj ans) Ha Hini)
    as (dns & names & sess & response & _ & w0 & ep0 & _ & Ed & Rs & _ & G & _ & St & _ & Ask & Ej & Ew0 & Ew0' & _ & _).
  assert (ep0 = ep) by (specialize (Hep w0 Ew0); congruence). subst ep0.
  change conformance_wallet with WALLET_AUTHORIZATION_ENDPOINT in *.
  destruct (app_inv up td c s k public encd a Ha) as (w & dns' & names' & su & ba & Ew & Ed' & Es & Eb & Ea).
  apply dns_cons in Ed. assert (dns' = dns) by congruence. subst dns'. assert (w0 = w) by congruence. subst w0.
  rewrite initiate_run in Hini. destruct (rb_prepare up (initiate_builder a nonce fresh) id (ap_wallet a)) as [[x dest]|e] eqn:Ep; [|discriminate].
  cbn [initiate_reply] in Hini. injection Hini as Hm1 _ Hans.
  assert (Eu : s_uuid x = id) by (apply prepare_inv in Ep; apply Ep).
  assert (x = sess) by (rewrite <- Hm1, st_get_insert, Eu, N.eqb_refl in G; congruence). subst x.
  destruct (Hnet "response" response (or_intror (or_introl eq_refl)) Rs) as (V1 & P1 & _).
  assert (Vd : utf8_valid dns = true) by (apply Hdns, certified_iff; rewrite Ed; now left).
  set (no := match nonce with Some n => n | None => uuid_str fresh end) in *.
  assert (Vn : utf8_valid no = true) by (unfold no; destruct nonce; [now apply Hnonce|apply uuid_utf8]).
  destruct (asks_wf _ _ _ _ _ _ Ask Vd Vn V1 Wk Dk) as [Wo Do].
  (* how the request was conveyed *)
  assert (Ac : aro_of_obj up (aro_to_obj (s_request sess)) = Ok (s_request sess)) by (apply prepare_inv in Ep; apply Ep).
  apply aro_of_inv in Ac.
  assert (Bw : build_with_session_id up (initiate_builder a nonce fresh) id (ap_wallet a) false m = (m1, Ok dest)).
  { unfold build_with_session_id, build_code. rewrite Ep. cbn. now rewrite Hm1. }
  assert (Cl : v_client (rb_verifier (initiate_builder a nonce fresh)) = mk_client ("x509_san_dns:" +:+ dns) "x509_san_dns" (x509_jwt td [c] s)) by now rewrite Ea.
  assert (We : wallet_endpoint up (ap_wallet a) ep).
  { rewrite Ea. exists (url_str w). split; [|exact Ew0']. unfold text_at. cbn [ap_wallet].
    change (wm_obj (app_wallet up w)) with (obj_insert "client_id_prefixes_supported" (jstrs ["x509_san_dns"])
      (obj_insert "vp_formats_supported" (format_map_to_json sd_jwt_formats) (obj_insert "authorization_endpoint" (JStr (url_str w)) []))).
    now rewrite !obj_get_insert. }
  assert (Rd : readable_client ssi (v_client (rb_verifier (initiate_builder a nonce fresh)))).
  { rewrite Cl. eapply (c32_clients_pf key ssi (fun _ _ => true) (fun _ => Err "") td s alg "" [c]); [exact Hal|exact Ual|exact Hssi|].
    right. unfold x509_san_client. rewrite Ed. reflexivity. }
  assert (Vc : utf8_valid ("x509_san_dns:" +:+ dns) = true) by (apply utf8_valid_cat; [reflexivity|exact Vd]).
  destruct (c32_understood_pf up ssi uok http (initiate_builder a nonce fresh) id (ap_wallet a) false m m1 dest ep Bw We Rd) as (s1 & ind & G1 & Cv & Un).
  { now rewrite Cl. }
  assert (s1 = sess) by congruence. subst s1. specialize (Un Wo Do).
  assert (Bv : v_byref (rb_verifier (initiate_builder a nonce fresh)) = Some ba) by now rewrite Ea.
  unfold conveyed in Cv. rewrite Bv in Cv. destruct Cv as (request & Xr & -> & _). rewrite Eu in Xr.
  assert (Rq : at_session public "request" id request) by (exists ba; split; [now apply join_sibling|exact Xr]).
  destruct (Hnet "request" request (or_introl eq_refl) Rq) as (V2 & P2 & K2).
  (* the server's side of the fetch *)
  destruct (Hrel request response Rq Rs) as (m2 & r2 & Hf & Hget & Hpost). pose proof Hf as (cs2 & Hfetch).
  cbn [handler] in Hfetch. unfold get_request_object in Hfetch. rewrite (uuid_back id Hid), run_pfinish in Hfetch.
  unfold retrieve_code in Hfetch. cbn [Session.run] in Hfetch. unfold get_session, ok_or in Hfetch. rewrite G in Hfetch. rewrite St in Hfetch.
  change (status_lt SentRequestByReference SentRequest) with true in Hfetch. cbn [Session.run] in Hfetch. unfold update_status in Hfetch. rewrite G in Hfetch.
  cbn [Session.run rmap request_reply] in Hfetch. injection Hfetch as Hm2 _ Hr2. subst r2.
  (* what the wallet understands *)
  destruct Un as [Uf Ur].
  { intros r [= <-]. repeat (split; [assumption|]). exists 200%N. split; [lia|]. intros rq Q1 Q2. exact (Hget rq Q1 Q2). }
  rewrite Cl in Uf, Ur. cbn [cl_client_id] in Uf, Ur.
  apply prepare_inv in Ep as (_ & _ & _ & _ & _ & _ & ind & ep1 & Cv & We1 & To). unfold conveyed in Cv. rewrite Bv in Cv.
  destruct Cv as (r' & Xr' & -> & _). rewrite Eu in Xr'. pose proof (extended_unique _ _ _ _ Xr' Xr) as ->.
  assert (ep1 = ep).
  { destruct We as (t & W1 & W2), We1 as (t0 & W3 & W4). pose proof (text_unique _ _ _ _ W1 W3) as <-. congruence. }
  subst ep1. rewrite Cl in To. unfold to_url in To. cbn [to_pairs ar_client_id ar_indirection rbind app cl_client_id] in To.
  apply (f_equal (fun r => match r with Ok x => x | Err _ => ep end)) in To. cbv beta iota in To.
  set (pairs := [("client_id", "x509_san_dns:" +:+ dns); ("request_uri", url_str request)]) in *.
  assert (Eqs : query = form_serialize pairs).
  { unfold text_at in Hurl. rewrite <- Hans in Hurl. cbn [obj_get] in Hurl. change (String.eqb "authorization_url" "authorization_url") with true in Hurl.
    injection Hurl as Hurl. rewrite <- To, set_query_str in Hurl by assumption. apply sapp_inv_head in Hurl. now injection Hurl as <-. }
  rewrite Eqs, form_parse_serialize in Hp. 2:{ repeat constructor; cbn [fst snd]; assumption. }
  pose proof (params_by_reference p _ _ Hp) as Ep'.
  assert (Ef : from_url up (build_request_url ep p) ep = Ok (mk_ar (Some ("x509_san_dns:" +:+ dns)) (ByReference request))).
  { unfold build_request_url. rewrite Qe, Hp, To. exact Uf. }
  destruct (asks_read up _ _ _ _ _ _ _ Ask Ac P1) as (A1 & A2 & A3 & A4 & A5 & A6 & A7).
  destruct (asked_matches lower creds Hpid) as (cr & Ic & Pc & Ms).
  set (item := present sign now no ("x509_san_dns:" +:+ dns) (mc_raw cr)).
  set (vp := [("pid", [item])] : vp_token).
  destruct (present_utf8 sign now no ("x509_san_dns:" +:+ dns) (mc_raw cr) item (Hraw cr Ic) eq_refl) as [Io Ino].
  pose proof (present_presented sign now no ("x509_san_dns:" +:+ dns) (mc_raw cr) Hc Vn Vc) as Pp. fold item in Pp.
  assert (Nd : NoDup (map fst vp)) by (repeat constructor; cbn; tauto).
  assert (Tk : token_ok vp).
  { split; [exact Nd|]. intros i0 items [I|[]]. injection I as <- <-. split; [reflexivity|]. intros y [<-|[]]. exact Io. }
  assert (Nt : nested_at_most 125 vp).
  { intros i0 items o [I|[]] J. injection I as <- <-. destruct J as [J|[]]. now destruct (Ino o). }
  pose proof (answers up ssi uok jok enc lower sign now http ep creds p) as An.
  assert (G2 : exists s2, st_get id m2 = Some s2) by (rewrite <- Hm2, st_get_insert, N.eqb_refl; eauto). destruct G2 as (s2 & G2).
  assert (Fin : forall body r, utf8_valid body = true -> from_form body = Ok r ->
     (ro_mode (s_request sess) = DirectPost /\ body = unencoded_form (mk_unencoded vp None)
      \/ ro_mode (s_request sess) = DirectPostJwt /\ exists jwe, encrypted_answer jok enc (s_request sess) vp None = Ok jwe /\ body = form_serialize [("response", jwe)]) ->
     posts (http_events (fst run)) = [plain_post response body] /\ snd run = Ok None
     /\ exists m3, serves up op a (HResponse (uuid_str id) body) m2 m3 (RJson 200 (JObj []))
          /\ serves up op a (HStatus (uuid_str id)) m3 m3 (RJson 200 (status_json (Complete (app_validator op s2 r))))).
  { intros body r Vb Fb B. destruct (respond_run up op a id body m2 s2 r Hid G2 Vb Fb) as (m3 & S1 & S2).
    assert (Hh : http (plain_post response body) = Ok (mk_resp 200 (jprint (JObj [])))).
    { apply (Hpost (plain_post response body) m3 (RJson 200 (JObj []))); [reflexivity|reflexivity|exact S1]. }
    destruct (An _ _ _ _ _ body Ef Ur A1 Ms A7) as [X Y].
    { rewrite A4, A5, A6, Ep'. exact B. }
    rewrite A3 in X, Y. split; [exact X|]. split; [|eauto]. unfold run. rewrite Y. now apply deliver_none. }
  destruct encd.
  - destruct (Henc eq_refl) as [Crv He]. destruct (asks_get _ _ _ _ _ _ Ask) as (_ & _ & _ & _ & _ & _ & cm & pub & Gc & Sm & (K1 & K3 & K4) & Ck).
    specialize (Ck eq_refl). destruct (He pub Sm) as [Jk He']. destruct (He' (jwe_header "ECDH-ES" "A128GCM" (Some "enc-key-1")) (response_payload vp None)) as (jwe & E1 & E2 & E3).
    assert (Ea' : encrypted_answer jok enc (s_request sess) vp None = Ok jwe).
    { apply c73_encryption_pf; [split; [exact Wo|exact Do]|exact Nd|]. exists cm, [pub], pub, (Some "enc-key-1"), (jwe_header "ECDH-ES" "A128GCM" (Some "enc-key-1")), (response_payload vp None).
      split; [exact Gc|]. split; [exact Ck|]. split.
      { exists [], []. split; [reflexivity|]. split; [|intros ? []]. split; [exact K3|]. split.
        - unfold text_at. rewrite Sm; [exact Crv|]. cbn. intros [X|[X|[X|[]]]]; discriminate X.
        - intros u Hu. eapply text_unique; eassumption. }
      split; [exact Jk|]. split; [exact K1|]. split; [apply jwe_header_is|]. split; [now apply payload_is|exact E1]. }
    destruct (Fin (form_serialize [("response", jwe)]) (Jwt jwe)) as (F1 & F2 & m3 & F3 & F4).
    { apply form_utf8. } { now apply (c42_jwt_pf jwe). } { right. split; [exact A2|]. eauto. }
    assert (Wp : jwf (JObj (response_payload vp None)) = true /\ jdepth (JObj (response_payload vp None)) <= 127).
    { unfold vp. destruct item as [t|t]; [|now destruct (Ino t)]. cbn [item_ok] in Io. unfold jwf. cbn. rewrite Io. split; [reflexivity|lia]. }
    destruct Wp as [Wp Dp].
    exists response, (form_serialize [("response", jwe)]), m2, (s_jwt sess), m3. eexists. exists (JObj [("decrypted_payload", JObj (response_payload vp None)); ("message", JStr "JARM response decrypted and verified")]).
    split; [exact Rs|]. split; [exact F1|]. split; [exact F2|]. split; [exact Hf|]. split; [exact F3|]. split; [exact F4|].
    cbn [app_validator]. unfold decrypt. rewrite E3. cbn [rbind]. rewrite json_text_rt by assumption. cbn [ok_or status_json].
    split; [apply members_of; [reflexivity|]; cbn [In]; tauto|].
    exists (response_payload vp None), item, cr, dns, names. split; [apply members_of; [reflexivity|]; cbn [In]; tauto|].
    split; [now apply payload_is|]. apply dns_cons in Ed. auto.
  - destruct (Fin (unencoded_form (mk_unencoded vp None)) (Unencoded (mk_unencoded vp None))) as (F1 & F2 & m3 & F3 & F4).
    { apply form_utf8. } { apply c42_roundtrip_pf; [exact Tk|intros ? X; discriminate X|exact Nt]. } { left. split; [exact A2|reflexivity]. }
    exists response, (unencoded_form (mk_unencoded vp None)), m2, (s_jwt sess), m3. eexists.
    exists (JObj [("credentials_received", JInt 1); ("message", JStr "Verification successful")]).
    split; [exact Rs|]. split; [exact F1|]. split; [exact F2|]. split; [exact Hf|]. split; [exact F3|]. split; [exact F4|].
    split; (apply members_of; [reflexivity|]; cbn [In]; tauto).
Qed.

(* a verifier and a wallet that talk to each other *)
Lemma sibling_join base seg r : sibling base seg r -> join_last base seg = Ok r.
Proof.
  intros (O & O' & S & A & Q & F & dir & P & D). unfold join_last. rewrite O. destruct r as [rs ra rp ro rq rf]. cbn in *. subst. f_equal. f_equal. f_equal.
  destruct D as [(l & E & N)|[N ->]].
  - assert (X : rsplit_once "/" (u_path base) = Some (dir, l)) by (apply rsplit_once_some; auto). now rewrite X.
  - apply rsplit_once_none in N. now rewrite N.
Qed.
Lemma at_session_unique public seg u x y : at_session public seg u x -> at_session public seg u y -> x = y.
Proof.
  intros (b & B & X) (b' & B' & Y). apply sibling_join in B, B'. assert (b' = b) by congruence. subst. eapply extended_unique; eassumption.
Qed.
Definition pair_key : obj := [("crv", JStr "P-256"); ("kty", JStr "EC")].
Definition pair_new (enc : bool) : res adapter :=
  app_new simple_parse (fun c => Ok (c_spki c)) (named ["v.example"] "K") (mk_signer (Ok "ES256") (Ok "k") (fun _ => "sig"))
    pair_key (toy_url "https://v.example/") enc.
Definition pair_adapter (enc : bool) : adapter :=
  match pair_new enc with Ok a => a | Err _ => mk_app (mk_verifier toy_client [] None (toy_url "https://x/")) toy_wm (toy_url "https://x/") end.
Definition pair_open (jwe : string) : res string := ok_or (b64url_decode jwe) "invalid JWE".
Definition pair_encrypt (header claims key : obj) : res string := Ok (b64url_encode (jprint (JObj claims))).
Definition pair_serve (enc : bool) (h : hreq) (m : store) : store * res reply :=
  let '(m', _, r) := run false (app_validator pair_open) (handler simple_parse (pair_adapter enc) h) m in (m', r).
Definition carried (r : res reply) : res http_resp :=
  match r with
  | Ok (RJson st j) => Ok (mk_resp st (jprint j))
  | Ok (RJwt t) => Ok (mk_resp 200 t)
  | Ok (RError st) => Ok (mk_resp st "")
  | Err e => Err e
  end.
Definition pair_store (enc : bool) : store := fst (pair_serve enc (HInitiate (Some "n") 1%N 7%N) []).
Definition pair_http (enc : bool) : http_client := fun rq =>
  let (m2, r) := pair_serve enc (HRequest (uuid_str 7%N)) (pair_store enc) in
  if String.eqb (rq_method rq) "GET" then carried r else carried (snd (pair_serve enc (HResponse (uuid_str 7%N) (rq_body rq)) m2)).
Definition pair_endpoint : url := toy_url WALLET_AUTHORIZATION_ENDPOINT.
Definition pair_params : params :=
  mk_params (Some "x509_san_dns:v.example") None (Some ("https://v.example/request/" +:+ uuid_str 7%N)) None None None None None None.
Definition pair_credential : credential := mk_credential "1" DcSdJwt (Some "urn:eudi:pid:1") None "iss~d~kb" [].
Definition pair_run (enc : bool) : M wevent (option string) :=
  authorize simple_parse (fun _ => Some true) (fun _ => true) (fun _ => true) pair_encrypt (fun s => s) (fun _ => "S") 5 (pair_http enc)
    pair_endpoint [pair_credential] true pair_params.

Definition pair_answer : obj :=
  [("authorization_url", JStr (url_str pair_endpoint +:+ "?" +:+ form_serialize (param_pairs pair_params)));
   ("session_id", JStr (uuid_str 7%N)); ("status_url", JStr ("https://v.example//status/" +:+ uuid_str 7%N))].
Example c79_interop_ex : forall enc : bool,
  exists response body, posts (http_events (fst (pair_run enc))) = [wallet_post response body] /\ snd (pair_run enc) = Ok None.
Proof. change wallet_post with plain_post.
  intros enc.
  assert (Pn : pair_new enc = Ok (pair_adapter enc)).
  { assert (O : is_ok (pair_new enc) = true) by (destruct enc; vm_compute; reflexivity).
    unfold pair_adapter. destruct (pair_new enc); [reflexivity|discriminate O]. }
  assert (In0 : exists calls ans, run false (app_validator pair_open) (handler simple_parse (pair_adapter enc) (HInitiate (Some "n") 1%N 7%N)) []
                              = (pair_store enc, calls, Ok (RJson 200 (JObj ans)))
      /\ text_at "authorization_url" ans (url_str pair_endpoint +:+ "?" +:+ form_serialize (param_pairs pair_params))).
  { assert (X : snd (pair_serve enc (HInitiate (Some "n") 1%N 7%N) []) = Ok (RJson 200 (JObj pair_answer))) by (destruct enc; vm_compute; reflexivity).
    unfold pair_store. unfold pair_serve in *.
    destruct (run false (app_validator pair_open) (handler simple_parse (pair_adapter enc) (HInitiate (Some "n") 1%N 7%N)) []) as [[m' calls] r].
    cbn [fst snd] in *. subst r. exists calls, pair_answer. split; reflexivity. }
  destruct In0 as (calls & ans & I0 & U0).
  assert (Ns : forall seg r, In seg ["request"; "response"] -> at_session (toy_url "https://v.example/") seg 7%N r ->
     utf8_valid (url_str r) = true /\ simple_parse (url_str r) = Some r /\ true = true).
  { intros seg r Hs A.
    assert (X : exists r0, push_segment (mk_url "https" (Some "v.example") ("/" +:+ seg) false None None) (uuid_str 7%N) = Ok r0
       /\ utf8_valid (url_str r0) = true /\ simple_parse (url_str r0) = Some r0).
    { destruct Hs as [<-|[<-|[]]]; eexists; (split; [reflexivity|]); vm_compute; split; reflexivity. }
    destruct X as (r0 & X0 & X1 & X2). assert (r = r0); [|subst; auto].
    eapply at_session_unique; [exact A|]. eexists. split; [apply join_sibling; reflexivity|]. apply push_iff. exact X0. }
  destruct (c79_interop_pf _ simple_parse (fun _ => Some true) (fun _ => true) (fun _ => true) pair_encrypt pair_open (fun s => s) (fun _ => "S") 5
     _ _ _ "ES256" _ _ enc (pair_adapter enc) (Some "n") 1%N 7%N [] (pair_store enc) ans (form_serialize (param_pairs pair_params)) (pair_http enc) pair_endpoint [pair_credential] pair_params Pn)
    as (response & body & _ & _ & _ & _ & _ & _ & X & Y & _).
  - reflexivity.
  - reflexivity.
  - reflexivity.
  - reflexivity.
  - intros d D. apply certified_iff in D. destruct D as [<-|[]]. reflexivity.
  - intros n [= <-]. reflexivity.
  - reflexivity.
  - apply Nat.leb_le. vm_compute. reflexivity.
  - intros _. split; [reflexivity|]. intros pub _. split; [reflexivity|]. intros h cl. eexists. split; [reflexivity|]. split; [apply b64_utf8|].
    unfold pair_open. now rewrite b64url_rt.
  - exists calls. exact I0.
  - exact Ns.
  - intros rq rs _ _. unfold relays, serves.
    destruct (run false (app_validator pair_open) (handler simple_parse (pair_adapter enc) (HRequest (uuid_str 7%N))) (pair_store enc)) as [[m2 cs] r2] eqn:E2.
    assert (R2 : exists r, r2 = Ok r).
    { cbn [handler] in E2. unfold get_request_object in E2. rewrite uuid_back, run_pfinish in E2 by reflexivity.
      destruct (run false (app_validator pair_open) (retrieve_code 7%N) (pair_store enc)) as [[? ?] ?]. injection E2 as _ _ <-. eauto. }
    destruct R2 as (r & ->). exists m2, r. split; [eauto|]. unfold pair_http, pair_serve. rewrite E2.
    assert (C : forall x r, x = carried (Ok r) -> carries x r) by (intros x y ->; destruct y; cbn; eauto).
    split.
    + intros rq0 -> _. apply C. reflexivity.
    + intros rq0 m3 r3 -> _ (cs3 & E3). rewrite E3. apply C. reflexivity.
  - intros w W. vm_compute in W. injection W as <-. vm_compute. reflexivity.
  - reflexivity.
  - reflexivity.
  - exact U0.
  - vm_compute. reflexivity.
  - reflexivity.
  - intros x [<-|[]]. reflexivity.
  - exists pair_credential. split; [now left|]. split; reflexivity.
  - exists response, body. split; [exact X|exact Y].
Qed.
