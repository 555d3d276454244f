From Coq Require Import Lia.
From Verif Require Import Base BaseFacts Utf8 Utf8Facts Json JsonFacts JsonText JsonTextFacts Base64 Base64Facts UrlEncoded UrlEncodedFacts Url Serde Object Formats Params Metadata Dcql Effects Jwt Request Verify Did X509 Client Response Session Builder.
From Verif Require Import MapFacts Spec ParamFacts SpecObject SpecRequest SpecVerify SpecBuilder StoreFacts PfRequest PfResolve PfVerify PfDid PfX509 PfText PfClient.

(* ---------------------------------------------------------------- uuid text *)
Lemma hexdig_sweep : forallb (fun a => forallb (fun b => implb (Ascii.eqb (hexdig a) (hexdig b)) (N.eqb a b))
  [0;1;2;3;4;5;6;7;8;9;10;11;12;13;14;15]%N) [0;1;2;3;4;5;6;7;8;9;10;11;12;13;14;15]%N = true.
Proof. vm_compute. reflexivity. Qed.
Lemma small_in a : (a < 16)%N -> In a [0;1;2;3;4;5;6;7;8;9;10;11;12;13;14;15]%N.
Proof.
  intros H. destruct (N.to_nat a) as [|n] eqn:E; cbn.
  - left. lia.
  - do 15 (destruct n as [|n]; [right; lia|]). lia.
Qed.
Lemma hexdig_inj a b : (a < 16 -> b < 16 -> hexdig a = hexdig b -> a = b)%N.
Proof.
  intros A B E. pose proof (proj1 (forallb_forall _ _) hexdig_sweep a (small_in a A)) as H. cbn beta in H.
  pose proof (proj1 (forallb_forall _ _) H b (small_in b B)) as H1. cbn beta in H1. rewrite E, Ascii.eqb_refl in H1.
  now apply N.eqb_eq.
Qed.
Lemma hex_len n : forall x, String.length (hex_digits n x) = n.
Proof. induction n as [|n IH]; intros x; cbn [hex_digits]; [reflexivity|]. rewrite slen_app, IH. cbn. lia. Qed.
Lemma hex_inj n : forall x y, hex_digits n x = hex_digits n y -> (x mod 16 ^ N.of_nat n = y mod 16 ^ N.of_nat n)%N.
Proof.
  induction n as [|n IH]; intros x y H.
  - cbn. now rewrite !N.mod_1_r.
  - cbn [hex_digits] in H. assert (L : String.length (hex_digits n (x / 16)) = String.length (hex_digits n (y / 16))) by now rewrite !hex_len.
    destruct (sapp_inv_len _ _ _ _ L H) as [H1 H2]. apply IH in H1.
    injection H2 as H2. apply hexdig_inj in H2; try (apply N.mod_lt; discriminate).
    rewrite Nat2N.inj_succ, N.pow_succ_r', !N.mod_mul_r by (try apply N.pow_nonzero; discriminate). now rewrite H1, H2.
Qed.
Lemma glue a b x y : (a <> 0 -> b <> 0 -> x mod a = y mod a -> (x / a) mod b = (y / a) mod b -> x mod (a * b) = y mod (a * b))%N.
Proof. intros A B H1 H2. now rewrite !N.mod_mul_r, H1, H2 by assumption. Qed.
Lemma uuid_str_inj u u' : (u < 2 ^ 128)%N -> (u' < 2 ^ 128)%N -> uuid_str u = uuid_str u' -> u = u'.
Proof.
  intros B B' H. unfold uuid_str in H.
  apply sapp_inv_len in H as [H1 H]; [|now rewrite !hex_len]. apply sapp_inv_head in H.
  apply sapp_inv_len in H as [H2 H]; [|now rewrite !hex_len]. apply sapp_inv_head in H.
  apply sapp_inv_len in H as [H3 H]; [|now rewrite !hex_len]. apply sapp_inv_head in H.
  apply sapp_inv_len in H as [H4 H]; [|now rewrite !hex_len]. apply sapp_inv_head in H.
  apply hex_inj in H, H1, H2, H3, H4.
  assert (E : (u mod (2 ^ 48 * 2 ^ 16 * 2 ^ 16 * 2 ^ 16 * 2 ^ 32) = u' mod (2 ^ 48 * 2 ^ 16 * 2 ^ 16 * 2 ^ 16 * 2 ^ 32))%N).
  { repeat (apply glue; [discriminate|discriminate| |]); assumption. }
  change (2 ^ 48 * 2 ^ 16 * 2 ^ 16 * 2 ^ 16 * 2 ^ 32)%N with (2 ^ 128)%N in E. now rewrite !N.mod_small in E.
Qed.
Lemma hexdig_ascii : forallb (fun a => is_ascii (hexdig a)) [0;1;2;3;4;5;6;7;8;9;10;11;12;13;14;15]%N = true.
Proof. vm_compute. reflexivity. Qed.
Lemma hex_ascii n : forall x, str_all is_ascii (hex_digits n x) = true.
Proof.
  induction n as [|n IH]; intros x; [reflexivity|]. cbn [hex_digits]. rewrite str_all_app, IH. cbn [andb str_all s1].
  rewrite (proj1 (forallb_forall _ _) hexdig_ascii); [reflexivity|]. apply small_in, N.mod_lt. discriminate.
Qed.
Lemma uuid_ascii u : str_all is_ascii (uuid_str u) = true.
Proof. unfold uuid_str. now rewrite !str_all_app, !hex_ascii. Qed.

(* ------------------------------------------------------------------- push *)
Lemma push_iff base seg r : push_segment base seg = Ok r <-> extended base seg r.
Proof.
  unfold push_segment, extended. destruct base as [sc au p op q f], r as [sc' au' p' op' q' f']; cbn.
  destruct op.
  - split; [discriminate|]. intros [H _]. discriminate.
  - assert (E : match p with String _ "" => p +:+ seg | _ => p +:+ String "/" seg end
                = p +:+ (if String.length p =? 1 then "" else "/")%nat +:+ seg).
    { destruct p as [|c [|d p]]; reflexivity. }
    rewrite E. split.
    + intros H. injection H as <- <- <- <- <- <-. repeat split; reflexivity.
    + intros (_ & -> & -> & -> & -> & -> & ->). reflexivity.
Qed.

(* ---------------------------------------------------------- built requests *)
Lemma mode_text m : (mode_of_string m = DirectPost -> m = "direct_post") /\ (mode_of_string m = DirectPostJwt -> m = "direct_post.jwt")
  /\ (mode_of_string m = DcApi -> m = "dc_api") /\ (mode_of_string m = DcApiJwt -> m = "dc_api.jwt").
Proof.
  unfold mode_of_string. destruct (String.eqb_spec m "direct_post"); [repeat split; congruence|].
  destruct (String.eqb_spec m "direct_post.jwt"); [repeat split; congruence|].
  destruct (String.eqb_spec m "dc_api"); [repeat split; congruence|].
  destruct (String.eqb_spec m "dc_api.jwt"); repeat split; congruence.
Qed.

Section B.
Variable up : string -> option url.
Variable b : request_builder.
Variable u : uuid.

Lemma complete_inv q ps : rb_complete up b u = Ok (q, ps) ->
  rb_dcql b = Some q /\ text_at "client_id" ps (cl_client_id (v_client (rb_verifier b)))
  /\ obj_get "dcql_query" ps = Some (dcql_to_json q)
  /\ (forall k, k <> "client_id" -> k <> "dcql_query" -> k <> "response_uri" -> obj_get k ps = obj_get k (rb_params b))
  /\ exists mode, text_at "response_mode" (rb_params b) mode
     /\ ((mode = "direct_post" \/ mode = "direct_post.jwt")
         /\ (exists r, extended (v_submission (rb_verifier b)) (uuid_str u) r /\ text_at "response_uri" ps (url_str r))
         \/ (mode = "dc_api" \/ mode = "dc_api.jwt") /\ obj_get "response_uri" ps = obj_get "response_uri" (rb_params b)).
Proof.
  unfold rb_complete. intros H. apply rbind_ok in H as (q' & Eq & H). apply ok_or_ok in Eq.
  apply rbind_ok in H as (rt & _ & H). apply rbind_ok in H as (m & Em & H).
  set (ps0 := uo_put p_dcql q' (uo_put p_client_id (cl_client_id (v_client (rb_verifier b))) (rb_params b))) in *.
  assert (G : forall k, obj_get k ps0 = if String.eqb k "dcql_query" then Some (dcql_to_json q')
      else if String.eqb k "client_id" then Some (JStr (cl_client_id (v_client (rb_verifier b)))) else obj_get k (rb_params b)).
  { intros k. change ps0 with (obj_insert "dcql_query" (dcql_to_json q') (obj_insert "client_id" (JStr (cl_client_id (v_client (rb_verifier b)))) (rb_params b))).
    now rewrite !obj_get_insert. }
  assert (M : exists s, text_at "response_mode" (rb_params b) s /\ m = mode_of_string s).
  { unfold uo_get in Em. cbn [tp_key tp_of p_response_mode] in Em. rewrite G in Em. cbn [String.eqb Ascii.eqb Bool.eqb] in Em.
    unfold text_at. destruct (obj_get "response_mode" (rb_params b)) as [v|]; [|discriminate].
    destruct v; cbn in Em; try discriminate. injection Em as <-. eauto. }
  destruct M as (s & Es & ->). pose proof (mode_text s) as (M1 & M2 & M3 & M4).
  assert (P0 : text_at "client_id" ps0 (cl_client_id (v_client (rb_verifier b)))) by (unfold text_at; now rewrite G).
  assert (P1 : obj_get "dcql_query" ps0 = Some (dcql_to_json q')) by now rewrite G.
  assert (P2 : forall k, k <> "client_id" -> k <> "dcql_query" -> obj_get k ps0 = obj_get k (rb_params b)).
  { intros k A B. rewrite G. destruct (String.eqb_spec k "dcql_query"); [contradiction|]. destruct (String.eqb_spec k "client_id"); [contradiction|reflexivity]. }
  assert (D : forall r, let ps1 := uo_put (p_response_uri up) r ps0 in
     text_at "client_id" ps1 (cl_client_id (v_client (rb_verifier b))) /\ obj_get "dcql_query" ps1 = Some (dcql_to_json q')
     /\ (forall k, k <> "client_id" -> k <> "dcql_query" -> k <> "response_uri" -> obj_get k ps1 = obj_get k (rb_params b))
     /\ text_at "response_uri" ps1 (url_str r)).
  { intros r. change (uo_put (p_response_uri up) r ps0) with (obj_insert "response_uri" (JStr (url_str r)) ps0). cbv zeta. unfold text_at. repeat split.
    - rewrite obj_get_insert. exact P0.
    - rewrite obj_get_insert. exact P1.
    - intros k A B C. rewrite obj_get_insert. destruct (String.eqb_spec k "response_uri"); [contradiction|auto].
    - rewrite obj_get_insert. reflexivity. }
  destruct (mode_of_string s) eqn:Em2.
  - apply rbind_ok in H as (r & Er & H). injection H as <- <-. apply push_iff in Er.
    destruct (D r) as (D1 & D2 & D3 & D4). split; [exact Eq|]. split; [exact D1|]. split; [exact D2|]. split; [exact D3|].
    exists s. split; [exact Es|]. left. split; [auto|eauto].
  - apply rbind_ok in H as (r & Er & H). injection H as <- <-. apply push_iff in Er.
    destruct (D r) as (D1 & D2 & D3 & D4). split; [exact Eq|]. split; [exact D1|]. split; [exact D2|]. split; [exact D3|].
    exists s. split; [exact Es|]. left. split; [auto|eauto].
  - injection H as <- <-. split; [exact Eq|]. split; [exact P0|]. split; [exact P1|]. split; [intros; auto|].
    exists s. split; [exact Es|]. right. split; [auto|]. apply P2; discriminate.
  - injection H as <- <-. split; [exact Eq|]. split; [exact P0|]. split; [exact P1|]. split; [intros; auto|].
    exists s. split; [exact Es|]. right. split; [auto|]. apply P2; discriminate.
  - discriminate.
Qed.

Lemma built_accepted q ps a : rb_complete up b u = Ok (q, ps) -> aro_of_obj up ps = Ok a ->
  rb_dcql b = Some q /\ aro_to_obj a = ps /\ built_object b q u (aro_to_obj a).
Proof.
  intros H Ha. apply complete_inv in H as (H1 & H2 & H3 & H4 & mode & H5 & H6). apply aro_of_inv in Ha as [A1 _ _ A4 _ _ _ A8].
  unfold aro_to_obj. rewrite A1. split; [exact H1|]. split; [reflexivity|]. unfold built_object. split; [exact H2|]. split; [exact H3|].
  split; [exact H4|]. exists mode. split; [exact H5|]. destruct H6 as [H6|[H6 H7]]; [now left|]. right. split; [exact H6|].
  assert (Hm : text_at "response_mode" ps mode).
  { unfold text_at. rewrite H4 by discriminate. exact H5. }
  destruct A4 as [[A4 _]|(s & A4 & A4')]; [unfold absent, text_at in *; congruence|].
  assert (s = mode) by (unfold text_at in *; congruence). subst s.
  destruct H6 as [-> | ->]; rewrite A4' in A8; cbn in A8; tauto.
Qed.
End B.

Lemma prepare_inv up b u wm s dest : rb_prepare up b u wm = Ok (s, dest) ->
  s_uuid s = u /\ rb_dcql b = Some (s_dcql s) /\ built_object b (s_dcql s) u (aro_to_obj (s_request s))
  /\ aro_of_obj up (aro_to_obj (s_request s)) = Ok (s_request s)
  /\ cl_jwt (v_client (rb_verifier b)) (s_request s) = Ok (s_jwt s)
  /\ (exists l, supported "client_id_prefixes_supported" ["pre-registered"] wm = Ok l /\ In (cl_prefix (v_client (rb_verifier b))) l)
  /\ exists ind ep, conveyed (rb_verifier b) s ind /\ wallet_endpoint up wm ep
     /\ to_url (mk_ar (Some (cl_client_id (v_client (rb_verifier b)))) ind) ep = Ok dest.
Proof.
  unfold rb_prepare. intros H. apply rbind_ok in H as ([q ps] & Ec & H). apply rbind_ok in H as (pf & Ep & H).
  apply rbind_ok in H as (x & Eb & H). apply of_bool_ok in Eb. apply mem_str_iff in Eb.
  apply rbind_ok in H as (a & Ea & H). apply rbind_ok in H as (jwt & Ej & H). apply rbind_ok in H as ([st ind] & Ei & H).
  apply rbind_ok in H as (ep & Eep & H). apply rbind_ok in H as (d & Ed & H). injection H as <- <-.
  cbn [s_uuid s_dcql s_request s_jwt]. destruct (built_accepted up b u q ps a Ec Ea) as (B1 & B2 & B3).
  split; [reflexivity|]. split; [exact B1|]. split; [exact B3|]. split; [now rewrite B2|]. split; [exact Ej|]. split.
  - exists pf. split; [|exact Eb]. now apply prefixes_get.
  - exists ind, ep. split; [|split; [|exact Ed]].
    + unfold conveyed. cbn [s_jwt s_status s_uuid]. destruct (v_byref (rb_verifier b)) as [at_|].
      * apply rbind_ok in Ei as (r & Er & Ei). injection Ei as <- <-. exists r. apply push_iff in Er. auto.
      * injection Ei as <- <-. auto.
    + unfold wallet_endpoint. pose proof (url_get up "authorization_endpoint" (wm_obj wm)) as U.
      unfold p_authorization_endpoint in Eep. destruct (uo_get (p_url up "authorization_endpoint") (wm_obj wm)) as [[e|e]|]; try discriminate.
      injection Eep as <-. exact U.
Qed.

(* ---------------------------------------------------------------- examples *)
Definition toy_query : dcql :=
  mk_dcql [mk_cred "pid" MsoMDoc [("doctype_value", JStr "org.iso.18013.5.1.mDL")] None None None None None] None.
Definition toy_params : obj :=
  [("nonce", JStr "n-0123456789abcdef"); ("response_mode", JStr "direct_post"); ("response_type", JStr "vp_token"); ("state", JStr "s1")].
Definition toy_url (s : string) : url := match simple_parse s with Some u => u | None => mk_url "" None "" false None None end.
Definition toy_builder (byref : bool) (c : client) : request_builder :=
  mk_rb (Some toy_query) toy_params
    (mk_verifier c [] (if byref then Some (toy_url "https://v.example/req") else None) (toy_url "https://v.example/submit")).
Definition toy_wm : wallet_metadata :=
  mk_wm [("authorization_endpoint", JStr "https://w.example/authorize");
         ("client_id_prefixes_supported", jstrs ["x509_hash"; "x509_san_dns"; "decentralized_identifier"]);
         ("request_object_signing_alg_values_supported", jstrs ["ES256"])]
    (toy_url "https://w.example/authorize") [].
Definition toy_client : client := mk_client "x509_hash:abc" "x509_hash" (fun a => Ok (jprint (aro_to_json a))).

(* --------------------------------------------------------------------- C29 *)
(** C29: when a request is built, the store holds under the session id the session of that request: the request
    object made of the builder's parameters, the JWT that the client produced for it, the query, and the status
    that fits the way of conveying; the URL carries the client identifier and the request, on the wallet's
    endpoint; no other session is touched. *)
Lemma c29_build_pf :
  forall (url_parse : string -> option url) (b : request_builder) (u : uuid) (wm : wallet_metadata)
    (contended : bool) (m m' : store) (dest : url),
    build_with_session_id url_parse b u wm contended m = (m', Ok dest) ->
    exists s ind endpoint,
      st_get u m' = Some s /\ (forall u', u' <> u -> st_get u' m' = st_get u' m)
      /\ s_uuid s = u /\ rb_dcql b = Some (s_dcql s)
      /\ built_object b (s_dcql s) u (aro_to_obj (s_request s))
      /\ cl_jwt (v_client (rb_verifier b)) (s_request s) = Ok (s_jwt s)
      /\ conveyed (rb_verifier b) s ind /\ wallet_endpoint url_parse wm endpoint
      /\ to_url (mk_ar (Some (cl_client_id (v_client (rb_verifier b)))) ind) endpoint = Ok dest.
Proof.
  intros up b u wm c m m' dest H. unfold build_with_session_id, build_code in H.
  destruct (rb_prepare up b u wm) as [[s d]|e] eqn:E; [|discriminate]. unfold initiate in H.
  destruct c; [discriminate|]. injection H as <- <-.
  apply prepare_inv in E as (<- & E2 & E3 & E4 & E5 & E6 & ind & ep & E7 & E8 & E9).
  exists s, ind, ep. split; [now rewrite st_get_insert, N.eqb_refl|]. split.
  { intros u' N0. rewrite st_get_insert. destruct (N.eqb_spec u' (s_uuid s)); [contradiction|reflexivity]. }
  repeat (split; [first [assumption|reflexivity]|]). assumption.
Qed.

Definition built_ok {A} (x : store * res A) (u : uuid) : bool :=
  match x with
  | (m', Ok _) => match st_get u m' with Some s => match s_status s with SentRequest => true | _ => false end | None => false end
  | _ => false
  end.
Example c29_build_ex :
  built_ok (build_with_session_id simple_parse (toy_builder false toy_client) 7%N toy_wm false []) 7%N = true.
Proof. vm_compute. reflexivity. Qed.

(** C29: [build] is the same with a fresh session id, which it returns; for the Digital Credentials API the
    request is returned instead of a URL, in the same way. *)
Lemma c29_build_dc_api_pf :
  forall (url_parse : string -> option url) (b : request_builder) (fresh u : uuid)
    (contended : bool) (m m' : store) (jwt : string),
    build_dc_api url_parse b fresh contended m = (m', Ok (u, jwt)) ->
    u = fresh /\ exists s,
      st_get u m' = Some s /\ (forall u', u' <> u -> st_get u' m' = st_get u' m)
      /\ s_uuid s = u /\ rb_dcql b = Some (s_dcql s) /\ s_status s = SentRequest /\ s_jwt s = jwt
      /\ built_object b (s_dcql s) u (aro_to_obj (s_request s))
      /\ cl_jwt (v_client (rb_verifier b)) (s_request s) = Ok jwt.
Proof.
  intros up b f u c m m' jwt H. unfold build_dc_api, build_dc_code in H.
  destruct (rb_prepare_dc up b f) as [s|e] eqn:E; [|discriminate]. unfold initiate in H.
  destruct c; [discriminate|]. injection H as <- <- <-. split; [reflexivity|].
  unfold rb_prepare_dc in E. apply rbind_ok in E as ([q ps] & E1 & E). apply rbind_ok in E as (a & E2 & E).
  apply rbind_ok in E as (j & E3 & E). injection E as <-. cbn [s_uuid s_dcql s_status s_jwt s_request].
  destruct (built_accepted up b f q ps a E1 E2) as (B1 & B2 & B3).
  exists (mk_session f SentRequest j a q). cbn [s_uuid s_dcql s_status s_jwt s_request].
  split; [now rewrite st_get_insert, N.eqb_refl|]. split.
  { intros u' N0. rewrite st_get_insert. destruct (N.eqb_spec u' f); [contradiction|reflexivity]. }
  repeat (split; [first [assumption|reflexivity]|]). assumption.
Qed.

Example c29_build_dc_api_ex :
  built_ok (build_dc_api simple_parse (mk_rb (Some toy_query) (obj_insert "response_mode" (JStr "dc_api") toy_params)
     (rb_verifier (toy_builder true toy_client))) 9%N false []) 9%N = true.
Proof. vm_compute. reflexivity. Qed.

(** C29: [build] returns the fresh session id and otherwise does what building with that id does. *)
Lemma c29_fresh_pf :
  forall (url_parse : string -> option url) (b : request_builder) (fresh u : uuid) (wm : wallet_metadata)
    (contended : bool) (m m' : store) (dest : url),
    build url_parse b fresh wm contended m = (m', Ok (u, dest)) <->
    u = fresh /\ build_with_session_id url_parse b fresh wm contended m = (m', Ok dest).
Proof.
  intros up b f u wm c m m' d. unfold build. destruct (build_with_session_id up b f wm c m) as [m1 [d1|e]].
  - split; [intros H; injection H as <- <- <-; auto|intros [-> H]; injection H as <- <-; reflexivity].
  - split; [discriminate|intros [_ H]; discriminate].
Qed.

Example c29_fresh_ex : built_ok (build simple_parse (toy_builder false toy_client) 8%N toy_wm false []) 8%N = true.
Proof. vm_compute. reflexivity. Qed.

(** C29: building succeeds whenever the query, the response type and mode, the nonce and the endpoints are usable,
    the wallet lists the client's prefix, the client signs and the store's lock is free. *)
Lemma c29_succeeds_pf :
  forall (url_parse : string -> option url) (b : request_builder) (u : uuid) (wm : wallet_metadata) (m : store)
    (q : dcql) (mode type nonce : string) (l : list string) (endpoint : url),
    rb_dcql b = Some q ->
    text_at "response_type" (rb_params b) type -> text_at "nonce" (rb_params b) nonce ->
    absent "redirect_uri" (rb_params b) ->
    text_at "response_mode" (rb_params b) mode ->
    ((mode = "direct_post" \/ mode = "direct_post.jwt")
       /\ u_opaque (v_submission (rb_verifier b)) = false
       /\ (forall r, extended (v_submission (rb_verifier b)) (uuid_str u) r -> url_parse (url_str r) <> None)
     \/ (mode = "dc_api" \/ mode = "dc_api.jwt") /\ absent "response_uri" (rb_params b)
        /\ url_parse "https://example.com" <> None) ->
    supported "client_id_prefixes_supported" ["pre-registered"] wm = Ok l -> In (cl_prefix (v_client (rb_verifier b))) l ->
    (forall a, exists jwt, cl_jwt (v_client (rb_verifier b)) a = Ok jwt) ->
    (forall at_, v_byref (rb_verifier b) = Some at_ -> u_opaque at_ = false) ->
    wallet_endpoint url_parse wm endpoint ->
    exists m' dest, build_with_session_id url_parse b u wm false m = (m', Ok dest).
Proof.
  intros up b u wm m q mode rt n l ep Hq Ht Hn Hr Hm Hmode Hl Hin Hsig Hby (t & He & Hep).
  unfold build_with_session_id, build_code, rb_prepare, rb_complete. rewrite Hq. cbn [ok_or rbind].
  set (ps0 := uo_put p_dcql q (uo_put p_client_id (cl_client_id (v_client (rb_verifier b))) (rb_params b))).
  assert (P2 : forall k, k <> "client_id" -> k <> "dcql_query" -> obj_get k ps0 = obj_get k (rb_params b)).
  { intros k A B. change ps0 with (obj_insert "dcql_query" (dcql_to_json q) (obj_insert "client_id" (JStr (cl_client_id (v_client (rb_verifier b)))) (rb_params b))).
    rewrite !obj_get_insert. destruct (String.eqb_spec k "dcql_query"); [contradiction|]. destruct (String.eqb_spec k "client_id"); [contradiction|reflexivity]. }
  assert (P0 : obj_get "client_id" ps0 = Some (JStr (cl_client_id (v_client (rb_verifier b))))).
  { change ps0 with (obj_insert "dcql_query" (dcql_to_json q) (obj_insert "client_id" (JStr (cl_client_id (v_client (rb_verifier b)))) (rb_params b))).
    rewrite !obj_get_insert. reflexivity. }
  unfold uo_get at 1. cbn [tp_key tp_of p_response_type]. rewrite P2, Ht by discriminate. cbn [de_str context rbind].
  unfold uo_get at 1. cbn [tp_key tp_of p_response_mode]. rewrite P2, Hm by discriminate. cbn [de_str context rbind].
  assert (R : exists ps a, (match mode_of_string mode with
     | DirectPost | DirectPostJwt => let? uri := push_segment (v_submission (rb_verifier b)) (uuid_str u) in Ok (q, uo_put (p_response_uri up) uri ps0)
     | DcApi | DcApiJwt => Ok (q, ps0) | UnsupportedMode _ => Err "unsupported response_mode" end) = Ok (q, ps) /\ aro_of_obj up ps = Ok a).
  { destruct Hmode as [(M & Op & Up)|(M & Ab & Up)].
    - assert (exists r, push_segment (v_submission (rb_verifier b)) (uuid_str u) = Ok r) as (r & Er) by (unfold push_segment; rewrite Op; eauto).
      pose proof Er as Er'. apply push_iff in Er'. specialize (Up r Er'). destruct (up (url_str r)) as [r'|] eqn:Eu; [|congruence].
      exists (uo_put (p_response_uri up) r ps0).
      exists (mk_aro (obj_insert "response_uri" (JStr (url_str r)) ps0) (Some (cl_client_id (v_client (rb_verifier b))))
          (resolve_prefix (cl_client_id (v_client (rb_verifier b)))) (mode_of_string mode) (rtype_of_string rt) r' n). split.
      + rewrite Er. destruct M as [-> | ->]; reflexivity.
      + change (uo_put (p_response_uri up) r ps0) with (obj_insert "response_uri" (JStr (url_str r)) ps0). apply aro_of_inv.
        assert (G : forall k, k <> "response_uri" -> obj_get k (obj_insert "response_uri" (JStr (url_str r)) ps0) = obj_get k ps0)
          by (intros; now apply obj_get_insert_neq).
        constructor; cbn [ro_inner ro_client_id ro_scheme ro_mode ro_type ro_return ro_nonce]; unfold text_at, absent in *.
        * reflexivity.
        * rewrite G by discriminate. exact P0.
        * reflexivity.
        * right. exists mode. unfold text_at. rewrite G, P2 by discriminate. auto.
        * exists rt. rewrite G, P2 by discriminate. auto.
        * rewrite G, P2 by discriminate. exact Hn.
        * rewrite G, P2 by discriminate. exact Hr.
        * assert (X : exists s, obj_get "response_uri" (obj_insert "response_uri" (JStr (url_str r)) ps0) = Some (JStr s) /\ up s = Some r').
          { exists (url_str r). split; [apply obj_get_insert_eq|exact Eu]. }
          destruct M as [-> | ->]; exact X.
    - destruct (up "https://example.com") as [r'|] eqn:Eu; [|congruence]. exists ps0.
      exists (mk_aro ps0 (Some (cl_client_id (v_client (rb_verifier b))))
          (resolve_prefix (cl_client_id (v_client (rb_verifier b)))) (mode_of_string mode) (rtype_of_string rt) r' n). split.
      + destruct M as [-> | ->]; reflexivity.
      + apply aro_of_inv.
        constructor; cbn [ro_inner ro_client_id ro_scheme ro_mode ro_type ro_return ro_nonce]; unfold text_at, absent in *.
        * reflexivity.
        * exact P0.
        * reflexivity.
        * right. exists mode. unfold text_at. rewrite P2 by discriminate. auto.
        * exists rt. rewrite P2 by discriminate. auto.
        * rewrite P2 by discriminate. exact Hn.
        * rewrite P2 by discriminate. exact Hr.
        * assert (X : obj_get "response_uri" ps0 = None /\ up "https://example.com" = Some r').
          { split; [rewrite P2 by discriminate; exact Ab|exact Eu]. }
          destruct M as [-> | ->]; exact X. }
  destruct R as (ps & a & R1 & R2). cbn [de_str as_str ok_or rmap context rbind]. unfold de_str. cbn [as_str ok_or rmap context rbind].
  rewrite R1. cbn [rbind]. apply prefixes_get in Hl. rewrite Hl. cbn [rbind].
  apply mem_str_iff in Hin. rewrite Hin. cbn [of_bool rbind]. rewrite R2. cbn [rbind].
  destruct (Hsig a) as (jwt & ->). cbn [rbind].
  assert (U : parsing_error (uo_get (p_authorization_endpoint up) (wm_obj wm)) = Ok ep).
  { unfold uo_get. cbn [tp_key tp_of p_authorization_endpoint p_url]. unfold text_at in He. rewrite He. unfold de_url. cbn. now rewrite Hep. }
  destruct (v_byref (rb_verifier b)) as [at_|].
  - unfold push_segment at 1. rewrite (Hby at_ eq_refl). cbn [rbind]. rewrite U. cbn [rbind to_url to_pairs ar_client_id ar_indirection]. unfold run_plain. cbn [run initiate rmap]. eauto.
  - cbn [rbind]. rewrite U. cbn [rbind to_url to_pairs ar_client_id ar_indirection]. unfold run_plain. cbn [run initiate rmap]. eauto.
Qed.

Example c29_succeeds_ex :
  u_opaque (v_submission (rb_verifier (toy_builder true toy_client))) = false
  /\ text_at "response_mode" toy_params "direct_post"
  /\ built_ok (build_with_session_id simple_parse (toy_builder true toy_client) 7%N toy_wm false []) 7%N = false
  /\ fst (build_with_session_id simple_parse (toy_builder true toy_client) 7%N toy_wm false []) <> [].
Proof. split; [reflexivity|]. split; [reflexivity|]. split; [vm_compute; reflexivity|]. vm_compute. discriminate. Qed.

(** C29: building with a session id that is in use replaces the session under it, its request and its progress
    included. *)
Lemma c29_reuse_refuted_pf :
  exists (url_parse : string -> option url) (b : request_builder) (u : uuid) (wm : wallet_metadata) (m m' : store)
    (s s' : session) (dest : url),
    st_get u m = Some s /\ s_status s = Complete (OSuccess JNull)
    /\ build_with_session_id url_parse b u wm false m = (m', Ok dest)
    /\ st_get u m' = Some s' /\ s_status s' = SentRequest /\ s_jwt s' <> s_jwt s.
Proof.
  destruct (build_with_session_id simple_parse (toy_builder false toy_client) 7%N toy_wm false []) as [m0 [d0|e0]] eqn:E0; [|vm_compute in E0; discriminate].
  pose proof (c29_build_pf _ _ _ _ _ _ _ _ E0) as (s0 & i0 & ep0 & G0 & _ & U0 & _).
  set (m := [(7%N, mk_session 7%N (Complete (OSuccess JNull)) "old" (s_request s0) toy_query)] : store).
  destruct (build_with_session_id simple_parse (toy_builder false toy_client) 7%N toy_wm false m) as [m1 [d1|e1]] eqn:E1.
  2: { unfold build_with_session_id, build_code in E0, E1. destruct (rb_prepare simple_parse (toy_builder false toy_client) 7%N toy_wm) as [[s d]|]; discriminate. }
  pose proof (c29_build_pf _ _ _ _ _ _ _ _ E1) as (s1 & i1 & ep1 & G1 & _ & U1 & _ & _ & J1 & [C1 C2] & _).
  exists simple_parse, (toy_builder false toy_client), 7%N, toy_wm, m, m1, (mk_session 7%N (Complete (OSuccess JNull)) "old" (s_request s0) toy_query), s1, d1.
  split; [reflexivity|]. split; [reflexivity|]. split; [exact E1|]. split; [exact G1|]. split; [exact C2|].
  cbn [s_jwt]. cbn in J1. injection J1 as J1. unfold aro_to_json in J1. intros X. rewrite X in J1. cbn in J1. discriminate.
Qed.

(* --------------------------------------------------------------------- C30 *)
(** C30: a build that fails leaves the store as it was, whichever of the three build functions is used. *)
Lemma c30_failed_build_pf :
  forall (url_parse : string -> option url) (b : request_builder) (u : uuid) (wm : wallet_metadata)
    (contended : bool) (m : store),
    (forall m' e, build_with_session_id url_parse b u wm contended m = (m', Err e) -> m' = m)
    /\ (forall m' e, build url_parse b u wm contended m = (m', Err e) -> m' = m)
    /\ (forall m' e, build_dc_api url_parse b u contended m = (m', Err e) -> m' = m).
Proof.
  intros up b u wm c m. assert (H : forall m' e, build_with_session_id up b u wm c m = (m', Err e) -> m' = m).
  { intros m' e. unfold build_with_session_id, build_code, initiate. destruct (rb_prepare up b u wm) as [[s d]|x]; [destruct c|]; intros H; try discriminate; now injection H. }
  split; [exact H|]. split.
  - intros m' e. unfold build. destruct (build_with_session_id up b u wm c m) as [m1 [d|x]] eqn:E; [discriminate|].
    intros X. injection X as <- _. eapply H. reflexivity.
  - intros m' e. unfold build_dc_api, build_dc_code, initiate. destruct (rb_prepare_dc up b u) as [s|x]; [destruct c|]; intros X; try discriminate; now injection X.
Qed.

Example c30_failed_build_ex :
  build_with_session_id simple_parse (rb_new (rb_verifier (toy_builder true toy_client))) 7%N toy_wm false [] = ([], Err "dcql_query is required")
  /\ build_with_session_id simple_parse (toy_builder true toy_client) 7%N toy_wm true [] = ([], Err "try_lock")
  /\ build_with_session_id simple_parse (toy_builder true (mk_client "x509_hash:abc" "x509_hash" (fun _ => Err "signing"))) 7%N toy_wm false [] = ([], Err "signing").
Proof. repeat split; vm_compute; reflexivity. Qed.

(* --------------------------------------------------------------------- C31 *)
Lemma text_unique k o s s' : text_at k o s -> text_at k o s' -> s = s'.
Proof. unfold text_at. congruence. Qed.
Lemma extended_inj base u u' r r' : (u < 2 ^ 128)%N -> (u' < 2 ^ 128)%N ->
  extended base (uuid_str u) r -> extended base (uuid_str u') r' -> url_str r = url_str r' -> u = u'.
Proof.
  intros B B' (_ & _ & S & A & Q & F & P) (_ & _ & S' & A' & Q' & F' & P') H. unfold url_str in H.
  rewrite S, A, Q, F, P, S', A', Q', F', P' in H. rewrite !sapp_assoc in H.
  apply sapp_inv_head, sapp_inv_head, sapp_inv_head, sapp_inv_head, sapp_inv_head in H.
  apply sapp_inv_len in H as [H _]; [now apply uuid_str_inj|].
  unfold uuid_str. now rewrite !slen_app, !hex_len.
Qed.

(** C31: the response URI of a direct_post request is the submission endpoint with the session id as a further path
    segment; sessions with different ids have different response URIs. *)
Lemma c31_response_uri_pf :
  forall (url_parse : string -> option url) (b b' : request_builder) (u u' : uuid) (wm wm' : wallet_metadata)
    (contended contended' : bool) (m m1 m' m2 : store) (dest dest' : url),
    (u < 2 ^ 128)%N -> (u' < 2 ^ 128)%N -> u <> u' ->
    v_submission (rb_verifier b) = v_submission (rb_verifier b') ->
    (text_at "response_mode" (rb_params b) "direct_post" \/ text_at "response_mode" (rb_params b) "direct_post.jwt") ->
    (text_at "response_mode" (rb_params b') "direct_post" \/ text_at "response_mode" (rb_params b') "direct_post.jwt") ->
    build_with_session_id url_parse b u wm contended m = (m1, Ok dest) ->
    build_with_session_id url_parse b' u' wm' contended' m' = (m2, Ok dest') ->
    exists s s' r r',
      st_get u m1 = Some s /\ st_get u' m2 = Some s'
      /\ extended (v_submission (rb_verifier b)) (uuid_str u) r /\ extended (v_submission (rb_verifier b)) (uuid_str u') r'
      /\ text_at "response_uri" (aro_to_obj (s_request s)) (url_str r)
      /\ text_at "response_uri" (aro_to_obj (s_request s')) (url_str r')
      /\ url_str r <> url_str r'.
Proof.
  intros up b b' u u' wm wm' c c' m m1 m' m2 d d' B B' N0 V M M' H H'.
  assert (X : forall b u wm c m m1 d, (text_at "response_mode" (rb_params b) "direct_post" \/ text_at "response_mode" (rb_params b) "direct_post.jwt") ->
     build_with_session_id up b u wm c m = (m1, Ok d) -> exists s r, st_get u m1 = Some s
       /\ extended (v_submission (rb_verifier b)) (uuid_str u) r /\ text_at "response_uri" (aro_to_obj (s_request s)) (url_str r)).
  { clear. intros b u wm c m m1 d M H. apply c29_build_pf in H as (s & ind & ep & G & _ & _ & _ & (_ & _ & _ & mode & T & D) & _).
    destruct D as [(_ & r & D1 & D2)|[D _]]; [eauto|]. exfalso.
    destruct M as [M|M]; pose proof (text_unique _ _ _ _ M T) as <-; destruct D; discriminate. }
  apply X in H as (s & r & G & E & T); [|exact M]. apply X in H' as (s' & r' & G' & E' & T'); [|exact M']. rewrite <- V in E'.
  exists s, s', r, r'. repeat (split; [assumption|]). intros Y. apply N0. eapply (extended_inj _ u u' r r'); eassumption.
Qed.

Example c31_response_uri_ex :
  uuid_str 7%N = "00000000-0000-0000-0000-000000000007"
  /\ uuid_str 1512366075204170947332355369683137040%N = "01234567-89ab-cdef-fedc-ba9876543210"
  /\ rmap url_str (push_segment (toy_url "https://v.example/submit") (uuid_str 7%N)) = Ok "https://v.example/submit/00000000-0000-0000-0000-000000000007"
  /\ rmap url_str (push_segment (toy_url "https://v.example/") (uuid_str 7%N)) = Ok "https://v.example/00000000-0000-0000-0000-000000000007".
Proof. repeat split; vm_compute; reflexivity. Qed.

(** C31: so have requests conveyed by reference their own request URI per session. *)
Lemma c31_request_uri_pf :
  forall (url_parse : string -> option url) (b b' : request_builder) (u u' : uuid) (wm wm' : wallet_metadata)
    (contended contended' : bool) (m m1 m' m2 : store) (dest dest' at_ endpoint endpoint' : url),
    (u < 2 ^ 128)%N -> (u' < 2 ^ 128)%N -> u <> u' ->
    v_byref (rb_verifier b) = Some at_ -> v_byref (rb_verifier b') = Some at_ ->
    wallet_endpoint url_parse wm endpoint -> wallet_endpoint url_parse wm' endpoint' ->
    build_with_session_id url_parse b u wm contended m = (m1, Ok dest) ->
    build_with_session_id url_parse b' u' wm' contended' m' = (m2, Ok dest') ->
    exists r r',
      extended at_ (uuid_str u) r /\ extended at_ (uuid_str u') r'
      /\ to_url (mk_ar (Some (cl_client_id (v_client (rb_verifier b)))) (ByReference r)) endpoint = Ok dest
      /\ to_url (mk_ar (Some (cl_client_id (v_client (rb_verifier b')))) (ByReference r')) endpoint' = Ok dest'
      /\ url_str r <> url_str r'.
Proof.
  intros up b b' u u' wm wm' c c' m m1 m' m2 d d' at_ ep ep' B B' N0 R R' W W' H H'.
  assert (X : forall b u wm c m m1 d ep, v_byref (rb_verifier b) = Some at_ -> wallet_endpoint up wm ep ->
     build_with_session_id up b u wm c m = (m1, Ok d) -> exists r, extended at_ (uuid_str u) r
       /\ to_url (mk_ar (Some (cl_client_id (v_client (rb_verifier b)))) (ByReference r)) ep = Ok d).
  { clear. intros b u wm c m m1 d ep R W H. apply c29_build_pf in H as (s & ind & ep0 & G & _ & <- & _ & _ & _ & C & W0 & T).
    unfold conveyed in C. rewrite R in C. destruct C as (r & E & -> & _). exists r. split; [exact E|].
    destruct W as (t & W1 & W2), W0 as (t0 & W3 & W4). pose proof (text_unique _ _ _ _ W1 W3) as <-.
    assert (ep = ep0) by congruence. now subst ep0. }
  apply (X b u wm c m m1 d ep) in H as (r & E & T); try assumption.
  apply (X b' u' wm' c' m' m2 d' ep') in H' as (r' & E' & T'); try assumption.
  exists r, r'. repeat (split; [assumption|]). intros Y. apply N0. eapply (extended_inj _ u u' r r'); eassumption.
Qed.

Example c31_request_uri_ex :
  match snd (build_with_session_id simple_parse (toy_builder true toy_client) 7%N toy_wm false []) with
  | Ok d => url_str d | Err e => e end
  = "https://w.example/authorize?client_id=x509_hash%3Aabc&request_uri=https%3A%2F%2Fv.example%2Freq%2F00000000-0000-0000-0000-000000000007".
Proof. vm_compute. reflexivity. Qed.

(* --------------------------------------------------------------------- C32 *)
Lemma typ_of_header jwt h p s m red : split_jws jwt = Ok (h, p, s) -> protected_header jwt m -> text_at "typ" m "oauth-authz-req+jwt" ->
  validate_typ jwt red = Ok tt.
Proof.
  intros S (h64 & rest & bytes & -> & N0 & D & J) T. unfold split_jws in S.
  assert (E : split_once "." (h64 +:+ "." +:+ rest) = Some (h64, rest)) by (now apply split_once_some).
  rewrite E in S. destruct (split_once "." rest) as [[y z]|] eqn:E2; [|discriminate].
  unfold validate_typ, split_jws. rewrite E, E2. cbn [rbind]. unfold jws_headers, map_of_text. rewrite D. cbn [ok_or rbind]. rewrite J. cbn [rbind].
  unfold text_at in T. rewrite T. reflexivity.
Qed.
Lemma decode_split ssi jwt o : decode_unverified ssi jwt = Ok o -> exists h p s, split_jws jwt = Ok (h, p, s).
Proof.
  unfold decode_unverified, jws_payload. intros H. apply rbind_ok in H as (x & E & _). apply rbind_ok in E as ([[h p] s] & E & _). eauto.
Qed.

(** C32: what the wallet reads from the URL on its own endpoint is the request as it was conveyed, and resolving it
    gives the stored request object and JWT: directly by value, and by reference when the request URI serves the
    JWT stored for the session. *)
Lemma c32_understood_pf :
  forall (url_parse : string -> option url) (ssi_header : obj -> option bool) (uri_ok : string -> bool)
    (http : http_req -> res http_resp) (b : request_builder) (u : uuid) (wm : wallet_metadata)
    (contended : bool) (m m' : store) (dest endpoint : url),
    build_with_session_id url_parse b u wm contended m = (m', Ok dest) ->
    wallet_endpoint url_parse wm endpoint ->
    readable_client ssi_header (v_client (rb_verifier b)) ->
    utf8_valid (cl_client_id (v_client (rb_verifier b))) = true ->
    exists s ind,
      st_get u m' = Some s /\ conveyed (rb_verifier b) s ind
      /\ (jwf (aro_to_json (s_request s)) = true -> jdepth (aro_to_json (s_request s)) <= 127 ->
          (forall r, ind = ByReference r -> utf8_valid (url_str r) = true /\ url_parse (url_str r) = Some r
             /\ uri_ok (url_str r) = true
             /\ exists status, (200 <= status < 300)%N
                /\ forall rq, rq_method rq = "GET" -> rq_uri rq = url_str r -> http rq = Ok (mk_resp status (s_jwt s))) ->
          from_url url_parse dest endpoint = Ok (mk_ar (Some (cl_client_id (v_client (rb_verifier b)))) ind)
          /\ snd (resolve_request url_parse ssi_header uri_ok http (mk_ar (Some (cl_client_id (v_client (rb_verifier b)))) ind))
             = Ok (s_request s, Some (s_jwt s))).
Proof.
  intros up ssi uri_ok http b u wm c m m' d ep H W Rd V.
  assert (Ha : exists s0 d0, rb_prepare up b u wm = Ok (s0, d0) /\ st_get u m' = Some s0).
  { unfold build_with_session_id, build_code in H. destruct (rb_prepare up b u wm) as [[s0 d0]|] eqn:E; [|discriminate].
    exists s0, d0. split; [reflexivity|]. unfold initiate in H. destruct c; [discriminate|]. injection H as <- _.
    apply prepare_inv in E as (<- & _). now rewrite st_get_insert, N.eqb_refl. }
  destruct Ha as (s0 & d0 & Hp & Hg). apply prepare_inv in Hp as (_ & _ & _ & Hacc & _).
  apply c29_build_pf in H as (s & ind & ep0 & G & _ & _ & _ & _ & J & C & W0 & T).
  assert (s0 = s) by congruence. subst s0.
  assert (ep0 = ep).
  { destruct W as (t & W1 & W2), W0 as (t0 & W3 & W4). pose proof (text_unique _ _ _ _ W1 W3) as <-. congruence. }
  subst ep0. exists s, ind. split; [exact G|]. split; [exact C|]. intros Wf Dp Hr.
  destruct (Rd _ _ Wf Dp J) as (Uj & Dj & h & Ph & Th). destruct (decode_split _ _ _ Dj) as (x & y & z & Sj).
  assert (R : representable up (mk_ar (Some (cl_client_id (v_client (rb_verifier b)))) ind)).
  { split; [exact V|]. cbn [ar_indirection]. destruct ind as [jwt|r|o].
    - unfold conveyed in C. destruct (v_byref (rb_verifier b)); [destruct C as (? & _ & C & _); discriminate|]. destruct C as [C _]. now injection C as ->.
    - destruct (Hr r eq_refl) as (H1 & H2 & _). auto.
    - exfalso. unfold conveyed in C. destruct (v_byref (rb_verifier b)); [destruct C as (? & _ & C & _)|destruct C as [C _]]; discriminate. }
  destruct (c12_roundtrip_pf up _ ep R) as (d1 & T1 & F1 & _). assert (d1 = d) by congruence. subst d1. split; [exact F1|].
  assert (Dec : decode_aro up ssi (s_jwt s) = Ok (s_request s)).
  { unfold decode_aro. rewrite Dj. exact Hacc. }
  destruct ind as [jwt|r|o].
  - unfold conveyed in C. destruct (v_byref (rb_verifier b)); [destruct C as (? & _ & C & _); discriminate|]. destruct C as [C _]. injection C as ->.
    rewrite (resolve_value up ssi uri_ok http _ (s_jwt s)) by reflexivity. cbn [snd].
    rewrite (typ_of_header _ _ _ _ _ _ Sj Ph Th). cbn [rbind]. rewrite Dec. reflexivity.
  - destruct (Hr r eq_refl) as (_ & _ & H3 & st & H5 & H4). rewrite (resolve_reference up ssi uri_ok http _ r) by reflexivity. rewrite H3. cbn [snd].
    rewrite (H4 (get_request r)) by reflexivity. cbn [rbind rs_body rs_status]. rewrite Uj. cbn [of_bool rbind].
    assert (Es : is_success st = true) by (unfold is_success; apply andb_true_iff; split; [apply N.leb_le|apply N.ltb_lt]; lia).
    rewrite Es. cbn [of_bool rbind]. rewrite (typ_of_header _ _ _ _ _ _ Sj Ph Th). cbn [rbind]. rewrite Dec. reflexivity.
  - exfalso. unfold conveyed in C. destruct (v_byref (rb_verifier b)); [destruct C as (? & _ & C & _)|destruct C as [C _]]; discriminate.
Qed.

(** The library's clients for the examples: build, read the URL back, resolve, compare. *)
Definition understood (byref : bool) (c : res client) : res string :=
  let? c := c in
  match build_with_session_id simple_parse (toy_builder byref c) 7%N toy_wm false [] with
  | (m, Ok d) =>
      let? r := from_url simple_parse d (toy_url "https://w.example/authorize") in
      let? s := ok_or (st_get 7%N m) "no session" in
      let? (a, j) := snd (resolve_request simple_parse any_header (fun _ => true) (serve 200 (s_jwt s)) r) in
      if (String.eqb (jprint (aro_to_json a)) (jprint (aro_to_json (s_request s))) && match j with Some j => String.eqb j (s_jwt s) | None => false end)%bool
      then Ok "same" else Err "different"
  | (_, Err e) => Err e
  end.
Example c32_understood_ex :
  understood true (x509_hash_client toy_der toy_chain (toy_signer "K")) = Ok "same"
  /\ understood false (x509_hash_client toy_der toy_chain (toy_signer "K")) = Ok "same"
  /\ understood false (did_client String.eqb toy_resolver ("did:web:v.example" +:+ "#" +:+ "1") (toy_signer "K")) = Ok "same".
Proof. repeat split; vm_compute; reflexivity. Qed.

Lemma make_jwt_utf8 {key} h a (s : signer key) : utf8_valid (make_jwt h a s) = true.
Proof.
  unfold make_jwt, b64url_encode. repeat (apply utf8_valid_cat; [first [reflexivity|apply b64_utf8]|]). apply b64_utf8.
Qed.
Lemma readable_jwt {key} ssi h body (s : signer key) : jwf (JObj h) = true -> jdepth (JObj h) <= 127 -> ssi h = Some true ->
  text_at "typ" h "oauth-authz-req+jwt" ->
  jwf (aro_to_json body) = true -> jdepth (aro_to_json body) <= 127 ->
  utf8_valid (make_jwt (JObj h) body s) = true /\ decode_unverified ssi (make_jwt (JObj h) body s) = Ok (aro_to_obj body)
  /\ exists h0, protected_header (make_jwt (JObj h) body s) h0 /\ text_at "typ" h0 "oauth-authz-req+jwt".
Proof.
  intros W D Hs T W2 D2. destruct (c65_make_jwt_pf key s ssi h body W D W2 D2 Hs) as (h64 & p64 & s64 & H1 & H2 & H3 & H4 & H5 & H6).
  split; [apply make_jwt_utf8|]. split; [exact H6|]. exists h. split; [|exact T]. eapply headers_of; eassumption.
Qed.

(** C32: the JWTs of the library's three clients can be read back, so that the above applies to them. *)
Lemma c32_clients_pf :
  forall (key : Type) (ssi_header : obj -> option bool) (key_eqb : key -> key -> bool) (resolver : string -> res key)
    (to_der : cert -> res string) (s : signer key) (alg vm : string) (x5c : list cert) (c : client),
    sg_alg s = Ok alg -> utf8_valid alg = true ->
    (utf8_valid vm = true -> (forall h, did_header alg vm = JObj h -> ssi_header h = Some true) ->
       did_client key_eqb resolver vm s = Ok c -> readable_client ssi_header c)
    /\ ((forall certs h, x5c_header alg certs = JObj h -> ssi_header h = Some true) ->
        x509_hash_client to_der x5c s = Ok c \/ x509_san_client to_der x5c s = Ok c -> readable_client ssi_header c).
Proof.
  intros key ssi keq rs td s alg vm x5c c Ha Va. split.
  - intros Vm Hs Hc body jwt W D J. unfold did_client in Hc. apply rbind_ok in Hc as ([id fr] & _ & Hc).
    apply rbind_ok in Hc as (k & _ & Hc). apply rbind_ok in Hc as (k' & _ & Hc). apply rbind_ok in Hc as (x & _ & Hc).
    injection Hc as <-. cbn [cl_jwt] in J. rewrite Ha in J. cbn [rbind] in J. injection J as <-.
    destruct (did_header_ok alg vm Va Vm) as [W1 D1]. unfold did_header in *. apply readable_jwt; auto. reflexivity.
  - intros Hs Hc body jwt W D J.
    assert (J' : x509_jwt td x5c s body = Ok jwt).
    { destruct x5c as [|leaf rest]; [destruct Hc as [Hc|Hc]; discriminate|]. destruct Hc as [Hc|Hc].
      - unfold x509_hash_client in Hc. apply rbind_ok in Hc as (der & _ & Hc). injection Hc as <-. exact J.
      - unfold x509_san_client in Hc. apply rbind_ok in Hc as (san & _ & Hc). injection Hc as <-. exact J. }
    unfold x509_jwt in J'. rewrite Ha in J'. cbn [rbind] in J'. apply rbind_ok in J' as (ders & _ & J'). injection J' as <-.
    destruct (x5c_header_ok alg ders Va) as [W1 D1]. specialize (Hs (map b64std_encode ders)). unfold x5c_header in *.
    apply readable_jwt; auto. reflexivity.
Qed.

Example c32_clients_ex :
  sg_alg (toy_signer "K") = Ok "ES256"
  /\ is_ok (did_client String.eqb toy_resolver ("did:web:v.example" +:+ "#" +:+ "1") (toy_signer "K")) = true
  /\ is_ok (x509_hash_client toy_der toy_chain (toy_signer "K")) = true
  /\ is_ok (x509_san_client toy_der toy_chain (toy_signer "K")) = true.
Proof. repeat split; vm_compute; reflexivity. Qed.

(* --------------------------------------------------------------------- C33 *)
(** C33: no request is built for a wallet whose metadata do not list the client's prefix (with the default
    ["pre-registered"] when they list nothing), and nothing is stored. *)
Lemma c33_prefix_pf :
  forall (url_parse : string -> option url) (b : request_builder) (u : uuid) (wm : wallet_metadata)
    (contended : bool) (m : store),
    (forall l, supported "client_id_prefixes_supported" ["pre-registered"] wm = Ok l -> ~ In (cl_prefix (v_client (rb_verifier b))) l) ->
    (exists e, build_with_session_id url_parse b u wm contended m = (m, Err e))
    /\ (exists e, build url_parse b u wm contended m = (m, Err e)).
Proof.
  intros up b u wm c m H.
  assert (X : exists e, build_with_session_id up b u wm c m = (m, Err e)).
  { unfold build_with_session_id, build_code. destruct (rb_prepare up b u wm) as [[s d]|e] eqn:E; [|exists e; reflexivity]. exfalso.
    apply prepare_inv in E as (_ & _ & _ & _ & _ & (l & E1 & E2) & _). exact (H l E1 E2). }
  split; [exact X|]. destruct X as (e & X). unfold build. rewrite X. eauto.
Qed.

Example c33_prefix_ex :
  build_with_session_id simple_parse (toy_builder true (mk_client "openid_federation:https://v.example" "openid_federation" (fun _ => Ok "j"))) 7%N toy_wm false []
  = ([], Err "wallet does not support prefix")
  /\ supported "client_id_prefixes_supported" ["pre-registered"] toy_wm = Ok ["x509_hash"; "x509_san_dns"; "decentralized_identifier"].
Proof. split; vm_compute; reflexivity. Qed.
