From Coq Require Import Sorting.Permutation.
From Verif Require Import Base BaseFacts Json JsonFacts Serde MapFacts Url Object Formats Params Metadata Spec
  SpecObject ParamFacts PfParams PfFormats.

Lemma wm_get_obj up (w : wallet_metadata) k :
  obj_get k (wm_to_obj up w) =
  if String.eqb k "vp_formats_supported" then Some (format_map_to_json (wm_formats w))
  else if String.eqb k "authorization_endpoint" then Some (JStr (url_str (wm_endpoint w)))
  else obj_get k (wm_obj w).
Proof.
  unfold wm_to_obj, uo_put, uo_insert.
  cbn [fst tp_to tp_key p_vp_formats_supported p_authorization_endpoint p_url infallible].
  now rewrite !obj_get_insert.
Qed.
Lemma wm_of_inv up o w : wm_of_obj up o = Ok w ->
  wm_obj w = o
  /\ (exists s, obj_get "authorization_endpoint" o = Some (JStr s) /\ up s = Some (wm_endpoint w))
  /\ (exists j, obj_get "vp_formats_supported" o = Some j /\ format_map_of_json j = Ok (wm_formats w)).
Proof.
  unfold wm_of_obj, uo_get. cbn [tp_key tp_of p_vp_formats_supported p_authorization_endpoint p_url].
  destruct (obj_get "authorization_endpoint" o) as [e|]; [|discriminate].
  destruct (de_url up e) as [u|] eqn:U; [|discriminate].
  destruct (obj_get "vp_formats_supported" o) as [f|]; [|discriminate].
  destruct (format_map_of_json f) as [m|] eqn:M; [|discriminate].
  cbn. intros H. injection H as <-. cbn. split; [reflexivity|]. split; [|eauto].
  destruct e; cbn in U; try discriminate. apply ok_or_ok in U. eauto.
Qed.

(** C60: metadata read from an object: the object is accepted exactly when the endpoint is a URL and the
    formats are a map; converting back keeps every parameter except that the endpoint is written as the
    parsed URL prints; and the result is read as the same metadata view again. *)
Lemma c60_roundtrip_pf :
  forall (url_parse : string -> option url) (o : obj) (w : wallet_metadata),
    (forall s u, url_parse s = Some u -> url_parse (url_str u) = Some u) ->
    jsorted (JObj o) = true ->
    wm_of_obj url_parse o = Ok w ->
    (forall k, k <> "authorization_endpoint" -> obj_get k (wm_to_obj url_parse w) = obj_get k o)
    /\ (exists s, obj_get "authorization_endpoint" o = Some (JStr s)
          /\ url_parse s = Some (wm_endpoint w)
          /\ obj_get "authorization_endpoint" (wm_to_obj url_parse w) = Some (JStr (url_str (wm_endpoint w))))
    /\ wm_of_obj url_parse (wm_to_obj url_parse w)
       = Ok (mk_wm (wm_to_obj url_parse w) (wm_endpoint w) (wm_formats w)).
Proof.
  intros up o w Hup Hs H. destruct (wm_of_inv _ _ _ H) as (Ho & (s & Es & Us) & (j & Ej & Fj)).
  assert (Hf : format_map_to_json (wm_formats w) = j).
  { pose proof (jsorted_get _ _ _ Hs Ej) as Hj. destruct j as [| | | | | |m]; try discriminate.
    apply jsorted_obj in Hj. apply keys_sorted_iff in Hj.
    apply (c63_map_lossless_pf m (wm_formats w) Hj Fj). }
  split; [|split].
  - intros k Hk. rewrite wm_get_obj. destruct (String.eqb_spec k "vp_formats_supported") as [->|].
    + now rewrite Hf.
    + destruct (String.eqb_spec k "authorization_endpoint"); [contradiction|]. now rewrite Ho.
  - exists s. split; [exact Es|]. split; [exact Us|]. now rewrite wm_get_obj.
  - unfold wm_of_obj, uo_get. cbn [tp_key tp_of p_vp_formats_supported p_authorization_endpoint p_url].
    rewrite !wm_get_obj. cbn [String.eqb Ascii.eqb Bool.eqb]. unfold de_url. cbn [de_str as_str rbind ok_or].
    rewrite (Hup _ _ Us). cbn [ok_or parsing_error rbind]. rewrite Hf, Fj. reflexivity.
Qed.

Definition sample_metadata : obj :=
  [("authorization_endpoint", JStr "https://w.example/"); ("issuer", JStr "x");
   ("vp_formats_supported", JObj [("mso_mdoc", JObj []); ("zz", JInt 1)])].
Example c60_roundtrip_ex :
  jsorted (JObj sample_metadata) = true
  /\ exists w, wm_of_obj simple_parse sample_metadata = Ok w /\ wm_to_obj simple_parse w = sample_metadata.
Proof. split; [reflexivity|]. eexists. split; reflexivity. Qed.

(** C60: if the endpoint is written the way it prints, the JSON is kept exactly. *)
Lemma c60_exact_pf :
  forall (url_parse : string -> option url) (o : obj) (w : wallet_metadata),
    jsorted (JObj o) = true ->
    wm_of_obj url_parse o = Ok w ->
    obj_get "authorization_endpoint" o = Some (JStr (url_str (wm_endpoint w))) ->
    wm_to_obj url_parse w = o.
Proof.
  intros up o w Hs H E. destruct (wm_of_inv _ _ _ H) as (Ho & _ & (j & Ej & Fj)).
  assert (Hf : format_map_to_json (wm_formats w) = j).
  { pose proof (jsorted_get _ _ _ Hs Ej) as Hj. destruct j as [| | | | | |m]; try discriminate.
    apply jsorted_obj in Hj. apply keys_sorted_iff in Hj.
    apply (c63_map_lossless_pf m (wm_formats w) Hj Fj). }
  apply jsorted_obj in Hs.
  unfold wm_to_obj, uo_put, uo_insert.
  cbn [fst tp_to tp_key p_vp_formats_supported p_authorization_endpoint p_url infallible].
  rewrite Ho, Hf, (obj_insert_same "authorization_endpoint"), obj_insert_same; auto.
Qed.

Example c60_exact_ex :
  exists w, wm_of_obj simple_parse sample_metadata = Ok w
  /\ obj_get "authorization_endpoint" sample_metadata = Some (JStr (url_str (wm_endpoint w))).
Proof. eexists. split; reflexivity. Qed.

(** C60: metadata are rejected exactly when the endpoint is absent or no URL, or the formats are absent or
    no object. *)
Lemma c60_accept_pf :
  forall (url_parse : string -> option url) (o : obj),
    (exists w, wm_of_obj url_parse o = Ok w)
    <-> (exists s u, obj_get "authorization_endpoint" o = Some (JStr s) /\ url_parse s = Some u)
        /\ (exists m, obj_get "vp_formats_supported" o = Some (JObj m)).
Proof.
  intros up o. split.
  - intros [w H]. destruct (wm_of_inv _ _ _ H) as (_ & (s & E & U) & (j & Ej & F)). split; [eauto|].
    destruct j; try discriminate. eauto.
  - intros [(s & u & E & U) (m & Em)]. unfold wm_of_obj, uo_get.
    cbn [tp_key tp_of p_vp_formats_supported p_authorization_endpoint p_url]. rewrite E, Em.
    unfold de_url. cbn [de_str as_str rbind ok_or]. rewrite U. cbn [ok_or parsing_error rbind].
    assert (X : exists l, format_map_of_json (JObj m) = Ok l).
    { cbn [format_map_of_json].
      assert (Y : exists l, mapM (fun e : string * json =>
          let? p := payload_of_json (snd e) in Ok (from_name (fst e), p)) m = Ok l).
      { clear Em. induction m as [|[k v] m IH]; [now exists []|]. destruct IH as [l IH].
        destruct (payload_of_total v) as [p P]. exists ((from_name k, p) :: l).
        cbn [mapM snd fst]. rewrite P. cbn [rbind]. now rewrite IH. }
      destruct Y as [l Y]. rewrite Y. cbn [rbind]. eauto. }
    destruct X as [l X]. rewrite X. cbn [parsing_error rbind]. eauto.
Qed.

Example c60_accept_ex :
  (exists w, wm_of_obj simple_parse sample_metadata = Ok w)
  /\ wm_of_obj simple_parse [("authorization_endpoint", JStr "openid4vp:")] = Err "missing parameter".
Proof. split; [eexists|]; reflexivity. Qed.

(** C60: metadata made by the constructor hold the given endpoint and formats in every view, and keep
    every other given parameter. *)
Lemma c60_new_pf :
  forall (url_parse : string -> option url) (ep : url) (fm : format_map) (other : obj) k,
    let w := wm_new url_parse ep fm (Some other) in
    wm_endpoint w = ep /\ wm_formats w = fm
    /\ obj_get "authorization_endpoint" (wm_obj w) = Some (JStr (url_str ep))
    /\ obj_get "vp_formats_supported" (wm_obj w) = Some (format_map_to_json fm)
    /\ (k <> "authorization_endpoint" -> k <> "vp_formats_supported" ->
        obj_get k (wm_obj w) = obj_get k other)
    /\ (keys_sorted other = true -> wm_to_obj url_parse w = wm_obj w).
Proof.
  intros up ep fm other k w. subst w. unfold wm_new, wm_to_obj, uo_put, uo_insert.
  cbn [fst tp_to tp_key p_vp_formats_supported p_authorization_endpoint p_url infallible wm_obj wm_endpoint wm_formats].
  repeat split.
  - rewrite obj_get_insert_neq by discriminate. apply obj_get_insert_eq.
  - apply obj_get_insert_eq.
  - intros H1 H2. rewrite !obj_get_insert_neq; auto.
  - intros Hs. apply keys_sorted_iff in Hs.
    rewrite (obj_insert_same "authorization_endpoint"), obj_insert_same; auto.
    + apply ksorted_insert. now apply ksorted_insert.
    + apply obj_get_insert_eq.
    + apply ksorted_insert. now apply ksorted_insert.
    + rewrite obj_get_insert_neq by discriminate. apply obj_get_insert_eq.
Qed.

Example c60_new_ex :
  keys_sorted [("issuer", JStr "x")] = true.
Proof. reflexivity. Qed.

(** C60: the static [openid4vp:] metadata are exactly this object, for every URL parser that can read
    the scheme. *)
Lemma c60_static_pf :
  forall (url_parse : string -> option url) u,
    url_parse "openid4vp:" = Some u -> url_str u = "openid4vp:" ->
    exists w, scheme_static url_parse = Ok w
      /\ wm_to_json url_parse w
         = JObj [("authorization_endpoint", JStr "openid4vp:");
                 ("request_object_signing_alg_values_supported", JArr [JStr "ES256"]);
                 ("response_types_supported", JArr [JStr "vp_token"]);
                 ("vp_formats_supported", JObj [("jwt_vc_json", JObj [("alg_values", JArr [JStr "ES256"])])])].
Proof.
  intros up u E S. unfold scheme_static. rewrite E. cbn [rbind].
  set (o := uo_put p_signing_algs _ _).
  assert (Ho : o = [("authorization_endpoint", JStr "openid4vp:");
                 ("request_object_signing_alg_values_supported", JArr [JStr "ES256"]);
                 ("response_types_supported", JArr [JStr "vp_token"]);
                 ("vp_formats_supported", JObj [("jwt_vc_json", JObj [("alg_values", JArr [JStr "ES256"])])])]).
  { subst o. unfold uo_put, uo_insert. cbn [tp_to tp_key p_authorization_endpoint p_url infallible fst].
    rewrite S. reflexivity. }
  clearbody o. subst o.
  assert (H : wm_of_obj up [("authorization_endpoint", JStr "openid4vp:");
                 ("request_object_signing_alg_values_supported", JArr [JStr "ES256"]);
                 ("response_types_supported", JArr [JStr "vp_token"]);
                 ("vp_formats_supported", JObj [("jwt_vc_json", JObj [("alg_values", JArr [JStr "ES256"])])])]
     = Ok (mk_wm [("authorization_endpoint", JStr "openid4vp:");
                 ("request_object_signing_alg_values_supported", JArr [JStr "ES256"]);
                 ("response_types_supported", JArr [JStr "vp_token"]);
                 ("vp_formats_supported", JObj [("jwt_vc_json", JObj [("alg_values", JArr [JStr "ES256"])])])]
             u [(JwtVcJson, AlgValues ["ES256"])])).
  { unfold wm_of_obj, uo_get. cbn. unfold de_url. cbn. now rewrite E. }
  rewrite H. eexists. split; [reflexivity|]. unfold wm_to_json. f_equal.
  apply c60_exact_pf; [reflexivity|exact H|]. cbn. now rewrite S.
Qed.

Example c60_static_ex :
  exists u, simple_parse "openid4vp:" = Some u /\ url_str u = "openid4vp:".
Proof. eexists. split; reflexivity. Qed.

(** C60: after a change through the formats accessor the raw parameter view still shows the old formats,
    while the typed view and the JSON show the new ones. *)
Lemma c60_stale_refuted_pf :
  exists (w : wallet_metadata) (fm : format_map),
    wm_of_obj simple_parse sample_metadata = Ok w /\ fm <> wm_formats w
    /\ uo_get p_vp_formats_supported (wm_obj (set_formats fm w)) = Some (Ok (wm_formats w))
    /\ wm_formats (set_formats fm w) = fm
    /\ obj_get "vp_formats_supported" (wm_to_obj simple_parse (set_formats fm w)) = Some (format_map_to_json fm).
Proof. eexists; exists []. repeat split. discriminate. Qed.

(* ------------------------------------------------------------ C61 *)
Lemma mapM_strs l : mapM de_str (map JStr l) = Ok l.
Proof. exact (de_list_strs l). Qed.

(** C61: adding a signing algorithm appends it to what is supported and changes nothing else; it fails,
    exactly when the present value is malformed. *)
Lemma c61_signing_pf :
  forall (alg : string) (w : wallet_metadata),
    match supported "request_object_signing_alg_values_supported" [] w with
    | Ok old =>
        exists w', add_signing_alg alg w = Ok w'
        /\ supported "request_object_signing_alg_values_supported" [] w' = Ok (old ++ [alg])
        /\ wm_endpoint w' = wm_endpoint w /\ wm_formats w' = wm_formats w
        /\ forall k, k <> "request_object_signing_alg_values_supported" ->
             obj_get k (wm_obj w') = obj_get k (wm_obj w)
    | Err _ => exists e, add_signing_alg alg w = Err e
    end.
Proof.
  intros alg w. unfold supported, add_signing_alg, uo_get_or_default. cbn [tp_key tp_of p_signing_algs p_strings].
  destruct (obj_get "request_object_signing_alg_values_supported" (wm_obj w)) as [j|] eqn:E.
  - destruct j as [| | | | |l|]; cbn [de_list rbind]; try (eexists; reflexivity).
    destruct (mapM de_str l) as [old|e]; cbn [rbind]; [|eauto].
    eexists. split; [reflexivity|]. cbn [wm_obj wm_endpoint wm_formats]. unfold uo_put, uo_insert.
    cbn [fst tp_to tp_key p_signing_algs p_strings infallible]. rewrite obj_get_insert_eq. unfold jstrs.
    rewrite mapM_strs. repeat split. intros k Hk. now apply obj_get_insert_neq.
  - cbn [rbind app]. eexists. split; [reflexivity|]. cbn [wm_obj wm_endpoint wm_formats]. unfold uo_put, uo_insert.
    cbn [fst tp_to tp_key p_signing_algs p_strings infallible]. rewrite obj_get_insert_eq. unfold jstrs.
    rewrite mapM_strs. repeat split. intros k Hk. now apply obj_get_insert_neq.
Qed.

Example c61_signing_ex :
  exists w, wm_of_obj simple_parse sample_metadata = Ok w
  /\ supported "request_object_signing_alg_values_supported" [] w = Ok [].
Proof. eexists. split; reflexivity. Qed.

(** C61: the same for client identifier prefixes, where pre-registered is what an absent list means. *)
Lemma c61_prefixes_pf :
  forall (ps : list string) (w : wallet_metadata),
    match supported "client_id_prefixes_supported" ["pre-registered"] w with
    | Ok old =>
        exists w', add_client_id_prefixes ps w = Ok w'
        /\ supported "client_id_prefixes_supported" ["pre-registered"] w' = Ok (old ++ ps)
        /\ wm_endpoint w' = wm_endpoint w /\ wm_formats w' = wm_formats w
        /\ forall k, k <> "client_id_prefixes_supported" ->
             obj_get k (wm_obj w') = obj_get k (wm_obj w)
    | Err _ => exists e, add_client_id_prefixes ps w = Err e
    end.
Proof.
  intros ps w. unfold supported, add_client_id_prefixes, uo_get_or_default. cbn [tp_key tp_of p_client_id_prefixes p_strings].
  destruct (obj_get "client_id_prefixes_supported" (wm_obj w)) as [j|] eqn:E.
  - destruct j as [| | | | |l|]; cbn [de_list rbind]; try (eexists; reflexivity).
    destruct (mapM de_str l) as [old|e]; cbn [rbind]; [|eauto].
    eexists. split; [reflexivity|]. cbn [wm_obj wm_endpoint wm_formats]. unfold uo_put, uo_insert.
    cbn [fst tp_to tp_key p_client_id_prefixes p_strings infallible]. rewrite obj_get_insert_eq. unfold jstrs.
    rewrite mapM_strs. repeat split. intros k Hk. now apply obj_get_insert_neq.
  - cbn [rbind app]. eexists. split; [reflexivity|]. cbn [wm_obj wm_endpoint wm_formats]. unfold uo_put, uo_insert.
    cbn [fst tp_to tp_key p_client_id_prefixes p_strings infallible]. rewrite obj_get_insert_eq. unfold jstrs.
    rewrite mapM_strs. repeat split. intros k Hk. now apply obj_get_insert_neq.
Qed.

Example c61_prefixes_ex :
  exists w w', wm_of_obj simple_parse sample_metadata = Ok w
  /\ add_client_id_prefixes ["x509_hash"] w = Ok w'
  /\ supported "client_id_prefixes_supported" ["pre-registered"] w' = Ok ["pre-registered"; "x509_hash"].
Proof. eexists. eexists. repeat split. Qed.
