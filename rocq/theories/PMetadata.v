(** Wallet metadata (C60, C61) *)
From Coq Require Import Sorting.Permutation.
From Verif Require Import Base BaseFacts Json JsonFacts Serde MapFacts Url Object Formats Params Metadata Spec
  SpecObject ParamFacts PfParams PfFormats.
From Verif Require Import PfMetadata.

(** C60: metadata read from an object: the object is accepted exactly when the endpoint is a URL and the
    formats are a map; converting back keeps every parameter except that the endpoint is written as the
    parsed URL prints; and the result is read as the same metadata view again. *)
Theorem c60_roundtrip :
  forall (url_parse : string -> option url) (o : obj) (w : wallet_metadata),
    (forall s u, url_parse s = Some u -> url_parse (url_str u) = Some u) ->
    jsorted (JObj o) = true ->
    wm_of_obj url_parse o = Ok w ->
    (forall k, k <> "authorization_endpoint" -> obj_get k (wm_to_obj url_parse w) = obj_get k o)
    /\ (exists s, obj_get "authorization_endpoint" o = Some (JStr s)
          /\ url_parse s = Some (wm_endpoint w)
          /\ obj_get "authorization_endpoint" (wm_to_obj url_parse w) = Some (JStr (url_str (wm_endpoint w))))
    /\ wm_of_obj url_parse (wm_to_obj url_parse w)
       = Ok (mk_wm (wm_to_obj url_parse w) (wm_endpoint w) (wm_formats w)).
Proof. exact c60_roundtrip_pf. Qed.
Print Assumptions c60_roundtrip.

Example c60_roundtrip_witness :
  jsorted (JObj sample_metadata) = true
  /\ exists w, wm_of_obj simple_parse sample_metadata = Ok w /\ wm_to_obj simple_parse w = sample_metadata.
Proof. exact c60_roundtrip_ex. Qed.

(** C60: if the endpoint is written the way it prints, the JSON is kept exactly. *)
Theorem c60_exact :
  forall (url_parse : string -> option url) (o : obj) (w : wallet_metadata),
    jsorted (JObj o) = true ->
    wm_of_obj url_parse o = Ok w ->
    obj_get "authorization_endpoint" o = Some (JStr (url_str (wm_endpoint w))) ->
    wm_to_obj url_parse w = o.
Proof. exact c60_exact_pf. Qed.
Print Assumptions c60_exact.

Example c60_exact_witness :
  exists w, wm_of_obj simple_parse sample_metadata = Ok w
  /\ obj_get "authorization_endpoint" sample_metadata = Some (JStr (url_str (wm_endpoint w))).
Proof. exact c60_exact_ex. Qed.

(** C60: metadata are rejected exactly when the endpoint is absent or no URL, or the formats are absent or
    no object. *)
Theorem c60_accept :
  forall (url_parse : string -> option url) (o : obj),
    (exists w, wm_of_obj url_parse o = Ok w)
    <-> (exists s u, obj_get "authorization_endpoint" o = Some (JStr s) /\ url_parse s = Some u)
        /\ (exists m, obj_get "vp_formats_supported" o = Some (JObj m)).
Proof. exact c60_accept_pf. Qed.
Print Assumptions c60_accept.

Example c60_accept_witness :
  (exists w, wm_of_obj simple_parse sample_metadata = Ok w)
  /\ wm_of_obj simple_parse [("authorization_endpoint", JStr "openid4vp:")] = Err "missing parameter".
Proof. exact c60_accept_ex. Qed.

(** C60: metadata made by the constructor hold the given endpoint and formats in every view, and keep
    every other given parameter. *)
Theorem c60_new :
  forall (url_parse : string -> option url) (ep : url) (fm : format_map) (other : obj) k,
    let w := wm_new url_parse ep fm (Some other) in
    wm_endpoint w = ep /\ wm_formats w = fm
    /\ obj_get "authorization_endpoint" (wm_obj w) = Some (JStr (url_str ep))
    /\ obj_get "vp_formats_supported" (wm_obj w) = Some (format_map_to_json fm)
    /\ (k <> "authorization_endpoint" -> k <> "vp_formats_supported" ->
        obj_get k (wm_obj w) = obj_get k other)
    /\ (keys_sorted other = true -> wm_to_obj url_parse w = wm_obj w).
Proof. exact c60_new_pf. Qed.
Print Assumptions c60_new.

Example c60_new_witness :
  keys_sorted [("issuer", JStr "x")] = true.
Proof. exact c60_new_ex. Qed.

(** C60: the static [openid4vp:] metadata are exactly this object, for every URL parser that can read
    the scheme. *)
Theorem c60_static :
  forall (url_parse : string -> option url) u,
    url_parse "openid4vp:" = Some u -> url_str u = "openid4vp:" ->
    exists w, scheme_static url_parse = Ok w
      /\ wm_to_json url_parse w
         = JObj [("authorization_endpoint", JStr "openid4vp:");
                 ("request_object_signing_alg_values_supported", JArr [JStr "ES256"]);
                 ("response_types_supported", JArr [JStr "vp_token"]);
                 ("vp_formats_supported", JObj [("jwt_vc_json", JObj [("alg_values", JArr [JStr "ES256"])])])].
Proof. exact c60_static_pf. Qed.
Print Assumptions c60_static.

Example c60_static_witness :
  exists u, simple_parse "openid4vp:" = Some u /\ url_str u = "openid4vp:".
Proof. exact c60_static_ex. Qed.

(** C60: after a change through the formats accessor the raw parameter view still shows the old formats,
    while the typed view and the JSON show the new ones. *)
Theorem c60_stale_refuted :
  exists (w : wallet_metadata) (fm : format_map),
    wm_of_obj simple_parse sample_metadata = Ok w /\ fm <> wm_formats w
    /\ uo_get p_vp_formats_supported (wm_obj (set_formats fm w)) = Some (Ok (wm_formats w))
    /\ wm_formats (set_formats fm w) = fm
    /\ obj_get "vp_formats_supported" (wm_to_obj simple_parse (set_formats fm w)) = Some (format_map_to_json fm).
Proof. exact c60_stale_refuted_pf. Qed.
Print Assumptions c60_stale_refuted.

(** C61: adding a signing algorithm appends it to what is supported and changes nothing else; it fails,
    exactly when the present value is malformed. *)
Theorem c61_signing :
  forall (alg : string) (w : wallet_metadata),
    match supported "request_object_signing_alg_values_supported" [] w with
    | Ok old =>
        exists w', add_signing_alg alg w = Ok w'
        /\ supported "request_object_signing_alg_values_supported" [] w' = Ok (old ++ [alg])
        /\ wm_endpoint w' = wm_endpoint w /\ wm_formats w' = wm_formats w
        /\ forall k, k <> "request_object_signing_alg_values_supported" ->
             obj_get k (wm_obj w') = obj_get k (wm_obj w)
    | Err _ => exists e, add_signing_alg alg w = Err e
    end.
Proof. exact c61_signing_pf. Qed.
Print Assumptions c61_signing.

Example c61_signing_witness :
  exists w, wm_of_obj simple_parse sample_metadata = Ok w
  /\ supported "request_object_signing_alg_values_supported" [] w = Ok [].
Proof. exact c61_signing_ex. Qed.

(** C61: the same for client identifier prefixes, where pre-registered is what an absent list means. *)
Theorem c61_prefixes :
  forall (ps : list string) (w : wallet_metadata),
    match supported "client_id_prefixes_supported" ["pre-registered"] w with
    | Ok old =>
        exists w', add_client_id_prefixes ps w = Ok w'
        /\ supported "client_id_prefixes_supported" ["pre-registered"] w' = Ok (old ++ ps)
        /\ wm_endpoint w' = wm_endpoint w /\ wm_formats w' = wm_formats w
        /\ forall k, k <> "client_id_prefixes_supported" ->
             obj_get k (wm_obj w') = obj_get k (wm_obj w)
    | Err _ => exists e, add_client_id_prefixes ps w = Err e
    end.
Proof. exact c61_prefixes_pf. Qed.
Print Assumptions c61_prefixes.

Example c61_prefixes_witness :
  exists w w', wm_of_obj simple_parse sample_metadata = Ok w
  /\ add_client_id_prefixes ["x509_hash"] w = Ok w'
  /\ supported "client_id_prefixes_supported" ["pre-registered"] w' = Ok ["pre-registered"; "x509_hash"].
Proof. exact c61_prefixes_ex. Qed.
