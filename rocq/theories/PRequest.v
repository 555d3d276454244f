(** Request objects, queries and URLs (C06-C12) *)
From Coq Require Import Lia.
From Verif Require Import Base BaseFacts Utf8 Utf8Facts Json JsonFacts JsonText JsonTextFacts Serde MapFacts Url UrlEncoded UrlEncodedFacts Object Params
  Effects Jwt Request Spec SpecObject SpecRequest ParamFacts.
From Verif Require Import PfRequest.

(** C06: a parameter object is accepted as an authorization request object exactly when it is acceptable. *)
Theorem c06_accept :
  forall (url_parse : string -> option url) (o : obj),
    url_parse "https://example.com" <> None ->
    (exists a, aro_of_obj url_parse o = Ok a) <-> acceptable url_parse o.
Proof. exact c06_accept_pf. Qed.
Print Assumptions c06_accept.

Example c06_accept_witness :
  (exists a, aro_of_obj simple_parse sample_request = Ok a)
  /\ simple_parse "https://example.com" <> None
  /\ aro_of_obj simple_parse (obj_insert "redirect_uri" (JStr "https://x.example/") sample_request) = Err "mutually exclusive"
  /\ aro_of_obj simple_parse (obj_insert "response_mode" (JStr "query") sample_request) = Err "unsupported response_mode"
  /\ aro_of_obj simple_parse (obj_insert "response_mode" (JStr "dc_api") sample_request) = Err "'response_uri' cannot be present".
Proof. exact c06_accept_ex. Qed.

(** C07: in the direct_post modes the return URI is the request's response_uri. *)
Theorem c07_return_uri :
  forall (url_parse : string -> option url) (o : obj) (a : aro),
    aro_of_obj url_parse o = Ok a -> ro_mode a = DirectPost \/ ro_mode a = DirectPostJwt ->
    exists s, text_at "response_uri" o s /\ url_parse s = Some (ro_return a).
Proof. exact c07_return_uri_pf. Qed.
Print Assumptions c07_return_uri.

Example c07_return_uri_witness :
  exists a, aro_of_obj simple_parse sample_request = Ok a /\ ro_mode a = DirectPost
  /\ url_str (ro_return a) = "https://v.example/resp".
Proof. exact c07_return_uri_ex. Qed.

(** C07: no other parameter influences the return URI: two accepted request objects with the same
    response_uri member have the same return URI, whatever else they contain. *)
Theorem c07_no_influence :
  forall (url_parse : string -> option url) (o o' : obj) (a a' : aro),
    aro_of_obj url_parse o = Ok a -> aro_of_obj url_parse o' = Ok a' ->
    obj_get "response_uri" o = obj_get "response_uri" o' ->
    ro_return a = ro_return a'.
Proof. exact c07_no_influence_pf. Qed.
Print Assumptions c07_no_influence.

Example c07_no_influence_witness :
  exists a', aro_of_obj simple_parse (obj_insert "response_mode" (JStr "direct_post.jwt")
      (obj_insert "client_id" (JStr "attacker") sample_request)) = Ok a'
  /\ url_str (ro_return a') = "https://v.example/resp".
Proof. exact c07_no_influence_ex. Qed.

(** C07: for the Digital Credentials API the return URI is a fixed placeholder that the request does not
    name. *)
Theorem c07_placeholder_refuted :
  exists o a, aro_of_obj simple_parse o = Ok a /\ obj_get "response_uri" o = None /\ obj_get "redirect_uri" o = None
    /\ url_str (ro_return a) = "https://example.com".
Proof. exact c07_placeholder_refuted_pf. Qed.
Print Assumptions c07_placeholder_refuted.

(** C08: turning an accepted request object back into JSON yields the original JSON with all its members,
    and parsing that yields the same request object. *)
Theorem c08_roundtrip :
  forall (url_parse : string -> option url) (o : obj) (a : aro),
    aro_of_obj url_parse o = Ok a ->
    aro_to_json a = JObj o /\ aro_of_json url_parse (aro_to_json a) = Ok a
    /\ (jwf (JObj o) = true -> jdepth (JObj o) <= 127 ->
        json_of_text (jprint (aro_to_json a)) = Some (JObj o)).
Proof. exact c08_roundtrip_pf. Qed.
Print Assumptions c08_roundtrip.

Example c08_roundtrip_witness :
  jwf (JObj sample_request) = true
  /\ exists a, aro_of_obj simple_parse sample_request = Ok a
  /\ obj_get "zzz" (aro_to_obj a) = Some (JArr [JNull]).
Proof. exact c08_roundtrip_ex. Qed.

(** C09: after parsing, the accessors say what the raw parameters say. *)
Theorem c09_views :
  forall (url_parse : string -> option url) (o : obj) (a : aro),
    aro_of_obj url_parse o = Ok a ->
    (ro_client_id a = None /\ absent "client_id" o
     \/ exists c, ro_client_id a = Some c /\ text_at "client_id" o c)
    /\ ro_scheme a = match ro_client_id a with
                     | None => None
                     | Some c => option_map fst (split_once ":" c)
                     end
    /\ (absent "response_mode" o /\ ro_mode a = DirectPost
        \/ exists s, text_at "response_mode" o s /\ ro_mode a = mode_of_string s
             /\ In s ["direct_post"; "direct_post.jwt"; "dc_api"; "dc_api.jwt"])
    /\ (exists s, text_at "response_type" o s /\ rtype_to_string (ro_type a) = s)
    /\ text_at "nonce" o (ro_nonce a)
    /\ (forall T (P : tparam T), aro_get P a = uo_get P o).
Proof. exact c09_views_pf. Qed.
Print Assumptions c09_views.

Example c09_views_witness :
  exists a, aro_of_obj simple_parse sample_request = Ok a /\ ro_scheme a = Some "x509_san_dns" /\ ro_nonce a = "n1".
Proof. exact c09_views_ex. Qed.

(** C09: mutation through the map view changes the raw parameters but none of the accessors. *)
Theorem c09_mutation :
  forall T (P : tparam T) (t : T) (a : aro),
    let a' := aro_put P t a in
    ro_client_id a' = ro_client_id a /\ ro_scheme a' = ro_scheme a /\ ro_mode a' = ro_mode a
    /\ ro_type a' = ro_type a /\ ro_return a' = ro_return a /\ ro_nonce a' = ro_nonce a
    /\ (forall v, tp_to P t = Ok v -> obj_get (tp_key P) (aro_to_obj a') = Some v).
Proof. exact c09_mutation_pf. Qed.
Print Assumptions c09_mutation.

Example c09_mutation_witness : exists v, tp_to p_nonce "other" = Ok v.
Proof. exact c09_mutation_ex. Qed.

(** C09: so after mutation the accessors can contradict the parameters: the nonce accessor keeps the old
    nonce although the object, as it would be sent, has the new one. *)
Theorem c09_stale_refuted :
  exists a, aro_of_obj simple_parse sample_request = Ok a
    /\ aro_get p_nonce (aro_put p_nonce "n2" a) = Some (Ok "n2")
    /\ ro_nonce (aro_put p_nonce "n2" a) = "n1".
Proof. exact c09_stale_refuted_pf. Qed.
Print Assumptions c09_stale_refuted.

(** C10: the request a query string is read as is exactly the one its pairs denote; it is rejected exactly
    when client_id is repeated. *)
Theorem c10_classification :
  forall (url_parse : string -> option url) (query : string),
    (forall r, from_query_params url_parse query = Ok r <-> denotes url_parse (form_parse query) r)
    /\ ((exists e, from_query_params url_parse query = Err e)
        <-> exists a v b w c, form_parse query = a ++ ("client_id", v) :: b ++ ("client_id", w) :: c).
Proof. exact c10_classification_pf. Qed.
Print Assumptions c10_classification.

Example c10_classification_witness :
  from_query_params simple_parse "client_id=c&request=j&request_uri=https%3A%2F%2Fv.example%2F"
    = Ok (mk_ar (Some "c") (ByValue "j"))
  /\ from_query_params simple_parse "client_id=c&nonce=a&nonce=b"
    = Ok (mk_ar (Some "c") (Direct [("nonce", JStr "b")]))
  /\ from_query_params simple_parse "request=j&request=k"
    = Ok (mk_ar None (Direct [("request", JStr "k")]))
  /\ from_query_params simple_parse "client_id=c&client_id=c" = Err "duplicate field `client_id`".
Proof. exact c10_classification_ex. Qed.

(** C11: a URL is accepted by [from_url] exactly when it has a query, authority and path equal the
    endpoint's, and the query is readable. *)
Theorem c11_matching :
  forall (url_parse : string -> option url) (u endpoint : url) (r : auth_request),
    from_url url_parse u endpoint = Ok r
    <-> exists q, u_query u = Some q /\ url_authority u = url_authority endpoint
        /\ u_path u = u_path endpoint /\ denotes url_parse (form_parse q) r.
Proof. exact c11_matching_pf. Qed.
Print Assumptions c11_matching.

Example c11_matching_witness :
  exists u e, simple_parse "openid4vp://w/p?client_id=c&request=j" = Some u /\ simple_parse "openid4vp://w/p" = Some e
  /\ from_url simple_parse u e = Ok (mk_ar (Some "c") (ByValue "j")).
Proof. exact c11_matching_ex. Qed.

(** C11: the scheme is not compared: for every accepted URL, the same URL under any other scheme is
    accepted too. *)
Theorem c11_scheme_ignored :
  forall (url_parse : string -> option url) (u endpoint : url) (r : auth_request) (other : string),
    from_url url_parse u endpoint = Ok r ->
    from_url url_parse (mk_url other (u_auth u) (u_path u) (u_opaque u) (u_query u) (u_frag u)) endpoint = Ok r.
Proof. exact c11_scheme_ignored_pf. Qed.
Print Assumptions c11_scheme_ignored.

Example c11_scheme_ignored_witness :
  exists u e, simple_parse "http://w/p?request=j" = Some u /\ simple_parse "openid4vp://w/p" = Some e
  /\ from_url simple_parse u e = Ok (mk_ar None (ByValue "j")).
Proof. exact c11_scheme_ignored_ex. Qed.

(** C12: serialising a request into a URL on the endpoint and reading it back gives the same request. *)
Theorem c12_roundtrip :
  forall (url_parse : string -> option url) (r : auth_request) (endpoint : url),
    representable url_parse r ->
    exists u, to_url r endpoint = Ok u /\ from_url url_parse u endpoint = Ok r
      /\ u_scheme u = u_scheme endpoint /\ u_auth u = u_auth endpoint /\ u_path u = u_path endpoint
      /\ u_frag u = u_frag endpoint.
Proof. exact c12_roundtrip_pf. Qed.
Print Assumptions c12_roundtrip.

Example c12_roundtrip_witness :
  representable simple_parse (mk_ar (Some "x509_hash:a&b=c") (Direct [("nonce", JStr "1 2"); ("state", JStr "&request=evil")]))
  /\ representable simple_parse (mk_ar None (ByReference (mk_url "https" (Some "v.example") "/r" false (Some "a=1") None))).
Proof. exact c12_roundtrip_ex. Qed.

(** C12: a direct request with a member named request is read back as a request by value, and numbers come
    back as text. *)
Theorem c12_confusion_refuted :
  exists r r' endpoint u, to_url r endpoint = Ok u /\ from_url simple_parse u endpoint = Ok r' /\ r <> r'
    /\ exists r2 r2' u2, to_url r2 endpoint = Ok u2 /\ from_url simple_parse u2 endpoint = Ok r2' /\ r2 <> r2'
       /\ ar_indirection r2 = Direct [("n", JInt 5)] /\ ar_indirection r2' = Direct [("n", JStr "5")].
Proof. exact c12_confusion_refuted_pf. Qed.
Print Assumptions c12_confusion_refuted.

(** C12: a direct request with numbers or booleans is read back with their JSON texts in place of them. *)
Theorem c12_texts :
  forall (url_parse : string -> option url) (cid : option string) (o texts : obj) (endpoint : url),
    Forall2 (fun m m' => fst m' = fst m /\ exists t, snd m' = JStr t /\ in_url (snd m) t) o texts ->
    representable url_parse (mk_ar cid (Direct texts)) ->
    exists u, to_url (mk_ar cid (Direct o)) endpoint = Ok u /\ from_url url_parse u endpoint = Ok (mk_ar cid (Direct texts)).
Proof. exact c12_texts_pf. Qed.
Print Assumptions c12_texts.

Example c12_texts_witness :
  let o := [("b", JBool true); ("n", JInt (-12)); ("s", JStr "1 2")] in
  let texts := [("b", JStr "true"); ("n", JStr "-12"); ("s", JStr "1 2")] in
  Forall2 (fun m m' => fst m' = fst m /\ exists t, snd m' = JStr t /\ in_url (snd m) t) o texts
  /\ representable simple_parse (mk_ar (Some "c") (Direct texts)).
Proof. exact c12_texts_ex. Qed.

(** C12: a request is not serialised exactly when it is given directly and has a null, list or object
    member. *)
Theorem c12_unserialisable :
  forall (r : auth_request) (endpoint : url),
    (exists e, to_url r endpoint = Err e)
    <-> exists o k v, ar_indirection r = Direct o /\ In (k, v) o
        /\ (v = JNull \/ (exists l, v = JArr l) \/ exists m, v = JObj m).
Proof. exact c12_unserialisable_pf. Qed.
Print Assumptions c12_unserialisable.

Example c12_unserialisable_witness :
  to_url (mk_ar None (Direct [("client_metadata", JObj [])])) (mk_url "x" None "" true None None) = Err "unsupported value".
Proof. exact c12_unserialisable_ex. Qed.
