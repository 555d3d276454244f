From Coq Require Import Lia.
From Verif Require Import Base BaseFacts Utf8 Json JsonFacts Url UrlEncoded UrlEncodedFacts Effects Request Response Metadata Verify Session Builder Wallet ExMatcher ExWallet ExHttp ExVerifier ExConsole
  SpecEncodings PfEncodings SpecRequest PfRequest PfResolve SpecHttp PfHttp SpecExample PfExample PfFlow PfBuilder SpecWritten.

Lemma given_values k l : given k l = values_of k l.
Proof.
  unfold values_of. induction l as [|[a v] l IH]; cbn [given filter fst map snd]; [reflexivity|]. destruct (string_dec a k) as [->|N0].
  - rewrite String.eqb_refl. cbn [map snd]. now rewrite IH.
  - apply String.eqb_neq in N0. now rewrite N0.
Qed.
Lemma same_values k s s' : same_for k s s' <-> values_of k (form_parse s) = values_of k (form_parse s').
Proof.
  split.
  - intros H. rewrite <- !given_values. apply H; now apply c96_form_pf.
  - intros H l l' A B. apply c96_form_pf in A, B. subst. now rewrite !given_values.
Qed.
Lemma values_others k c l : values_of k (others_of c l) = if String.eqb k c then [] else values_of k l.
Proof.
  unfold values_of, others_of. induction l as [|[a v] l IH]; cbn [filter fst map]; [now destruct (String.eqb k c)|].
  destruct (String.eqb_spec a c) as [->|N0]; cbn [negb].
  - rewrite IH. destruct (String.eqb_spec k c) as [->|N1]; [reflexivity|]. destruct (String.eqb_spec c k); [now subst|reflexivity].
  - cbn [filter fst]. destruct (String.eqb_spec a k) as [->|N1]; [|exact IH]. apply String.eqb_neq in N0. rewrite N0 in *. cbn [map]. now rewrite IH.
Qed.
Lemma last_values k l : last_get k (map (fun kv : string * string => (fst kv, JStr (snd kv))) l) = match rev (values_of k l) with v :: _ => Some (JStr v) | [] => None end.
Proof.
  unfold values_of. induction l as [|[a v] l IH]; [reflexivity|]. cbn [map last_get fst snd filter]. rewrite IH.
  rewrite (String.eqb_sym a k). destruct (String.eqb_spec k a) as [->|N0]; cbn [map rev snd].
  - destruct (rev (map snd (filter (fun kv : string * string => String.eqb (fst kv) a) l))); reflexivity.
  - destruct (rev (map snd (filter (fun kv : string * string => String.eqb (fst kv) k) l))); reflexivity.
Qed.
Lemma from_pairs_same up l l' : (forall k, values_of k l = values_of k l') -> from_pairs up l = from_pairs up l'.
Proof.
  intros H. assert (O : obj_of_list (map (fun kv : string * string => (fst kv, JStr (snd kv))) (others_of "client_id" l)) = obj_of_list (map (fun kv : string * string => (fst kv, JStr (snd kv))) (others_of "client_id" l'))).
  { apply ksorted_ext; try apply ksorted_of_list. intros k. rewrite !get_of_list, !last_values, !values_others, (H k). reflexivity. }
  unfold from_pairs. rewrite !values_others, O, (H "client_id"), (H "request"), (H "request_uri"). reflexivity.
Qed.

(** C135: A wallet does the same, and ends with the same, for two URLs to the same place that say the same, however their parameters are escaped
    and ordered. *)
Lemma c135_url_pf :
  forall (url_parse : string -> option url) (ssi_header : obj -> option bool) (uri_ok : string -> bool) (w : wallet) (u u' : url) (query query' : string),
    u_query u = Some query -> u_query u' = Some query' -> url_authority u = url_authority u' -> u_path u = u_path u' ->
    same_form query query' ->
    validate_request url_parse ssi_header uri_ok w u = validate_request url_parse ssi_header uri_ok w u'.
Proof.
  intros up ssi uok w u u' q q' Q Q' A P S. unfold validate_request. f_equal. f_equal. unfold from_url. rewrite Q, Q', A, P. cbn [ok_or rbind].
  destruct (of_bool (String.eqb (url_authority u') (url_authority (wm_endpoint (w_metadata w)))) "unexpected authority"); [|reflexivity]. cbn [rbind].
  destruct (of_bool (String.eqb (u_path u') (u_path (wm_endpoint (w_metadata w)))) "unexpected path"); [|reflexivity]. cbn [rbind].
  unfold from_query_params. apply from_pairs_same. intros k. now apply same_values.
Qed.
Example c135_url_ex :
  let said := "request=" +:+ jwt_of typ_ok sample_request +:+ "&&client%5fid=x509%5Fsan_dns:v.example" in
  same_form ("client_id=x509_san_dns%3Av.example&request=" +:+ jwt_of typ_ok sample_request) said
  /\ is_ok (snd (validate_request simple_parse any_header (fun _ => true) (url_wallet ["x509_san_dns"]) (toy_url ("openid4vp://w/auth?" +:+ said)))) = true.
Proof.
  cbv zeta. split; [|vm_compute; reflexivity]. intros k. apply same_values.
  assert (E : form_parse ("client_id=x509_san_dns%3Av.example&request=" +:+ jwt_of typ_ok sample_request) = [("client_id", "x509_san_dns:v.example"); ("request", jwt_of typ_ok sample_request)]) by (vm_compute; reflexivity).
  assert (E' : form_parse ("request=" +:+ jwt_of typ_ok sample_request +:+ "&&client%5fid=x509%5Fsan_dns:v.example") = [("request", jwt_of typ_ok sample_request); ("client_id", "x509_san_dns:v.example")]) by (vm_compute; reflexivity).
  rewrite E, E'. clear E E'. generalize (jwt_of typ_ok sample_request). intros j. unfold values_of. cbn [filter fst].
  destruct (String.eqb_spec "client_id" k) as [<-|_]; [reflexivity|]. now destruct (String.eqb "request" k).
Qed.

Lemma once_same k s s' : same_for k s s' -> once k (form_parse s) = once k (form_parse s').
Proof.
  intros H. apply same_values in H. unfold values_of in H. unfold once.
  destruct (filter _ (form_parse s)) as [|[a b] [|[c d] r]], (filter _ (form_parse s')) as [|[a' b'] [|[c' d'] r']]; cbn [map snd] in H; try discriminate H; try reflexivity.
  injection H as ->. reflexivity.
Qed.
Lemma params_same s s' : same_for_all (map fst parameters) s s' -> read_params s = read_params s'.
Proof.
  intros H. unfold read_params. cbv zeta. unfold same_for_all, parameters in H. cbn [map fst In] in H.
  rewrite !(fun k I => once_same k s s' (H k I)) by tauto. reflexivity.
Qed.

(** C135: The example wallet answers two HTTP requests alike, and does the same, if the parameters it knows are the same in both, however they are
    written and whatever else is there. *)
Lemma c135_wallet_pf :
  forall (url_parse : string -> option url) (ssi_header : obj -> option bool) (uri_ok : string -> bool) (jwk_ok : obj -> bool)
    (jwe_encrypt : obj -> obj -> obj -> res string) (lower sign : string -> string) (now : Z) (http : http_client) (endpoint : url)
    (store : list credential) (auto_consent : bool) (describe : string -> string) (reason : N -> string) (public_url : url) (point : string * string)
    (method path : string) (content_type : option string) (query query' : option string) (body body' : string),
    let answer q b := route url_parse ssi_header uri_ok jwk_ok jwe_encrypt lower sign now http endpoint store auto_consent describe reason public_url point
      (mk_hrequest method path q content_type b) in
    same_for_all (map fst parameters) (query_text query) (query_text query') -> same_for_all (map fst parameters) body body' ->
    answer query body = answer query' body'.
Proof.
  intros until body'. cbv zeta. intros Q B. unfold route. cbn [hq_method hq_path].
  unfold authorization_get, authorization_post. cbn [hq_query hq_content_type hq_body].
  change (match query with Some t => t | None => "" end) with (query_text query). change (match query' with Some t => t | None => "" end) with (query_text query').
  rewrite (params_same _ _ Q), (params_same _ _ B). reflexivity.
Qed.
Example c135_wallet_ex : same_for_all (map fst parameters) "nonce=a+b&utm=1&state=%7e" "state=~&n%6Fnce=a%20b".
Proof.
  intros k I. apply same_values. cbn [map fst parameters In] in I.
  repeat (destruct I as [<-|I]; [vm_compute; reflexivity|]). destruct I.
Qed.

(** C135: A response is understood alike however its fields are written and whatever else is in the form, and so both example verifiers do the same with it. *)
Lemma c135_response_pf :
  forall (body body' : string), same_for_all ["response"; "vp_token"; "state"] body body' ->
    from_form body = from_form body'
    /\ (utf8_valid body = utf8_valid body' ->
        (forall url_parse adapter sid, handler url_parse adapter (HResponse sid body) = handler url_parse adapter (HResponse sid body'))
        /\ forall sid, chandler (CResponse sid body) = chandler (CResponse sid body')).
Proof.
  intros b b' H. assert (E : from_form b = from_form b').
  { unfold from_form. cbv zeta. unfold field_values.
    assert (K : forall k, In k ["response"; "vp_token"; "state"] -> map snd (filter (fun kv : string * string => String.eqb (fst kv) k) (form_parse b)) = map snd (filter (fun kv : string * string => String.eqb (fst kv) k) (form_parse b'))).
    { intros k I. apply (proj1 (same_values k b b')). now apply H. }
    rewrite (K "response"), (K "vp_token"), (K "state") by (cbn [In]; tauto). reflexivity. }
  split; [exact E|]. intros U. split.
  - intros up a sid. unfold handler, receive_response. now rewrite U, E.
  - intros sid. unfold chandler. now rewrite U, E.
Qed.
Example c135_response_ex :
  same_for_all ["response"; "vp_token"; "state"] "state=1&vp_token=%7B%22a%22:[]}" "lang=en&vp_token={%22a%22:%5b%5d}&state=%31" /\ is_ok (from_form "state=1&vp_token=%7B%22a%22:[]}") = true.
Proof.
  split; [|vm_compute; reflexivity]. intros k I. apply same_values. cbn [In] in I. repeat (destruct I as [<-|I]; [vm_compute; reflexivity|]). destruct I.
Qed.

(* ------------------------------------------------------------ the endpoint's own query *)
Lemma split_all_app c a b : split_all c (a +:+ String c b) = split_all c a ++ split_all c b.
Proof.
  induction a as [|d a IH]; cbn [String.append split_all app]; [now rewrite Ascii.eqb_refl|].
  destruct (Ascii.eqb c d); rewrite IH; [reflexivity|]. destruct (split_all c a) eqn:E; [destruct (split_all_nonempty c a E)|]. reflexivity.
Qed.
Lemma form_parse_app a b : form_parse (a +:+ "&" +:+ b) = form_parse a ++ form_parse b.
Proof.
  unfold form_parse. change (a +:+ "&" +:+ b) with (a +:+ String "&" b). now rewrite split_all_app, filter_app, map_app.
Qed.
Lemma fields_pairs p : param_pairs p = fields_of p.
Proof. reflexivity. Qed.
Lemma texts_pairs p : texts p -> Forall (fun kv : string * string => utf8_valid (fst kv) = true /\ utf8_valid (snd kv) = true) (fields_of p).
Proof.
  intros T. apply Forall_forall. intros [k v] I. unfold fields_of in I. apply in_flat_map in I as ([k' f] & I & X). cbn [fst snd] in X.
  destruct (f p) as [v'|] eqn:E; [|destruct X]. destruct X as [X|[]]. injection X as -> ->. cbn [fst snd]. split; [|exact (T k f v I E)].
  unfold parameters in I. cbn [In] in I. repeat (destruct I as [I|I]; [injection I as <- _; reflexivity|]). destruct I.
Qed.

(** C135: What the example wallet makes of a request is a URL at its endpoint that says what the endpoint's own query says, then what the request
    said, and nothing else. *)
Lemma c135_endpoint_pf :
  forall (endpoint : url) (p : params) (own : list (string * string)), texts p -> form_text (query_text (u_query endpoint)) own ->
    let u := build_request_url endpoint p in
    exists query, u = mk_url (u_scheme endpoint) (u_auth endpoint) (u_path endpoint) (u_opaque endpoint) (Some query) (u_frag endpoint)
      /\ form_text query (own ++ fields_of p).
Proof.
  intros ep p own T F. cbv zeta. unfold build_request_url, set_query. eexists. split; [reflexivity|]. apply c96_form_pf. apply c96_form_pf in F. subst own.
  rewrite fields_pairs. pose proof (form_parse_serialize _ (texts_pairs p T)) as S. destruct (u_query ep) as [q|]; cbn [query_text].
  - destruct q as [|c q]; [exact S|]. destruct (fields_of p) as [|x l] eqn:E; [now rewrite app_nil_r|]. rewrite form_parse_app. now rewrite S.
  - exact S.
Qed.
Example c135_endpoint_ex :
  form_text (query_text (Some "tenant=a%20b&")) [("tenant", "a b")] /\ texts ex_direct
  /\ option_map form_parse (u_query (build_request_url (set_query ex_endpoint "tenant=a%20b&") (mk_params (Some "c") None None None None (Some "s") None None None))) = Some [("tenant", "a b"); ("client_id", "c"); ("state", "s")].
Proof.
  split; [apply c96_form_pf; vm_compute; reflexivity|]. split; [|vm_compute; reflexivity].
  intros k f v I E. unfold parameters in I. cbn [In] in I. repeat (destruct I as [I|I]; [injection I as <- <-; vm_compute in E; first [discriminate E|injection E as <-; vm_compute; reflexivity]|]). destruct I.
Qed.

Lemma values_app k l l' : values_of k (l ++ l') = values_of k l ++ values_of k l'.
Proof. unfold values_of. now rewrite filter_app, map_app. Qed.
Lemma from_url_at up ep p own : texts p -> form_text (query_text (u_query ep)) own -> from_url up (build_request_url ep p) ep = from_pairs up (own ++ fields_of p).
Proof.
  intros T F. destruct (c135_endpoint_pf ep p own T F) as (q & E & G). rewrite E. unfold from_url. cbn [u_query u_path ok_or rbind].
  change (url_authority (mk_url (u_scheme ep) (u_auth ep) (u_path ep) (u_opaque ep) (Some q) (u_frag ep))) with (url_authority ep).
  rewrite !String.eqb_refl. cbn [of_bool rbind]. unfold from_query_params. apply c96_form_pf in G. now rewrite G.
Qed.
Lemma fields_client p : values_of "client_id" (fields_of p) = match pa_client_id p with Some c => [c] | None => [] end.
Proof. destruct p as [[c|] [?|] [?|] [?|] [?|] [?|] [?|] [?|] [?|]]; reflexivity. Qed.
Lemma fields_request p : values_of "request" (fields_of p) = match pa_request p with Some c => [c] | None => [] end.
Proof. destruct p as [[c|] [?|] [?|] [?|] [?|] [?|] [?|] [?|] [?|]]; reflexivity. Qed.
Lemma fields_uri p : values_of "request_uri" (fields_of p) = match pa_request_uri p with Some c => [c] | None => [] end.
Proof. destruct p as [[c|] [?|] [?|] [?|] [?|] [?|] [?|] [?|] [?|]]; reflexivity. Qed.

(** C135: If the endpoint's own query names a client, every request that names one is refused, and nothing is sent. *)
Lemma c135_clash_pf :
  forall (url_parse : string -> option url) (ssi_header : obj -> option bool) (uri_ok : string -> bool) (jwk_ok : obj -> bool)
    (jwe_encrypt : obj -> obj -> obj -> res string) (lower sign : string -> string) (now : Z) (http : http_client) (endpoint : url)
    (store : list credential) (auto_consent : bool) (p : params) (own : list (string * string)) (v : string),
    texts p -> form_text (query_text (u_query endpoint)) own -> In ("client_id", v) own -> pa_client_id p <> None ->
    exists e, authorize url_parse ssi_header uri_ok jwk_ok jwe_encrypt lower sign now http endpoint store auto_consent p = ([], Err e).
Proof.
  intros until v. intros T F I C. unfold authorize. rewrite lift_bind, (from_url_at _ _ _ _ T F).
  destruct (pa_client_id p) as [c|] eqn:E; [|now destruct C].
  assert (X : exists a b r, values_of "client_id" (own ++ fields_of p) = a :: b :: r).
  { rewrite values_app, fields_client, E. apply in_split in I as (l & l' & ->). rewrite values_app. change (("client_id", v) :: l') with ([("client_id", v)] ++ l'). rewrite values_app.
    change (values_of "client_id" [("client_id", v)]) with [v]. destruct (values_of "client_id" l) as [|x [|y q]]; cbn [app]; [|eauto|eauto].
    destruct (values_of "client_id" l') as [|z q]; cbn [app]; eauto. }
  destruct X as (a & b & r & X). unfold from_pairs. rewrite X. cbn [rbind]. eexists. reflexivity.
Qed.
Example c135_clash_ex :
  form_text (query_text (Some "client_id=w")) [("client_id", "w")] /\ texts (mk_params (Some "c") (Some "j") None None None None None None None).
Proof.
  split; [apply c96_form_pf; vm_compute; reflexivity|].
  intros k f v I E. unfold parameters in I. cbn [In] in I. repeat (destruct I as [I|I]; [injection I as <- <-; vm_compute in E; first [discriminate E|injection E as <-; vm_compute; reflexivity]|]). destruct I.
Qed.

(** C135: If it has nothing to do with requests, the endpoint's own query makes no difference to a request that comes as an object or a link to one. *)
Lemma c135_own_pf :
  forall (url_parse : string -> option url) (ssi_header : obj -> option bool) (uri_ok : string -> bool) (jwk_ok : obj -> bool)
    (jwe_encrypt : obj -> obj -> obj -> res string) (lower sign : string -> string) (now : Z) (http : http_client) (endpoint : url)
    (store : list credential) (auto_consent : bool) (p : params) (own : list (string * string)),
    texts p -> form_text (query_text (u_query endpoint)) own -> (forall k v, In (k, v) own -> ~ In k ["client_id"; "request"; "request_uri"]) ->
    (pa_request p <> None \/ exists text u, pa_request_uri p = Some text /\ url_parse text = Some u) ->
    let bare := mk_url (u_scheme endpoint) (u_auth endpoint) (u_path endpoint) (u_opaque endpoint) None (u_frag endpoint) in
    authorize url_parse ssi_header uri_ok jwk_ok jwe_encrypt lower sign now http endpoint store auto_consent p
    = authorize url_parse ssi_header uri_ok jwk_ok jwe_encrypt lower sign now http bare store auto_consent p.
Proof.
  intros until own. intros T F O R. cbv zeta. unfold authorize. rewrite !lift_bind.
  assert (V : forall k, In k ["client_id"; "request"; "request_uri"] -> values_of k own = []).
  { intros k K. unfold values_of. clear - O K. induction own as [|[a v] l IH]; [reflexivity|]. cbn [filter fst]. destruct (String.eqb_spec a k) as [->|_]; [destruct (O k v (or_introl eq_refl) K)|].
    apply IH. intros k' v' I. apply (O k' v'). now right. }
  assert (G : from_url url_parse (build_request_url endpoint p) endpoint
            = from_url url_parse (build_request_url (mk_url (u_scheme endpoint) (u_auth endpoint) (u_path endpoint) (u_opaque endpoint) None (u_frag endpoint)) p)
                (mk_url (u_scheme endpoint) (u_auth endpoint) (u_path endpoint) (u_opaque endpoint) None (u_frag endpoint))).
  { rewrite (from_url_at _ _ _ _ T F). rewrite (from_url_at _ (mk_url (u_scheme endpoint) (u_auth endpoint) (u_path endpoint) (u_opaque endpoint) None (u_frag endpoint)) _ [] T form_nil). cbn [app].
    unfold from_pairs. rewrite !values_others, !values_app, (V "client_id"), (V "request"), (V "request_uri") by (cbn [In]; tauto). cbn [app String.eqb Ascii.eqb Bool.eqb].
    rewrite fields_client, fields_request, fields_uri. destruct (pa_request p) as [r|]; [now destruct (pa_client_id p)|].
    destruct R as [R|(t & u & E & U)]; [now destruct R|]. rewrite E, U. reflexivity. }
  now rewrite G.
Qed.
Example c135_own_ex :
  form_text (query_text (Some "tenant=a")) [("tenant", "a")] /\ (forall k v, In (k, v) [("tenant", "a")] -> ~ In k ["client_id"; "request"; "request_uri"])
  /\ pa_request (mk_params (Some "c") (Some "j") None None None None None None None) <> None.
Proof.
  split; [apply c96_form_pf; vm_compute; reflexivity|]. split; [|discriminate]. intros k v [E|[]]. injection E as <- <-. intros [X|[X|[X|[]]]]; discriminate X.
Qed.
