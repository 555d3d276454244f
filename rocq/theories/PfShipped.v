From Coq Require Import Lia.
From Verif Require Import Base BaseFacts Utf8 Json JsonFacts JsonText Base64 Base64Facts Sha256 Serde Url UrlEncoded Object Formats Params
  Metadata Dcql Effects Jwt Request Response Jwe ExMatcher ExWallet ExMetadata ExHttp ExShipped SpecRequest PfRequest PfResolve SpecDcql PfDcql
  SpecJwe SpecResponse SpecEncodings PfEncodings SpecExample PfExample SpecHttp PfHttp SpecShipped.

(* ------------------------------------------------------------ the file *)
Lemma member_ok k m o : member k m = Ok o <-> occurs k m (match o with Some v => [v] | None => [] end).
Proof.
  unfold member, occurs. destruct (filter _ m) as [|[a b] [|[c d] r]]; cbn [map snd]; destruct o; split; try congruence;
    intros H; injection H as <-; reflexivity.
Qed.
Lemma text_ok j s : as_text j = Ok s <-> j = JStr s.
Proof. destruct j; cbn; split; congruence. Qed.
Lemma optional_ok k m o x : member k m = Ok o -> (optional_text o = Ok x <-> may_say k m x).
Proof.
  intros H. apply member_ok in H. unfold optional_text, may_say, says. destruct o as [j|].
  - destruct j; cbn [rbind as_text]; destruct x as [x|]; unfold occurs in *; rewrite H; split; try congruence; auto;
      try (intros [A|A]; discriminate A).
  - destruct x as [x|]; unfold occurs in *; rewrite H; split; auto; congruence.
Qed.
Lemma entry_obj m c : entry (JObj m) = Ok c <-> described (JObj m) c.
Proof.
  unfold entry, described. split.
  - intros H. do 6 (apply rbind_ok in H as (? & ?E & H)). unfold entry_of in H.
    apply rbind_ok in H as (id & I & H). apply rbind_ok in I as (ji & I1 & I2). apply ok_or_ok in I1. apply text_ok in I2. subst.
    apply rbind_ok in H as (fm & F & H). apply rbind_ok in F as (jf & F1 & F2). apply ok_or_ok in F1. apply text_ok in F2. subst.
    apply rbind_ok in H as (vct & V & H). apply rbind_ok in H as (dt & D & H).
    apply rbind_ok in H as (rw & R & H). apply rbind_ok in R as (jr & R1 & R2). apply ok_or_ok in R1. apply text_ok in R2. subst.
    apply rbind_ok in H as (cl & C & H). apply rbind_ok in C as (jc & C1 & C2). apply ok_or_ok in C1. subst. injection H as <-.
    exists m, fm, jc. cbn [mc_id mc_format mc_vct mc_doctype mc_raw mc_claims].
    split; [reflexivity|]. split; [now apply (member_ok _ _ (Some _))|]. split; [now apply (member_ok _ _ (Some _))|]. split; [reflexivity|].
    split; [eapply optional_ok; eassumption|]. split; [eapply optional_ok; eassumption|]. split; [now apply (member_ok _ _ (Some _))|].
    split; [now apply (member_ok _ _ (Some _))|]. unfold claim_map in C2. destruct (normalize jc); try discriminate. congruence.
  - intros (m' & fm & jc & E & I & F & Ff & V & D & R & C & Cn). injection E as <-.
    apply (member_ok _ _ (Some _)) in I. apply (member_ok _ _ (Some _)) in F. apply (member_ok _ _ (Some _)) in R. apply (member_ok _ _ (Some _)) in C.
    rewrite I, F. cbn [rbind].
    assert (M : forall k x, may_say k m x -> exists o, member k m = Ok o /\ optional_text o = Ok x).
    { intros k x H. destruct x as [x|]; cbn in H.
      - exists (Some (JStr x)). split; [now apply member_ok|reflexivity].
      - destruct H as [H|H]; [exists None|exists (Some JNull)]; (split; [now apply member_ok|reflexivity]). }
    destruct (M _ _ V) as (ov & V1 & V2). destruct (M _ _ D) as (od & D1 & D2). rewrite V1, D1. cbn [rbind]. rewrite R, C. cbn [rbind].
    unfold entry_of. cbn [ok_or rbind as_text]. rewrite V2, D2. cbn [rbind]. unfold claim_map. rewrite Cn. cbn [rbind]. rewrite <- Ff. now destruct c.
Qed.
Lemma optional_be j x : optional_text (Some j) = Ok x <-> may_be j x.
Proof.
  destruct j; cbn [optional_text as_text rbind]; destruct x as [x|]; cbn [may_be]; split; try congruence; try discriminate; intros [= <-]; reflexivity.
Qed.
Lemma entry_arr l c : entry (JArr l) = Ok c <-> enumerated (JArr l) c.
Proof.
  unfold entry, enumerated. split.
  - intros H. destruct l as [|id [|fm [|vct [|dt [|raw [|cl [|]]]]]]]; try discriminate H. unfold entry_of in H.
    apply rbind_ok in H as (i & I & H). cbn [ok_or rbind] in I. apply text_ok in I. subst.
    apply rbind_ok in H as (f & F & H). cbn [ok_or rbind] in F. apply text_ok in F. subst.
    apply rbind_ok in H as (v & V & H). apply optional_be in V. apply rbind_ok in H as (d & D & H). apply optional_be in D.
    apply rbind_ok in H as (r & R & H). cbn [ok_or rbind] in R. apply text_ok in R. subst.
    apply rbind_ok in H as (c0 & C & H). cbn [ok_or rbind] in C. injection H as <-. cbn [mc_id mc_format mc_vct mc_doctype mc_raw mc_claims].
    exists f, vct, dt, cl. split; [reflexivity|]. split; [reflexivity|]. split; [exact V|]. split; [exact D|].
    unfold claim_map in C. destruct (normalize cl); try discriminate. congruence.
  - intros (f & v & d & cl & E & F & V & D & C). injection E as ->. unfold entry_of. cbn [ok_or rbind as_text].
    apply optional_be in V, D. rewrite V, D. cbn [rbind]. unfold claim_map. rewrite C. cbn [rbind]. rewrite <- F. now destruct c.
Qed.
Lemma entry_iff j c : entry j = Ok c <-> describes j c.
Proof.
  unfold describes. destruct j as [| | | | |l|m];
    try (split; [discriminate|]; intros [(? & ? & ? & E & _)|(? & ? & ? & ? & E & _)]; discriminate E).
  - rewrite entry_arr. split; [auto|]. intros [(? & ? & ? & E & _)|H]; [discriminate|exact H].
  - rewrite entry_obj. split; [auto|]. intros [H|(? & ? & ? & ? & E & _)]; [exact H|discriminate].
Qed.
Lemma entries_iff l : forall cs, mapM entry l = Ok cs <-> Forall2 describes l cs.
Proof.
  induction l as [|j l IH]; intros cs; cbn [mapM].
  - split; [intros [= <-]; constructor|]. intros H. now inversion H.
  - split.
    + intros H. apply rbind_ok in H as (c & E & H). apply rbind_ok in H as (cs' & E' & H). injection H as <-.
      constructor; [now apply entry_iff|now apply IH].
    + intros H. inversion H as [|? c ? cs' E F]; subst. apply entry_iff in E. rewrite E. cbn [rbind]. apply IH in F. now rewrite F.
Qed.

(** C104: a credential file is read as exactly the credentials that its entries describe, in their order; if it is no such file, or
    an entry describes none, the program stops. *)
Lemma c104_load_pf :
  forall (s : string) (cs : list credential),
    store_of_text s = Ok cs <-> exists l, entries_are s l /\ Forall2 describes l cs.
Proof.
  intros s cs. unfold store_of_text, entries_are. split.
  - destruct (parse_raw s) as [[| | | | |[|j [|]]|m]|]; try discriminate.
    + destruct j; try discriminate. intros H. apply entries_iff in H. eauto.
    + intros H. unfold required_member in H. apply rbind_ok in H as (j & R & H). apply rbind_ok in R as (o & M & R). apply ok_or_ok in R. subst.
      apply member_ok in M. destruct j; try discriminate. apply entries_iff in H. eauto 6.
  - intros (l & [(m & -> & C)| ->] & F); apply entries_iff in F.
    + unfold required_member. apply (member_ok _ _ (Some _)) in C. rewrite C. exact F.
    + exact F.
Qed.

Definition shipped_credential : credential := match shipped_store with c :: _ => c | [] => mk_credential "" DcSdJwt None None "" [] end.
Lemma shipped_is : shipped_store = [shipped_credential]
  /\ mc_format shipped_credential = DcSdJwt /\ mc_vct shipped_credential = Some shipped_type /\ mc_doctype shipped_credential = None
  /\ map fst (mc_claims shipped_credential) = ["age_over_18"; "family_name"; "given_name"; "nationality"].
Proof. repeat split; vm_compute; reflexivity. Qed.
Example c104_load_ex :
  (exists l, entries_are shipped_text l /\ store_of_text shipped_text = Ok [shipped_credential])
  /\ store_of_text "[[[""a"", ""mso_mdoc"", null, ""d"", ""r"", {}]]]" = Ok [mk_credential "a" MsoMDoc None (Some "d") "r" []]
  /\ (forall cs, store_of_text "{""credentials"": [], ""credentials"": []}" <> Ok cs) /\ forall cs, store_of_text "{}" <> Ok cs.
Proof.
  split; [|split; [vm_compute; reflexivity|split; intros cs; vm_compute; discriminate]].
  destruct (parse_raw shipped_text) as [[| | | | | |m]|] eqn:E; try (exfalso; vm_compute in E; discriminate E).
  vm_compute in E. injection E as <-. eexists. split; [left; eexists; split; reflexivity|]. vm_compute. reflexivity.
Qed.

(** C104: without a public URL the wallet announces the host and port it listens on; the authorization endpoint is the path "/authorize" behind it. *)
Lemma c104_config_pf :
  forall (url_parse : string -> option url) (public_url : option string) (host port : string) (no_auto_consent : bool) (cf : config),
    configure url_parse public_url host port no_auto_consent = Ok cf
    <-> exists base, (public_url = Some base \/ public_url = None /\ base = "http://" +:+ host +:+ ":" +:+ port)
          /\ url_parse base = Some (cf_public cf) /\ url_parse (base +:+ "/authorize") = Some (cf_endpoint cf)
          /\ (cf_consent cf = true <-> no_auto_consent = false).
Proof.
  intros up pu host port nc cf. unfold configure.
  assert (B : forall base, (let? endpoint := ok_or (up (base +:+ "/authorize")) "invalid URL" in
              let? public := ok_or (up base) "invalid URL" in Ok (mk_config endpoint public (negb nc))) = Ok cf
           <-> up base = Some (cf_public cf) /\ up (base +:+ "/authorize") = Some (cf_endpoint cf) /\ (cf_consent cf = true <-> nc = false)).
  { intros base. split.
    - intros H. apply rbind_ok in H as (e & E & H). apply rbind_ok in H as (p & P & H). apply ok_or_ok in E, P. injection H as <-.
      cbn [cf_public cf_endpoint cf_consent]. split; [exact P|]. split; [exact E|]. now destruct nc.
    - intros (P & E & C). rewrite P, E. cbn [ok_or rbind]. f_equal. destruct cf as [ep pb co]. cbn [cf_public cf_endpoint cf_consent] in *. f_equal.
      destruct nc, co; cbn; intuition congruence. }
  split.
  - intros H. eexists. split; [|apply B; exact H]. destruct pu; auto.
  - intros (base & S & H). apply B in H. destruct S as [-> |[-> ->]]; exact H.
Qed.
Example c104_config_ex :
  (exists cf, configure simple_parse None "0.0.0.0" "3000" false = Ok cf /\ url_str (cf_public cf) = "http://0.0.0.0:3000"
     /\ url_str (cf_endpoint cf) = "http://0.0.0.0:3000/authorize")
  /\ configure simple_parse (Some "no url") "0.0.0.0" "3000" false = Err "invalid URL".
Proof. split; [eexists; split; [vm_compute; reflexivity|split; vm_compute; reflexivity]|vm_compute; reflexivity]. Qed.

(* ------------------------------------------------------------ disclosure *)
Lemma no_tilde_b64 s : has_char "~" (b64url_encode s) = false.
Proof. apply (has_char_all _ (b64_char UrlSafe)); [reflexivity|apply b64_encode_chars]. Qed.
Lemma disclosures_last sd x : has_char "~" x = false -> disclosures (sd +:+ "~" +:+ x) = tl (split_all "~" sd).
Proof.
  intros H. unfold disclosures. change (sd +:+ "~" +:+ x) with (sd +:+ String "~" x). rewrite (split_all_last "~" x sd H).
  pose proof (split_all_nonempty "~" sd) as N. destruct (split_all "~" sd) as [|a l]; [easy|]. cbn [app tl]. apply removelast_last.
Qed.
Lemma b64_fits t s : b64url_decode t = Some s -> t = b64url_encode s.
Proof. intros H. destruct (c97_base64url_pf s t) as [A B]. symmetry. now apply B, A. Qed.
Lemma presented_discloses sign now nonce aud raw i : presented sign now nonce aud raw i ->
  exists t, i = VpString t /\ disclosures t = disclosures raw.
Proof.
  intros [[N ->]|(sd & old & kb & -> & No & -> & K)]; [eauto|]. eexists. split; [reflexivity|].
  rewrite !disclosures_last; [reflexivity|exact No|].
  destruct K as (h & p & hb & pb & hd & cl & -> & _ & _ & Dh & _ & _ & Dp & _). apply b64_fits in Dh as ->. apply b64_fits in Dp as ->.
  rewrite !has_char_app, !no_tilde_b64. reflexivity.
Qed.

(** C104: whatever claims are asked for, every presentation that the example wallet sends carries all the disclosures of
    the credential. *)
Lemma c104_discloses_pf :
  forall (url_parse : string -> option url) (ssi_header : obj -> option bool) (uri_ok : string -> bool)
    (jwk_ok : obj -> bool) (jwe_encrypt : obj -> obj -> obj -> res string) (lower sign : string -> string) (now : Z)
    (http : http_client) (endpoint : url) (store : list credential) (auto_consent : bool) (p : params) (r : http_req),
    let run := authorize url_parse ssi_header uri_ok jwk_ok jwe_encrypt lower sign now http endpoint store auto_consent p in
    clock_ok now -> In r (posts (http_events (fst run))) ->
    exists vp st, vp <> []
      /\ (rq_body r = unencoded_form (mk_unencoded vp st)
          \/ exists header claims key jwe, claims_of claims vp st /\ jwe_encrypt header claims key = Ok jwe
               /\ rq_body r = form_serialize [("response", jwe)])
      /\ forall id items i, In (id, items) vp -> In i items ->
           exists c t, In c store /\ i = VpString t /\ disclosures t = disclosures (mc_raw c).
Proof.
  intros up ssi uok jok enc lower sign now http ep store consent p r run K I.
  destruct (c74_contents_pf _ _ _ _ _ _ _ _ _ _ _ _ _ _ K I) as (ar & a & jwt & q & vp & st & nonce & aud & _ & _ & Eq & _ & _ & _ & V1 & V2 & _ & _ & B).
  exists vp, st. split; [|split].
  - pose proof (dcql_nonempty _ _ Eq) as N. destruct (dq_credentials q) as [|cq l]; [easy|].
    destruct (V2 cq (or_introl eq_refl)) as (items & i & c & Iv & _). intros ->. destruct Iv.
  - destruct B as [[_ B]|[_ B]]; [now left|right]. destruct B as (h & cl & k & j & B). now exists h, cl, k, j.
  - intros id items i H1 H2. destruct (V1 _ _ _ H1 H2) as (cq & c & _ & _ & Ic & _ & P). apply presented_discloses in P as (t & -> & D).
    exists c, t. auto.
Qed.
Example c104_discloses_ex :
  clock_ok 5 /\ length (posts (http_events (fst (ex_run None (ex_object "x509_san_dns:v.example"))))) = 1
  /\ disclosures (mc_raw pid) = ["disc"].
Proof. repeat split; vm_compute; reflexivity. Qed.

(* ------------------------------------------------------------ the shipped wallet *)
Lemma shipped_satisfies lower q : satisfies lower q shipped_credential <-> asks_shipped q.
Proof.
  destruct shipped_is as (_ & F & V & D & C).
  assert (CL : forall n, (exists v, In (n, v) (mc_claims shipped_credential)) <-> In n shipped_claims).
  { intros n. transitivity (In n (map fst (mc_claims shipped_credential))).
    - rewrite in_map_iff. split; [intros (v & I); exists (n, v); split; [reflexivity|exact I]|]. intros ([k v] & E & I). cbn [fst] in E. subst k. exists v. exact I.
    - rewrite C. cbn. tauto. }
  unfold satisfies, asks_shipped, same_format. rewrite F, V, D. split.
  - intros (S & A & B & E). split; [destruct S as [S|(x & y & S & _)]; [now symmetry|discriminate]|].
    destruct (vct_values q) as [l|] eqn:Q.
    + apply vcts_iff in Q as [T _]. left. split; [exact T|]. destruct (A T) as (v & Ev & L). now injection Ev as <-.
    + apply vcts_none in Q. right. split; [exact Q|].
      assert (N : forall d, ~ asks_doctype q d) by (intros d X; specialize (B Q d X); discriminate).
      split; [exact N|]. intros n R. apply CL. now apply E.
  - intros (S & A). split; [left; now symmetry|]. destruct A as [[T L]|(T & N & R)].
    + split; [eauto|]. split; intros X; contradiction.
    + split; [intros X; contradiction|]. split; [intros _ d X; now apply N in X|]. intros _ _ n Rn. now apply CL, R.
Qed.

(** C104: the wallet as shipped denies a readable request exactly if it was started without consent or some credential
    query is not for its one credential. *)
Lemma c104_answers_pf :
  forall (url_parse : string -> option url) (ssi_header : obj -> option bool) (uri_ok : string -> bool)
    (jwk_ok : obj -> bool) (jwe_encrypt : obj -> obj -> obj -> res string) (lower sign : string -> string) (now : Z)
    (http : http_client) (describe : string -> string) (reason : N -> string) (p : params)
    (public_url : option string) (host port : string) (no_auto_consent : bool) (cf : config),
    configure url_parse public_url host port no_auto_consent = Ok cf ->
    ((exists state, error_page "access_denied" state
       (snd (process url_parse ssi_header uri_ok jwk_ok jwe_encrypt lower sign now http (cf_endpoint cf) shipped_store (cf_consent cf)
               describe reason p)))
     <-> exists ar a jwt d, from_url url_parse (build_request_url (cf_endpoint cf) p) (cf_endpoint cf) = Ok ar
           /\ snd (resolve_request url_parse ssi_header uri_ok http ar) = Ok (a, jwt)
           /\ aro_dcql a = Some (Ok d)
           /\ ~ (no_auto_consent = false /\ forall cq, In cq (dq_credentials d) -> asks_shipped cq)).
Proof.
  intros up ssi uok jok enc lower sign now http de re p pu host port nc cf Hc. rewrite c102_denied_pf.
  assert (K : cf_consent cf = negb nc).
  { unfold configure in Hc. apply rbind_ok in Hc as (? & _ & Hc). apply rbind_ok in Hc as (? & _ & Hc). now injection Hc as <-. }
  assert (A : forall d, answerable lower shipped_store d <-> forall cq, In cq (dq_credentials d) -> asks_shipped cq).
  { intros d. unfold answerable. destruct shipped_is as (-> & _). split; intros H cq I.
    - destruct (H cq I) as (c & [<-|[]] & S). now apply shipped_satisfies in S.
    - exists shipped_credential. split; [now left|]. apply shipped_satisfies. auto. }
  rewrite K. split; intros (ar & a & jwt & d & H1 & H2 & H3 & N); exists ar, a, jwt, d; (split; [exact H1|]; split; [exact H2|]; split; [exact H3|]);
    intros [C X]; apply N; (split; [destruct nc; easy|now apply A]).
Qed.
Definition shipped_query (claims : list string) : dcql :=
  dcql_new [mk_cred "a" DcSdJwt [("vct_values", jstrs [shipped_type])] (Some (map (fun n => claims_new [PeStr n]) claims)) None None None None].
Definition shipped_params (q : dcql) : params :=
  mk_params (Some "redirect_uri:https://v.example/resp")
    (Some (jwt_of typ_ok (obj_insert "client_id" (JStr "redirect_uri:https://v.example/resp")
                            (obj_insert "dcql_query" (dcql_to_json q) sample_request))))
    None None None None None None None.
Definition shipped_run (q : dcql) : list wevent * hreply :=
  process simple_parse any_header (fun _ => true) (fun _ => true) (fun h c k => Ok (jprint (JArr [JObj h; JObj c])))
    (fun s => s) (fun _ => "S") 5 (serve 200 "{}") ex_endpoint shipped_store true (fun e => e) (fun _ => "") (shipped_params q).
Example c104_answers_ex :
  (exists cf, configure simple_parse (Some "https://wallet.example") "0.0.0.0" "3000" false = Ok cf /\ cf_endpoint cf = ex_endpoint /\ cf_consent cf = true)
  /\ hr_status (snd (shipped_run (shipped_query ["given_name"]))) = 200%N
  /\ snd (shipped_run (dcql_new [pid_query "a" "urn:pid" "given_name"])) = error_reply 400 "access_denied" "no matching credential" None.
Proof.
  split; [eexists; split; [reflexivity|split; reflexivity]|]. split; vm_compute; reflexivity.
Qed.

(** C104: started without consent, it presents nothing to anybody. *)
Lemma c104_consent_pf :
  forall (url_parse : string -> option url) (ssi_header : obj -> option bool) (uri_ok : string -> bool)
    (jwk_ok : obj -> bool) (jwe_encrypt : obj -> obj -> obj -> res string) (lower sign : string -> string) (now : Z)
    (http : http_client) (describe : string -> string) (reason : N -> string) (point : string * string)
    (public_url : option string) (host port : string) (cf : config) (cut : option nat) (q : hrequest),
    configure url_parse public_url host port true = Ok cf ->
    posts (http_events (fst (serve_http url_parse ssi_header uri_ok jwk_ok jwe_encrypt lower sign now http (cf_endpoint cf)
                               shipped_store (cf_consent cf) describe reason (cf_public cf) point cut q))) = [].
Proof.
  intros up ssi uok jok enc lower sign now http de re pt pu host port cf cut q Hc.
  assert (K : cf_consent cf = false).
  { unfold configure in Hc. apply rbind_ok in Hc as (? & _ & Hc). apply rbind_ok in Hc as (? & _ & Hc). now injection Hc as <-. }
  rewrite K.
  destruct (c102_effects_pf up ssi uok jok enc lower sign now http (cf_endpoint cf) shipped_store false de re (cf_public cf) pt cut q) as [E _].
  set (t := fst (serve_http _ _ _ _ _ _ _ _ _ _ _ _ _ _ _ _ _ _)) in *. destruct t as [|x t'] eqn:T; [reflexivity|]. rewrite <- T in *.
  destruct E as (_ & text & p & rest & _ & _ & R & _); [rewrite T; discriminate|].
  destruct (c74_consent_pf up ssi uok jok enc lower sign now http (cf_endpoint cf) shipped_store p None) as [P _].
  rewrite R, http_app, posts_app in P. now apply app_eq_nil in P as [P _].
Qed.
Example c104_consent_ex :
  exists cf, configure simple_parse None "0.0.0.0" "3000" true = Ok cf /\ url_str (cf_endpoint cf) = "http://0.0.0.0:3000/authorize".
Proof. eexists. split; [reflexivity|vm_compute; reflexivity]. Qed.

(** C104: the claims by which the shipped wallet chooses its credential are, name and value, exactly those that the disclosures of the
    credential reveal. *)
Lemma c104_claims_pf :
  forall (c : credential) (name : string) (v : json),
    In c shipped_store ->
    (In (name, v) (mc_claims c) <-> exists d, In d (disclosures (mc_raw c)) /\ reveals_value d name v).
Proof.
  intros c name v. destruct shipped_is as (-> & _). intros [<-|[]].
  assert (X : map (fun d => option_map json_of_text (b64url_decode d)) (disclosures (mc_raw shipped_credential)) =
    map (fun s_n_v => Some (Some (JArr [JStr (fst (fst s_n_v)); JStr (snd (fst s_n_v)); snd s_n_v])))
      [("salt_given_name", "given_name", JStr "John"); ("salt_family_name", "family_name", JStr "Doe");
       ("salt_nationality", "nationality", JStr "US"); ("salt_age_over_18", "age_over_18", JBool true)]) by (vm_compute; reflexivity).
  assert (Y : mc_claims shipped_credential = [("age_over_18", JBool true); ("family_name", JStr "Doe"); ("given_name", JStr "John"); ("nationality", JStr "US")])
    by (vm_compute; reflexivity).
  rewrite Y. clear Y. revert X. generalize (disclosures (mc_raw shipped_credential)) as ds. intros ds X.
  assert (R : (exists d, In d ds /\ reveals_value d name v) <->
    exists salt, In (Some (Some (JArr [salt; JStr name; v]))) (map (fun d => option_map json_of_text (b64url_decode d)) ds)).
  { split.
    - intros (d & I & t & salt & B & J). exists salt. apply in_map_iff. exists d. split; [|exact I]. rewrite B. cbn [option_map]. now rewrite J.
    - intros (salt & I). apply in_map_iff in I as (d & E & I). exists d. split; [exact I|].
      destruct (b64url_decode d) as [t|] eqn:B; [|discriminate]. injection E as J. exists t, salt. split; [exact B|exact J]. }
  rewrite R, X. clear. cbn [map fst snd In]. split.
  - intros [E|[E|[E|[E|[]]]]]; injection E as <- <-; eexists; eauto 6.
  - intros (salt & [E|[E|[E|[E|[]]]]]); injection E as <- <- <-; auto 6.
Qed.
Example c104_claims_ex : exists c, In c shipped_store /\ In ("age_over_18", JBool true) (mc_claims c).
Proof. exists shipped_credential. destruct shipped_is as (-> & _). split; [now left|]. vm_compute. auto. Qed.

(** C104: every presentation of the shipped wallet reveals all four claims of its credential. *)
Lemma c104_reveals_pf :
  forall (url_parse : string -> option url) (ssi_header : obj -> option bool) (uri_ok : string -> bool)
    (jwk_ok : obj -> bool) (jwe_encrypt : obj -> obj -> obj -> res string) (lower sign : string -> string) (now : Z)
    (http : http_client) (endpoint : url) (auto_consent : bool) (p : params) (r : http_req),
    let run := authorize url_parse ssi_header uri_ok jwk_ok jwe_encrypt lower sign now http endpoint shipped_store auto_consent p in
    clock_ok now -> In r (posts (http_events (fst run))) ->
    exists vp st, vp <> []
      /\ (rq_body r = unencoded_form (mk_unencoded vp st)
          \/ exists header claims key jwe, claims_of claims vp st /\ jwe_encrypt header claims key = Ok jwe
               /\ rq_body r = form_serialize [("response", jwe)])
      /\ forall id items i, In (id, items) vp -> In i items -> exists t, i = VpString t /\ Forall2 reveals (disclosures t) shipped_claims.
Proof.
  intros up ssi uok jok enc lower sign now http ep consent p r run K I.
  destruct (c104_discloses_pf _ _ _ _ _ _ _ _ _ _ _ _ _ _ K I) as (vp & st & N & B & V). exists vp, st. split; [exact N|]. split; [exact B|].
  intros id items i H1 H2. destruct (V _ _ _ H1 H2) as (c & t & Ic & -> & D). exists t. split; [reflexivity|]. rewrite D.
  destruct shipped_is as (S & _). rewrite S in Ic. destruct Ic as [<-|[]].
  assert (X : disclosures (mc_raw shipped_credential) =
    ["WyJzYWx0X2dpdmVuX25hbWUiLCJnaXZlbl9uYW1lIiwiSm9obiJd"; "WyJzYWx0X2ZhbWlseV9uYW1lIiwiZmFtaWx5X25hbWUiLCJEb2UiXQ";
     "WyJzYWx0X25hdGlvbmFsaXR5IiwibmF0aW9uYWxpdHkiLCJVUyJd"; "WyJzYWx0X2FnZV9vdmVyXzE4IiwiYWdlX292ZXJfMTgiLHRydWVd"]) by (vm_compute; reflexivity).
  rewrite X. unfold shipped_claims.
  constructor; [exists "[""salt_given_name"",""given_name"",""John""]", (JStr "salt_given_name"), (JStr "John"); split; vm_compute; reflexivity|].
  constructor; [exists "[""salt_family_name"",""family_name"",""Doe""]", (JStr "salt_family_name"), (JStr "Doe"); split; vm_compute; reflexivity|].
  constructor; [exists "[""salt_nationality"",""nationality"",""US""]", (JStr "salt_nationality"), (JStr "US"); split; vm_compute; reflexivity|].
  constructor; [exists "[""salt_age_over_18"",""age_over_18"",true]", (JStr "salt_age_over_18"), (JBool true); split; vm_compute; reflexivity|].
  constructor.
Qed.
Example c104_reveals_ex :
  map rq_uri (posts (http_events (fst (shipped_run (shipped_query ["given_name"]))))) = ["https://v.example/resp"].
Proof. vm_compute. reflexivity. Qed.

(** C104: so it does not hold that only the claims asked for are revealed. *)
Lemma c104_minimal_refuted_pf :
  exists (q : dcql) (id t : string) (st : option string) (d : string),
    (forall cq n, In cq (dq_credentials q) -> requires_claim cq n -> n = "given_name")
    /\ map rq_body (posts (http_events (fst (shipped_run q)))) = [unencoded_form (mk_unencoded [(id, [VpString t])] st)]
    /\ In d (disclosures t) /\ reveals d "family_name".
Proof.
  set (sd := join "~" (removelast (split_all "~" (mc_raw shipped_credential))) +:+ "~").
  exists (shipped_query ["given_name"]), "a", (sd +:+ key_binding_jwt (fun _ => "S") 5 sd "n1" "redirect_uri:https://v.example/resp"), None.
  exists "WyJzYWx0X2ZhbWlseV9uYW1lIiwiZmFtaWx5X25hbWUiLCJEb2UiXQ". split; [|split; [|split]].
  - intros cq n [<-|[]] (l & c & E & I & P & _). injection E as <-. destruct I as [<-|[]]. destruct P as [P|[]]. now injection P as <-.
  - vm_compute. reflexivity.
  - assert (X : existsb (String.eqb "WyJzYWx0X2ZhbWlseV9uYW1lIiwiZmFtaWx5X25hbWUiLCJEb2UiXQ")
      (disclosures (sd +:+ key_binding_jwt (fun _ => "S") 5 sd "n1" "redirect_uri:https://v.example/resp")) = true) by (vm_compute; reflexivity).
    apply existsb_exists in X as (d & I & E). apply String.eqb_eq in E. rewrite E. exact I.
  - exists "[""salt_family_name"",""family_name"",""Doe""]", (JStr "salt_family_name"), (JStr "Doe"). split; vm_compute; reflexivity.
Qed.

(** C104: nor that the authorization endpoint which the wallet announces is one that it serves: a public URL that ends in
    a slash leads to a path without a route. *)
Lemma c104_endpoint_refuted_pf :
  exists (public : string) (cf : config),
    configure simple_parse (Some public) "0.0.0.0" "3000" false = Ok cf
    /\ url_str (cf_endpoint cf) = public +:+ "/authorize"
    /\ (exists w, wm_of_json simple_parse (served_metadata simple_parse (cf_endpoint cf)) = Ok w /\ wm_endpoint w = cf_endpoint cf)
    /\ forall query, serve_http simple_parse any_header (fun _ => true) (fun _ => true) (fun h c k => Ok "") (fun s => s) (fun _ => "S") 5
         (serve 200 "{}") (cf_endpoint cf) shipped_store (cf_consent cf) (fun e => e) (fun _ => "") (cf_public cf) ("X", "Y") None
         (mk_hrequest "GET" (u_path (cf_endpoint cf)) query None "") = ([], mk_hreply 404 None).
Proof.
  exists "https://wallet.example/". eexists. split; [reflexivity|]. split; [vm_compute; reflexivity|]. split.
  - eexists. split; vm_compute; reflexivity.
  - intros query. unfold serve_http. cbn [hq_body hq_method]. reflexivity.
Qed.
