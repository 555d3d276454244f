From Coq Require Import Lia ZArith.
From Verif Require Import Base BaseFacts Utf8 Json JsonFacts JsonText JsonTextFacts Base64 Serde Url UrlEncoded Object Formats Params ParamFacts Metadata
  Dcql Effects Jwt Request Response Session X509 Client Builder Server ExMatcher ExWallet ExVerifier ExCli.
From Verif Require Import MapFacts Spec SpecObject SpecRequest PfRequest PfResolve SpecResponse SpecJwe SpecBuilder SpecSession StoreFacts PfBuilder
  UuidFacts PfSession PfServer SpecExample PfExample SpecVerifierEx PfExServer PfExInitiate PfInterop SpecCli.

(* --------------------------------------------------------------------- C81 *)
Definition idf (c : cred_query) : string * designation := (cq_id c, cq_format c).
Lemma for_type_inv t qs o : for_type t = Ok (qs, o) ->
  offers t (map idf qs) /\ o = map (fun a : string * designation => [fst a]) (map idf qs) /\ Forall asks_claims qs /\ qs <> [].
Proof.
  unfold for_type, offers, menu.
  repeat match goal with |- context [String.eqb t ?k] => destruct (String.eqb_spec t k) as [->|?N] end; intros H; try discriminate H;
    injection H as <- <-; cbn [map idf cq_id cq_format mdl_query ldp_vc_query jwt_vc_query vcdm2_query cred_new fst In];
    (split; [tauto|]); (split; [reflexivity|]); (split; [|discriminate]);
    repeat constructor; cbn; auto.
Qed.
Lemma for_type_known t : known t -> exists x, for_type t = Ok x.
Proof.
  intros (alts & H). unfold offers, menu in H. cbn [In] in H. unfold for_type.
  repeat destruct H as [H|H]; try (injection H as <- <-; cbn; eauto). destruct H.
Qed.
Lemma offers_unique t a b : offers t a -> offers t b -> a = b.
Proof.
  unfold offers, menu. cbn [In]. intros H K.
  repeat destruct H as [H|H]; try (destruct H; fail); injection H as <- <-;
    repeat destruct K as [K|K]; try (destruct K; fail); try discriminate K; congruence.
Qed.

Definition query_of (l : list (list cred_query * list (list string))) : res dcql :=
  match flat_map fst l with
  | [] => Err "At least one credential type must be specified"
  | queries => Ok (mk_dcql queries (match map snd l with [] => None | _ => Some (map sets_new (map snd l)) end))
  end.
Lemma types_eq types : query_for_types types = let? l := mapM for_type types in query_of l.
Proof.
  unfold query_for_types. destruct (mapM for_type types) as [l|e] eqn:E; [|reflexivity]. cbn [rbind]. unfold query_of.
  apply mapM_ok in E. destruct (flat_map fst l) as [|q qs]; [reflexivity|]. cbn [ne_expect rbind].
  assert (M : mapM (fun o => rmap sets_new (ne_expect o)) (map snd l) = Ok (map sets_new (map snd l))).
  { clear - E. induction E as [|t [qs o] types l H F IH]; [reflexivity|]. cbn [map snd mapM].
    assert (N : o <> []).
    { unfold for_type in H. repeat (destruct (String.eqb t _); [injection H as _ <-; discriminate|]). discriminate H. }
    destruct o; [contradiction|]. cbn [ne_expect rmap rbind]. rewrite IH. reflexivity. }
  destruct (map snd l) as [|o os] eqn:S; [reflexivity|]. rewrite M. reflexivity.
Qed.
Lemma types_inv types q : query_for_types types = Ok q ->
  exists l, Forall2 (fun t x => for_type t = Ok x) types l /\ types <> []
    /\ dq_credentials q = flat_map fst l /\ dq_sets q = Some (map sets_new (map snd l)).
Proof.
  rewrite types_eq. intros H. apply rbind_ok in H as (l & El & H). apply mapM_ok in El. exists l. split; [exact El|].
  destruct types as [|t types]; [inversion El; subst; discriminate|]. split; [discriminate|].
  inversion El as [|? x ? l' Hx Hl]; subst. destruct x as [qs o]. destruct (for_type_inv _ _ _ Hx) as (_ & _ & _ & N).
  destruct qs as [|q1 qs]; [congruence|]. unfold query_of in H. cbn [flat_map fst app map snd] in H. injection H as <-. split; reflexivity.
Qed.

(** C81: the command line verifier accepts exactly the non-empty lists of the five type names. *)
Lemma c81_accepts_pf
  : forall types : list string,
    (exists q, query_for_types types = Ok q) <-> types <> [] /\ forall t, In t types -> known t.
Proof.
  intros types. split.
  - intros (q & H). apply types_inv in H as (l & F & N & _). split; [exact N|]. intros t Ht.
    apply (forall2_in_l _ _ _ _ F) in Ht as ([qs o] & _ & Hx). exists (map idf qs). now apply for_type_inv in Hx.
  - intros (N & K). assert (exists l, mapM for_type types = Ok l) as (l & El).
    { clear N. induction types as [|t types IH]; [now exists []|]. destruct (for_type_known t) as (x & Hx); [apply K; now left|].
      destruct IH as (l & El); [intros; apply K; now right|]. exists (x :: l). cbn [mapM]. rewrite Hx. cbn [rbind]. now rewrite El. }
    rewrite types_eq. rewrite El. cbn [rbind]. apply mapM_ok in El. destruct types as [|t types]; [congruence|].
    inversion El as [|? x ? l' Hx Hl]; subst. destruct x as [qs o]. destruct (for_type_inv _ _ _ Hx) as (_ & _ & _ & Nq).
    destruct qs as [|q1 qs]; [congruence|]. cbn. eauto.
Qed.
Example c81_accepts_ex :
  is_ok (query_for_types ["mdl"; "vcdm2_sd_jwt"; "ldp_or_mdl"]) = true /\ is_ok (query_for_types []) = false
  /\ is_ok (query_for_types ["mdl"; "MDL"]) = false.
Proof. repeat split. Qed.

(** C81: the query asks, type by type and in order, for the credentials of the type; there is one required credential
    set per type, whose options are the single alternatives of that type. *)
Lemma c81_query_pf
  : forall (types : list string) (q : dcql),
    query_for_types types = Ok q ->
    exists alternatives sets,
      Forall2 offers types alternatives
      /\ map (fun c => (cq_id c, cq_format c)) (dq_credentials q) = concat alternatives
      /\ Forall asks_claims (dq_credentials q)
      /\ dq_sets q = Some sets
      /\ Forall2 (fun alts s => is_required s = true /\ cs_options s = map (fun a => [fst a]) alts) alternatives sets.
Proof.
  intros types q H. apply types_inv in H as (l & F & _ & Ec & Es). exists (map (fun x => map idf (fst x)) l), (map sets_new (map snd l)).
  rewrite Ec, Es. clear q Ec Es. induction F as [|t x types l Hx F (I1 & I2 & I3 & _ & I4)]; cbn [map flat_map concat]; [repeat split; constructor|].
  destruct x as [qs o]. destruct (for_type_inv _ _ _ Hx) as (O1 & O2 & O3 & _). cbn [fst snd]. split; [now constructor|]. split.
  { rewrite map_app. f_equal. exact I2. }
  split; [now apply Forall_app|]. split; [reflexivity|]. constructor; [|exact I4]. split; [reflexivity|]. exact O2.
Qed.
Example c81_query_ex :
  rmap (fun q => (map cq_id (dq_credentials q), option_map (map cs_options) (dq_sets q))) (query_for_types ["jwt_vc"; "ldp_or_mdl"])
  = Ok (["jwt_vc_0"; "ldp_vc_0"; "mdl_0"], Some [[["jwt_vc_0"]]; [["ldp_vc_0"]; ["mdl_0"]]]).
Proof. reflexivity. Qed.

(** C81: every credential asked for is an option of some credential set, and every option names a credential asked
    for. *)
Lemma c81_covered_pf
  : forall (types : list string) (q : dcql) (sets : list set_query_) (id : string),
    query_for_types types = Ok q -> dq_sets q = Some sets ->
    (In id (map cq_id (dq_credentials q)) <-> exists s option, In s sets /\ In option (cs_options s) /\ In id option).
Proof.
  intros types q sets id H Hs. destruct (c81_query_pf _ _ H) as (alts & sets' & _ & Ec & _ & Es & F). rewrite Es in Hs. injection Hs as <-.
  replace (map cq_id (dq_credentials q)) with (map fst (concat alts)) by (rewrite <- Ec, map_map; reflexivity). clear Ec Es H q types.
  induction F as [|a s alts sets (_ & O) F IH]; cbn [concat map].
  - split; [intros []|]. intros (s & o & [] & _).
  - rewrite map_app, in_app_iff, IH. split.
    + intros [X|(s' & o & X1 & X2)]; [|exists s', o; split; [now right|exact X2]].
      apply in_map_iff in X as (x & <- & Hx). exists s, [fst x]. split; [now left|]. rewrite O. split; [now apply (in_map (fun a => [fst a]))|now left].
    + intros (s' & o & [->|X1] & X2 & X3); [left|right; eauto]. rewrite O in X2. apply in_map_iff in X2 as (x & <- & Hx).
      destruct X3 as [<-|[]]. now apply in_map.
Qed.
Example c81_covered_ex :
  match query_for_types ["mdl"; "ldp_or_mdl"] with
  | Ok q => map cq_id (dq_credentials q) = ["mdl_0"; "ldp_vc_0"; "mdl_0"]
            /\ match dq_sets q with Some sets => length sets = 2 | None => False end
  | Err _ => False
  end.
Proof. split; reflexivity. Qed.

Lemma fm_insert_keys d p m x : In x (map fst (fm_insert d p m)) <-> x = d \/ In x (map fst m).
Proof.
  induction m as [|[d' p'] m IH]; cbn [fm_insert map fst In]; [split; intros [X|[]]; left; auto|].
  destruct (designation_eqb d d') eqn:E; cbn [map fst In].
  - apply designation_eqb_eq in E. subst d'. split; [intros [X|X]; auto|intros [X|[X|X]]; auto].
  - rewrite IH. tauto.
Qed.
Lemma add_formats_keys m t qs o : for_type t = Ok (qs, o) -> forall x, In x (map fst (add_formats m t)) <-> In x (map cq_format qs) \/ In x (map fst m).
Proof.
  unfold for_type, add_formats. intros H x. revert H.
  repeat match goal with |- context [String.eqb t ?k] => destruct (String.eqb_spec t k) as [->|?N] end; intros H; try discriminate H;
    injection H as <- <-; rewrite ?fm_insert_keys; cbn [map cq_format mdl_query ldp_vc_query jwt_vc_query vcdm2_query cred_new In];
    intuition congruence.
Qed.
Lemma formats_keys types l : Forall2 (fun t x => for_type t = Ok x) types l -> forall m x,
  In x (map fst (fold_left add_formats types m)) <-> In x (map cq_format (flat_map fst l)) \/ In x (map fst m).
Proof.
  induction 1 as [|t [qs o] types l Hx F IH]; intros m x; cbn [fold_left flat_map map fst]; [cbn; tauto|].
  rewrite IH, (add_formats_keys _ _ _ _ Hx). rewrite map_app, in_app_iff. tauto.
Qed.
Lemma last_get_in k (l : list (string * json)) : (exists v, last_get k l = Some v) <-> In k (map fst l).
Proof.
  induction l as [|[k' v'] l IH]; cbn [last_get map fst In]; [split; [intros (v & X); discriminate|intros []]|].
  destruct (last_get k l) as [v|] eqn:E.
  - split; [intros _; right; apply IH; eauto|eauto].
  - destruct (String.eqb_spec k k') as [->|N].
    + split; [now left|eauto].
    + split; [intros (v & X); discriminate|]. intros [X|X]; [congruence|]. apply IH in X as (v & X). discriminate.
Qed.
Definition listed (m : format_map) : Prop := Forall (fun e => In (name (fst e), payload_to_json (snd e)) algorithms) m.
Lemma listed_insert d p m : In (name d, payload_to_json p) algorithms -> listed m -> listed (fm_insert d p m).
Proof.
  intros D. induction 1 as [|[d' p'] m X M IH]; cbn [fm_insert]; [constructor; [exact D|constructor]|].
  destruct (designation_eqb d d') eqn:E; constructor; auto. apply designation_eqb_eq in E. subst d'. exact D.
Qed.
Lemma listed_formats types : forall m, listed m -> listed (fold_left add_formats types m).
Proof.
  induction types as [|t types IH]; intros m M; cbn [fold_left]; [exact M|]. apply IH. unfold add_formats.
  repeat match goal with |- context [String.eqb t ?k] => destruct (String.eqb t k) end; [| | | |apply listed_insert|exact M];
    try (apply listed_insert; [|exact M]); unfold algorithms; cbn; tauto.
Qed.
Lemma last_get_some k (l : list (string * json)) v : last_get k l = Some v -> In (k, v) l.
Proof.
  induction l as [|[k' v'] l IH]; cbn [last_get In]; [discriminate|]. destruct (last_get k l); [intros H; right; auto|].
  destruct (String.eqb_spec k k') as [->|N]; [|discriminate]. intros H. injection H as ->. now left.
Qed.
Lemma algorithms_fun n v v' : In (n, v) algorithms -> In (n, v') algorithms -> v = v'.
Proof.
  unfold algorithms. cbn [In]. intros H H'. repeat destruct H as [H|H]; try (destruct H; fail); injection H as <- <-;
    repeat destruct H' as [H'|H']; try (destruct H'; fail); try discriminate H'; injection H' as <-; reflexivity.
Qed.

Lemma cli_formats_are types q : query_for_types types = Ok q ->
  exists f, cli_client_metadata types = [("vp_formats_supported", JObj f)]
    /\ forall n v, obj_get n f = Some v <-> In (n, v) algorithms /\ In n (map (fun c => name (cq_format c)) (dq_credentials q)).
Proof.
  intros H. apply types_inv in H as (l & F & _ & Ec & _). eexists. split; [reflexivity|].
  assert (L : forall n v, last_get n (map (fun e => (name (fst e), payload_to_json (snd e))) (fold_left add_formats types [])) = Some v -> In (n, v) algorithms).
  { intros n v G. apply last_get_some in G. apply in_map_iff in G as (e & G & I). injection G as <- <-.
    exact (proj1 (Forall_forall _ _) (listed_formats types [] (Forall_nil _)) e I). }
  assert (K : forall n, (exists v, last_get n (map (fun e => (name (fst e), payload_to_json (snd e))) (fold_left add_formats types [])) = Some v)
    <-> In n (map (fun c => name (cq_format c)) (dq_credentials q))).
  { intros n. rewrite last_get_in, map_map. cbn [fst].
    rewrite Ec. rewrite <- (map_map cq_format name). rewrite <- (map_map fst name). rewrite !in_map_iff.
    split; intros (d & <- & Hd); exists d; (split; [reflexivity|]); apply (formats_keys _ _ F) in Hd || apply (formats_keys _ _ F); auto.
    destruct Hd as [Hd|[]]. exact Hd. }
  intros n v. rewrite get_of_list. split.
  - intros G. split; [now apply L|]. apply K. eauto.
  - intros (A & I). apply K in I as (v' & G). rewrite G. f_equal. eapply algorithms_fun; [|exact A]. now apply L.
Qed.

(** C81: the metadata that go with the query list exactly the formats asked for, each with its algorithms. *)
Lemma c81_formats_pf
  : forall (types : list string) (q : dcql),
    query_for_types types = Ok q ->
    exists formats,
      obj_get "vp_formats_supported" (cli_client_metadata types) = Some (JObj formats)
      /\ forall n v, obj_get n formats = Some v <-> In (n, v) algorithms /\ exists c, In c (dq_credentials q) /\ name (cq_format c) = n.
Proof.
  intros types q H. destruct (cli_formats_are _ _ H) as (f & E & K). exists f. rewrite E. split; [reflexivity|]. intros n v.
  rewrite K, in_map_iff. split; intros (A & c & X & Y); eauto.
Qed.
Example c81_formats_ex :
  obj_get "vp_formats_supported" (cli_client_metadata ["jwt_vc"; "mdl"])
  = Some (JObj [("jwt_vc_json", JObj [("alg_values", jstrs ["ES256"; "ES384"; "ES512"; "EdDSA"])]); ("mso_mdoc", JObj [])]).
Proof. reflexivity. Qed.

Lemma nodup_cat {A} (l r : list A) : NoDup l -> NoDup r -> (forall x, In x l -> In x r -> False) -> NoDup (l ++ r).
Proof.
  induction 1 as [|x l N H IH]; intros R D; [exact R|]. cbn [app]. constructor.
  - rewrite in_app_iff. intros [X|X]; [contradiction|]. apply (D x); [now left|exact X].
  - apply IH; [exact R|]. intros y Y. apply D. now right.
Qed.
(** C81: the identifiers in the query are distinct when no type is repeated and ldp_or_mdl is not combined with
    ldp_vc or mdl. *)
Lemma c81_ids_pf
  : forall (types : list string) (q : dcql),
    query_for_types types = Ok q -> NoDup types ->
    (In "ldp_or_mdl" types -> ~ In "ldp_vc" types /\ ~ In "mdl" types) ->
    NoDup (map cq_id (dq_credentials q)).
Proof.
  intros types q H Nd Ex. destruct (c81_query_pf _ _ H) as (alts & sets & F & Ec & _).
  replace (map cq_id (dq_credentials q)) with (map fst (concat alts)) by (rewrite <- Ec, map_map; reflexivity). clear - F Nd Ex.
  assert (I : forall t a, offers t a -> NoDup (map fst a)).
  { intros t a O. unfold offers, menu in O. cbn [In] in O.
    repeat destruct O as [O|O]; try (destruct O; fail); injection O as <- <-; cbn [map fst]; repeat constructor; cbn [In]; intuition discriminate. }
  assert (D : forall t a t' a' x, offers t a -> offers t' a' -> In x (map fst a) -> In x (map fst a') ->
     t = t' \/ t = "ldp_or_mdl" /\ (t' = "ldp_vc" \/ t' = "mdl") \/ t' = "ldp_or_mdl" /\ (t = "ldp_vc" \/ t = "mdl")).
  { clear. intros t a t' a' x O O' X X'. unfold offers, menu in O, O'. cbn [In] in O, O'.
    repeat destruct O as [O|O]; try (destruct O; fail); injection O as <- <-;
    repeat destruct O' as [O'|O']; try (destruct O'; fail); injection O' as <- <-; cbn [map fst In] in X, X';
    first [now left|right; intuition congruence]. }
  induction F as [|t a types alts O F IH]; [constructor|]. inversion Nd as [|? ? Nt Nd']; subst. cbn [concat]. rewrite map_app.
  apply nodup_cat; [eapply I, O|apply IH; [exact Nd'|]|].
  { intros X. destruct Ex as [E1 E2]; [now right|]. split; intros Y; [apply E1|apply E2]; now right. }
  intros x X1 X2. apply in_map_iff in X2 as (e & <- & X2). apply in_concat in X2 as (a' & A' & X2).
  apply (forall2_in_r _ _ _ _ F) in A' as (t' & T' & O'). apply (in_map fst) in X2.
  destruct (D t a t' a' (fst e) O O' X1 X2) as [->|[(-> & C)|(-> & C)]]; [contradiction| |].
  - destruct Ex as [E1 E2]; [now left|]. destruct C; subst t'; [apply E1|apply E2]; now right.
  - destruct Ex as [E1 E2]; [now right|]. destruct C; subst t; [apply E1|apply E2]; now left.
Qed.
Example c81_ids_ex :
  rmap (fun q => map cq_id (dq_credentials q)) (query_for_types ["vcdm2_sd_jwt"; "ldp_or_mdl"; "jwt_vc"])
  = Ok ["vcdm2_sd_jwt_0"; "ldp_vc_0"; "mdl_0"; "jwt_vc_0"].
Proof. reflexivity. Qed.

(** C81: nothing keeps the identifiers distinct otherwise: a type given twice, or ldp_vc next to ldp_or_mdl, gives a
    query with an identifier used twice. *)
Lemma c81_ids_refuted_pf
  : exists (types types' : list string) (q q' : dcql),
    query_for_types types = Ok q /\ ~ NoDup (map cq_id (dq_credentials q))
    /\ query_for_types types' = Ok q' /\ ~ NoDup (map cq_id (dq_credentials q')) /\ NoDup types'.
Proof.
  exists ["mdl"; "mdl"], ["ldp_vc"; "ldp_or_mdl"], (mk_dcql [mdl_query; mdl_query] (Some (map sets_new [[["mdl_0"]]; [["mdl_0"]]]))),
    (mk_dcql [ldp_vc_query; ldp_vc_query; mdl_query] (Some (map sets_new [[["ldp_vc_0"]]; [["ldp_vc_0"]; ["mdl_0"]]]))).
  split; [reflexivity|]. split; [intros X; cbn in X; inversion X as [|? ? Y _]; apply Y; now left|]. split; [reflexivity|].
  split; [intros X; cbn in X; inversion X as [|? ? Y _]; apply Y; now left|]. repeat constructor; cbn [In]; intuition discriminate.
Qed.

(* --------------------------------------------------------------------- C80 *)
Section S.
Variable up : string -> option url.
Definition cli_defaults : obj := obj_insert "response_mode" (JStr "direct_post") (obj_insert "response_type" (JStr "vp_token") []).
Definition cli_v (public : url) : verifier :=
  mk_verifier (redirect_uri_client (with_path public "/response")) cli_defaults (Some (with_path public "/request")) (with_path public "/response").
Definition cli_wm_obj (w : url) : obj :=
  obj_insert "client_id_prefixes_supported" (jstrs ["redirect_uri"]) (obj_insert "vp_formats_supported"
    (format_map_to_json
      (fm_insert (OtherFormat "vcdm2_sd_jwt") vcdm2_payload
      (fm_insert JwtVcJson (AlgValues ["ES256"; "ES384"; "EdDSA"])
        (fm_insert LdpVc (ProofTypeValues ["Ed25519Signature2018"; "Ed25519Signature2020"; "JsonWebSignature2020"])
          (fm_insert MsoMDoc (OtherPayload (JObj [])) [])))))
    (obj_insert "authorization_endpoint" (JStr (url_str w)) [])).

Lemma setup_run public types fresh id w q : up "openid4vp://" = Some w -> query_for_types types = Ok q ->
  exists wm, wm_obj wm = cli_wm_obj w
    /\ cli_setup up public types fresh id = build_with_session_id up (cli_builder (cli_v public) types q fresh) id wm false [].
Proof.
  intros W Q. unfold cli_setup, cli_wallet. rewrite W, Q. cbn [cli_verifier vb_build vb_client vb_store vb_submission vb_defaults vb_byref
    vb_with_default vb_by_reference vb_with_submission vb_with_store vb_with_client vb_new ok_or of_bool rbind].
  eexists. split; [|reflexivity]. reflexivity.
Qed.
Lemma setup_inv public types fresh id m dest : cli_setup up public types fresh id = (m, Ok dest) ->
  exists w q wm s, up "openid4vp://" = Some w /\ query_for_types types = Ok q /\ wm_obj wm = cli_wm_obj w
    /\ rb_prepare up (cli_builder (cli_v public) types q fresh) id wm = Ok (s, dest) /\ m = st_insert (s_uuid s) s [].
Proof.
  intros H. destruct (up "openid4vp://") as [w|] eqn:W; [|unfold cli_setup, cli_wallet in H; rewrite W in H; discriminate].
  destruct (query_for_types types) as [q|] eqn:Q; [|unfold cli_setup, cli_wallet in H; rewrite W, Q in H; discriminate].
  destruct (setup_run public types fresh id w q W Q) as (wm & Ew & E). rewrite E in H. unfold build_with_session_id, build_code in H.
  destruct (rb_prepare up _ id wm) as [[s d]|e] eqn:P; [|discriminate H].
  apply (f_equal (fun x => (fst x, match snd x with Ok y => y | Err _ => d end))) in H. unfold run_plain in H. cbn in H.
  injection H as <- ->. exists w, q, wm, s. repeat split; assumption.
Qed.
Lemma cli_params public types q fresh n :
  obj_get n (rb_params (cli_builder (cli_v public) types q fresh))
  = if String.eqb n "client_metadata" then Some (JObj (cli_client_metadata types))
    else if String.eqb n "nonce" then Some (JStr (uuid_str fresh))
    else if String.eqb n "response_mode" then Some (JStr "direct_post")
    else if String.eqb n "response_type" then Some (JStr "vp_token") else None.
Proof.
  change (rb_params (cli_builder (cli_v public) types q fresh)) with
    (obj_insert "client_metadata" (JObj (cli_client_metadata types)) (obj_insert "nonce" (JStr (uuid_str fresh)) cli_defaults)).
  unfold cli_defaults. now rewrite !obj_get_insert.
Qed.
Lemma path_at public p : endpoint_at public p (with_path public p).
Proof. repeat split. Qed.
Lemma unsigned_ok a : unsigned (unsigned_jwt a) (aro_to_json a).
Proof. exists none_header. split; [reflexivity|]. apply members_of; [reflexivity|]. reflexivity. Qed.
End S.

(** C80: starting the command line verifier stores one session, whose request object has the identifier redirect_uri:
    followed by its response endpoint, the response endpoint of the session as response URI, the mode direct_post, a
    fresh nonce, the query and the formats asked for; the JWT is that object, unsigned; the URL shown points the wallet
    to the request endpoint of the session. *)
Lemma c80_setup_pf
  : forall (url_parse : string -> option url) (public : url) (types : list string) (fresh id : uuid) (m : store) (dest : url),
    cli_setup url_parse public types fresh id = (m, Ok dest) ->
    exists q sess base response base' request wallet endpoint,
      query_for_types types = Ok q
      /\ endpoint_at public "/response" base /\ extended base (uuid_str id) response
      /\ endpoint_at public "/request" base' /\ extended base' (uuid_str id) request
      /\ st_get id m = Some sess /\ (forall id', id' <> id -> st_get id' m = None)
      /\ s_status sess = SentRequestByReference /\ s_dcql sess = q
      /\ cli_asks (aro_to_obj (s_request sess)) base response (uuid_str fresh) q (map (fun c => name (cq_format c)) (dq_credentials q))
      /\ unsigned (s_jwt sess) (aro_to_json (s_request sess))
      /\ url_parse "openid4vp://" = Some wallet /\ url_parse (url_str wallet) = Some endpoint
      /\ to_url (mk_ar (Some ("redirect_uri:" +:+ url_str base)) (ByReference request)) endpoint = Ok dest.
Proof.
  intros up public types fresh id m dest H. apply setup_inv in H as (w & q & wm & s & W & Q & Wm & P & ->).
  assert (So : keys_sorted (aro_to_obj (s_request s)) = true). { eapply prepare_sorted; [exact P|]. reflexivity. }
  apply prepare_inv in P as (U & Q' & B & _ & J & _ & ind & ep & Cv & We & To).
  cbn [cli_builder rb_with_param rb_with_dcql rb_new rb_verifier rb_dcql cli_v v_client v_byref v_submission redirect_uri_client cl_jwt cl_client_id conveyed] in *.
  destruct Cv as (rq & Er & -> & St). destruct B as (B1 & B2 & B3 & mode & B4 & B5).
  fold (cli_builder (cli_v public) types q fresh) in *.
  unfold text_at in B4. fold (cli_v public) in *. rewrite cli_params in B4. cbn [String.eqb Ascii.eqb Bool.eqb] in B4. injection B4 as <-.
  assert (exists r, extended (with_path public "/response") (uuid_str id) r /\ text_at "response_uri" (aro_to_obj (s_request s)) (url_str r)) as (r & R1 & R2).
  { destruct B5 as [[_ B5]|[B5 _]]; [exact B5|]. destruct B5; discriminate. }
  destruct We as (t & Wt & Wp). apply (f_equal (fun x => match x with Ok y => y | Err _ => "" end)) in J. injection Q' as Q'.
  exists q, s, (with_path public "/response"), r, (with_path public "/request"), rq, w, ep. split; [exact Q|].
  split; [apply path_at|]. split; [exact R1|]. split; [apply path_at|]. split; [now rewrite <- U|]. rewrite U. split; [now rewrite st_get_insert, N.eqb_refl|].
  split. { intros u' N0. rewrite st_get_insert. destruct (N.eqb_spec u' id); [contradiction|reflexivity]. }
  split; [exact St|]. split; [congruence|]. split.
  - destruct (cli_formats_are _ _ Q) as (f & Ef & Kf). exists f. split; [|exact Kf]. split; [exact So|]. intros n y.
    assert (G : obj_get n (aro_to_obj (s_request s)) =
      if String.eqb n "client_id" then Some (JStr ("redirect_uri:" +:+ url_str (with_path public "/response")))
      else if String.eqb n "dcql_query" then Some (dcql_to_json q)
      else if String.eqb n "response_uri" then Some (JStr (url_str r))
      else if String.eqb n "client_metadata" then Some (JObj [("vp_formats_supported", JObj f)])
      else if String.eqb n "nonce" then Some (JStr (uuid_str fresh))
      else if String.eqb n "response_mode" then Some (JStr "direct_post")
      else if String.eqb n "response_type" then Some (JStr "vp_token") else None).
    { destruct (String.eqb_spec n "client_id") as [->|N1]; [exact B1|]. destruct (String.eqb_spec n "dcql_query") as [->|N2]; [now rewrite Q'|].
      destruct (String.eqb_spec n "response_uri") as [->|N3]; [exact R2|]. rewrite B3 by assumption. rewrite cli_params. now rewrite Ef. }
    rewrite G.
    generalize (dcql_to_json q), (JObj [("vp_formats_supported", JObj f)]), (uuid_str fresh), (url_str r),
      ("redirect_uri:" +:+ url_str (with_path public "/response")). clear. intros q me no re cl. cbn [In].
    repeat match goal with
    | |- context [String.eqb n ?t] => destruct (String.eqb_spec n t) as [->|?N]
    end; (split; [intros X; try discriminate X; injection X as <-; tauto
                 |intros X; repeat destruct X as [X|X]; try contradiction; try (injection X as <- <-; congruence); congruence]).
  - split; [rewrite <- J; apply unsigned_ok|]. split; [exact W|]. split; [|exact To].
    assert (text_at "authorization_endpoint" (wm_obj wm) (url_str w)) as X.
    { unfold text_at. rewrite Wm. unfold cli_wm_obj. rewrite !obj_get_insert. reflexivity. }
    assert (t = url_str w) by (eapply text_unique; eassumption). congruence.
Qed.

Definition cli_toy : store * res url := cli_setup simple_parse (toy_url "https://v.example/") ["ldp_vc"] 1%N 7%N.
Example c80_setup_ex :
  rmap url_str (snd cli_toy)
  = Ok "openid4vp://?client_id=redirect_uri%3Ahttps%3A%2F%2Fv.example%2Fresponse&request_uri=https%3A%2F%2Fv.example%2Frequest%2F00000000-0000-0000-0000-000000000007".
Proof. vm_compute. reflexivity. Qed.

(** C80: it starts whenever the types are known, the public URL is a base URL, and the URLs involved can be read
    back. *)
Lemma c80_succeeds_pf
  : forall (url_parse : string -> option url) (public : url) (types : list string) (fresh id : uuid) (w : url),
    types <> [] -> (forall t, In t types -> known t) -> u_opaque public = false ->
    url_parse "openid4vp://" = Some w -> url_parse (url_str w) <> None ->
    (forall base r, endpoint_at public "/response" base -> extended base (uuid_str id) r -> url_parse (url_str r) <> None) ->
    exists m dest, cli_setup url_parse public types fresh id = (m, Ok dest).
Proof.
  intros up public types fresh id w N K O W Wp Rp. destruct (proj2 (c81_accepts_pf types) (conj N K)) as (q & Q).
  destruct (setup_run up public types fresh id w q W Q) as (wm & Wm & ->). destruct (up (url_str w)) as [ep|] eqn:Ep; [|congruence].
  eapply (c29_succeeds_pf up _ id wm [] q "direct_post" "vp_token" (uuid_str fresh) ["redirect_uri"] ep).
  - reflexivity.
  - unfold text_at. now rewrite cli_params.
  - unfold text_at. now rewrite cli_params.
  - unfold absent. now rewrite cli_params.
  - unfold text_at. now rewrite cli_params.
  - left. split; [now left|]. split; [exact O|]. intros r. apply Rp. apply path_at.
  - unfold supported. rewrite Wm. unfold cli_wm_obj. rewrite !obj_get_insert. reflexivity.
  - now left.
  - intros a. cbn. eauto.
  - intros at_ X. cbn in X. injection X as <-. exact O.
  - exists (url_str w). split; [|exact Ep]. unfold text_at. rewrite Wm. unfold cli_wm_obj. rewrite !obj_get_insert. reflexivity.
Qed.
Example c80_succeeds_ex :
  known "ldp_or_mdl" /\ u_opaque (toy_url "https://v.example/") = false
  /\ match simple_parse "openid4vp://" with Some w => simple_parse (url_str w) <> None | None => False end
  /\ is_ok (snd cli_toy) = true.
Proof. split; [eexists; cbn; do 4 right; left; reflexivity|]. vm_compute. repeat split. discriminate. Qed.

(** C80: a wallet that accepts unsigned JWTs reads exactly that object from the JWT. *)
Lemma c80_readable_pf
  : forall (ssi_header : obj -> option bool) (response_uri : url),
    (forall h, members_are (JObj h) [("alg", JStr "none"); ("typ", JStr "oauth-authz-req+jwt")] -> ssi_header h = Some true) ->
    readable_client ssi_header (redirect_uri_client response_uri).
Proof.
  intros ssi u Hs body jwt W D J. cbn [cl_jwt redirect_uri_client] in J. apply (f_equal (fun x => match x with Ok y => y | Err _ => "" end)) in J.
  subst jwt.
  change (unsigned_jwt body) with (make_jwt none_header body (mk_signer (key := unit) (Ok "none") (Ok tt) (fun _ => ""))).
  unfold none_header. apply readable_jwt; try reflexivity; try assumption; [cbn; lia|]. apply Hs. apply members_of; reflexivity.
Qed.
Example c80_readable_ex :
  let o := obj_insert "client_id" (JStr "redirect_uri:https://v.example/response") sample_request in
  decode_unverified any_header (unsigned_jwt (body_of o)) = Ok o.
Proof. vm_compute. reflexivity. Qed.

Lemma longer base id r : extended base id r -> u_path base = "/response" -> url_str r <> url_str base.
Proof.
  intros (_ & _ & E1 & E2 & E3 & E4 & E5) P E. apply (f_equal String.length) in E. unfold url_str in E.
  rewrite !slen_app, E1, E2, E3, E4, E5, P in E. cbn [String.length Nat.eqb] in E. rewrite !slen_app in E. cbn [String.length] in E. lia.
Qed.

(** C80: yet the example wallet never answers the command line verifier: the response URI of the session is not the
    URI in the client identifier.  Whenever the wallet resolves an authorization request to the request object of the
    session, it makes no POST and reports an error. *)
Lemma c80_unanswered_pf
  : forall (url_parse : string -> option url) (ssi_header : obj -> option bool) (uri_ok : string -> bool)
      (jwk_ok : obj -> bool) (jwe_encrypt : obj -> obj -> obj -> res string) (lower sign : string -> string) (now : Z)
      (http : http_client) (endpoint : url) (credentials : list credential) (auto_consent : bool) (p : params)
      (public : url) (types : list string) (fresh id : uuid) (m : store) (dest : url) (sess : session)
      (ar : auth_request) (a : aro) (jwt : option string),
    cli_setup url_parse public types fresh id = (m, Ok dest) -> st_get id m = Some sess ->
    (forall base r, endpoint_at public "/response" base -> extended base (uuid_str id) r -> url_parse (url_str r) = Some r) ->
    let run := authorize url_parse ssi_header uri_ok jwk_ok jwe_encrypt lower sign now http endpoint credentials auto_consent p in
    from_url url_parse (build_request_url endpoint p) endpoint = Ok ar ->
    snd (resolve_request url_parse ssi_header uri_ok http ar) = Ok (a, jwt) ->
    aro_to_obj a = aro_to_obj (s_request sess) ->
    posts (http_events (fst run)) = [] /\ exists e, snd run = Err e.
Proof.
  intros up ssi uok jok enc lower sign now http ep store consent p public types fresh id m dest sess ar a jwt H G Rt run Ef Er Ea.
  destruct (c80_setup_pf _ _ _ _ _ _ _ H) as (q & s' & base & r & base' & rq & w & wep & _ & Eb & Ex & _ & _ & G' & _ & _ & _ & (f & (_ & Ho) & _) & _).
  rewrite G in G'. injection G' as <-.
  assert (P : posts (http_events (fst run)) = []).
  { destruct (c68_bound_pf up ssi uok jok enc lower sign now http ep store consent p) as [X|(x & ar' & a' & jwt' & t & u & X & Ef' & Er' & Ht & Hu & E1 & E2)];
      [exact X|]. exfalso. rewrite Ef in Ef'. injection Ef' as <-. rewrite Er in Er'. injection Er' as <- <-. rewrite Ea in *.
    specialize (E2 (url_str base)). assert (C : text_at "client_id" (aro_to_obj (s_request sess)) ("redirect_uri:" +:+ url_str base)) by (apply Ho; now left).
    specialize (E2 C). assert (R : text_at "response_uri" (aro_to_obj (s_request sess)) (url_str r)) by (apply Ho; do 3 right; now left).
    assert (t = url_str r) by (eapply text_unique; eassumption). subst t. rewrite (Rt base r Eb Ex) in Hu. injection Hu as <-.
    apply (longer base (uuid_str id) r Ex); [apply Eb|congruence]. }
  split; [exact P|]. destruct (snd run) as [x|e] eqn:E; [|eauto]. exfalso.
  destruct (c68_success_pf up ssi uok jok enc lower sign now http ep store consent p x E) as (_ & y & rs & X & _). fold run in X. congruence.
Qed.
Definition cli_wallet_run : M wevent (option string) :=
  authorize simple_parse any_header (fun _ => true) (fun _ => true) (fun _ _ _ => Err "no key") (fun s => s) (fun _ => "S") 5
    (fun rq => match st_get 7%N (fst cli_toy) with Some s => Ok (mk_resp 200 (if String.eqb (rq_method rq) "GET" then s_jwt s else "{}")) | None => Err "" end)
    (toy_url "openid4vp://") [mk_credential "1" LdpVc None None "raw" []] true
    (mk_params (Some "redirect_uri:https://v.example/response") None (Some ("https://v.example/request/" +:+ uuid_str 7%N)) None None None None None None).
Example c80_unanswered_ex :
  length (fst cli_wallet_run) = 1 /\ snd cli_wallet_run = Err "response_uri must match client_id".
Proof. vm_compute. split; reflexivity. Qed.

(* --------------------------------------------------------------------- C82 *)
(** C82: a response POSTed to the command line verifier is answered with 200 exactly when it can be read and its session
    exists; then the session is complete: successful with the number and the identifiers of the credentials received,
    whatever they are, or failed for an encrypted response; other sessions are untouched.  Otherwise it is answered with
    an error and nothing changes. *)
Lemma c82_received_pf
  : forall (sid body : string) (m : store),
    let '(m', calls, x) := run false cli_validator (cli_receive sid body) m in
    (exists u r s s', uuid_of_string sid = Some u /\ utf8_valid body = true /\ from_form body = Ok r /\ st_get u m = Some s
       /\ x = Ok (RJson 200 (JObj [])) /\ st_get u m' = Some s' /\ same_request s s'
       /\ (forall u', u' <> u -> st_get u' m' = st_get u' m)
       /\ match r with
          | Unencoded t => exists info, s_status s' = Complete (OSuccess info)
              /\ members_are info [("credentials_received", JInt (Z.of_nat (length (ur_vp_token t))));
                                   ("credential_query_ids", JArr (map JStr (map fst (ur_vp_token t))))]
          | Jwt _ => exists reason, s_status s' = Complete (OFailure reason)
          end)
    \/ x = Ok (RError (if utf8_valid body then 500 else 400)) /\ m' = m
       /\ (utf8_valid body = false \/ uuid_of_string sid = None \/ (forall r, from_form body <> Ok r)
           \/ exists u, uuid_of_string sid = Some u /\ st_get u m = None).
Proof.
  intros sid body m. unfold cli_receive. destruct (utf8_valid body) eqn:V; [|cbn [run]; right; auto].
  destruct (uuid_of_string sid) as [u|]; [|cbn [run]; right; split; [reflexivity|]; split; [reflexivity|]; auto]. destruct (from_form body) as [r|e] eqn:F.
  2: { cbn [run]. right. split; [reflexivity|]. split; [reflexivity|]. do 2 right. left. intros ? X. discriminate X. }
  rewrite run_pfinish. pose proof (c40_verify_response_pf u r cli_validator m) as C. unfold verify_response in C. destruct (st_get u m) as [s|] eqn:G.
  - destruct C as (m' & -> & Fr & s' & G' & Sm & St). left. exists u, r, s, s'. do 4 (split; [auto; fail|]). split; [reflexivity|]. split; [exact G'|].
    split; [exact Sm|]. split; [exact Fr|]. rewrite St. destruct r as [t|j]; cbn [cli_validator].
    + eexists. split; [reflexivity|]. apply members_of; [reflexivity|]. cbn [In]. unfold vp_len, jstrs. tauto.
    + eauto.
  - destruct C as (e & ->). right. split; [reflexivity|]. split; [reflexivity|]. do 3 right. eauto.
Qed.
Example c82_received_ex :
  exists s, st_get 7%N (fst cli_toy) = Some s
  /\ snd (run false cli_validator (cli_receive (uuid_str 7%N) "vp_token={}") (fst cli_toy)) = Ok (RJson 200 (JObj []))
  /\ snd (run false cli_validator (cli_receive (uuid_str 8%N) "vp_token={}") (fst cli_toy)) = Ok (RError 500).
Proof. vm_compute. eexists. repeat split. Qed.
