From Coq Require Import Lia ZifyBool.
From Verif Require Import Base BaseFacts Json JsonFacts Serde MapFacts Object Formats Params Dcql Response Spec
  SpecObject ParamFacts.

(** C56: a query converted to JSON and back is the same query. *)
Lemma c56_roundtrip_pf :
  forall q : dcql, dcql_ok q -> dcql_of_json (dcql_to_json q) = Ok q.
Proof. exact dcql_rt. Qed.

Example c56_roundtrip_ex :
  let q := mk_dcql [mk_cred "pid" DcSdJwt [("vct_values", JArr [JStr "x"])]
                      (Some [mk_claims None [PeStr "a"; PeNull] (Some [CvStr "v"; CvInt 3]) (Some true)])
                      None (Some [mk_auths (AtOther "z") ["q"]]) None (Some true)]
                   (Some [mk_set [["pid"]; []] None]) in
  dcql_of_json (dcql_to_json q) = Ok q
  /\ dcql_ok q.
Proof.
  split; [reflexivity|]. unfold dcql_ok, nonempty_all, opt_all, cred_ok, claims_ok, auths_ok, set_ok.
  cbn. repeat (split || constructor || discriminate); cbn; try lia; try (intuition discriminate).
Qed.

(* ------------------------------------------------------------ parsed queries are well formed *)
Lemma de_list_forall {A} (f : json -> res A) (P : A -> Prop) j l :
  (forall x a, f x = Ok a -> P a) -> de_list f j = Ok l -> Forall P l.
Proof.
  intros H. destruct j; cbn [de_list]; try discriminate. intros M. apply mapM_ok in M.
  induction M; constructor; eauto.
Qed.
Lemma de_ne_ok {A} (f : json -> res A) (P : A -> Prop) j l :
  (forall x a, f x = Ok a -> P a) -> de_ne f j = Ok l -> nonempty_all P l.
Proof.
  intros H E. unfold de_ne in E. apply rbind_ok in E as (l' & E & T).
  assert (l' = l /\ l <> []) as [-> N].
  { destruct l'; cbn in T; [discriminate|]. injection T as <-. split; [reflexivity|discriminate]. }
  split; [exact N|]. eapply de_list_forall; eauto.
Qed.
Lemma f_opt_ok {A} (f : json -> res A) (P : A -> Prop) x o :
  (forall j a, f j = Ok a -> P a) -> f_opt f x = Ok o -> opt_all P o.
Proof.
  intros H. destruct x as [v| |]; cbn [f_opt]; try discriminate.
  - unfold de_opt. destruct v; intros E;
    try (injection E as <-; exact I);
    (destruct (f _) eqn:F in E; cbn in E; [injection E as <-; cbn; eauto|discriminate]).
  - intros E. injection E as <-. exact I.
Qed.
Lemma f_req_ok {A} (f : json -> res A) (P : A -> Prop) x a :
  (forall j a, f j = Ok a -> P a) -> f_req f x = Ok a -> P a.
Proof. intros H. destruct x; cbn; try discriminate. apply H. Qed.

Ltac binds H := repeat (let a := fresh "v" in let E := fresh "E" in apply rbind_ok in H as (a & E & H)).

Lemma pe_of_ok j p : pe_of_json j = Ok p -> path_elem_ok p.
Proof.
  destruct j; cbn; try discriminate; try (intros H; injection H as <-; exact I).
  destruct (_ && _) eqn:E; [|discriminate]. intros H. injection H as <-. cbn. unfold u64_max in E. lia.
Qed.
Lemma cv_of_ok j p : cv_of_json j = Ok p -> claim_value_ok p.
Proof.
  destruct j; cbn; try discriminate; try (intros H; injection H as <-; exact I).
  destruct (_ && _) eqn:E; [|discriminate]. intros H. injection H as <-. cbn. unfold i64_min, i64_max in E. lia.
Qed.
Lemma claims_of_ok j c : claims_of_json j = Ok c -> claims_ok c.
Proof.
  unfold claims_of_json. intros H. binds H. injection H as <-. split; cbn [cl_path cl_values].
  - eapply f_req_ok; [|exact E1]. intros; eapply de_ne_ok; [apply pe_of_ok|eassumption].
  - eapply f_opt_ok; [|exact E2]. intros; eapply de_ne_ok; [apply cv_of_ok|eassumption].
Qed.
Lemma at_of_ok j a : at_of_json j = Ok a -> canonical_authority a.
Proof.
  assert (T : forall s a, at_tag s = Some a -> canonical_authority a).
  { intros s b. unfold at_tag. repeat (destruct (String.eqb s _); [intros H; injection H as <-; exact I|]).
    discriminate. }
  destruct j; cbn; try discriminate.
  - intros H. injection H as <-. destruct (at_tag s) eqn:E; [eauto|].
    unfold at_tag in E. cbn.
    destruct (String.eqb_spec s "aki"); [discriminate|].
    destruct (String.eqb_spec s "etsi_tl"); [discriminate|].
    destruct (String.eqb_spec s "openid_federation"); [discriminate|]. intuition congruence.
  - destruct m as [|[k v] [|x r]]; try discriminate; try (destruct v; discriminate).
    destruct v; try discriminate. intros H. apply ok_or_ok in H. eauto.
Qed.
Lemma auths_of_ok j a : auths_of_json j = Ok a -> auths_ok a.
Proof.
  unfold auths_of_json. intros H. binds H. injection H as <-. split; cbn [ta_type ta_values].
  - eapply f_req_ok; [|exact E0]. intros; eapply at_of_ok; eassumption.
  - enough (nonempty_all (fun _ : string => True) v1) by (now destruct H).
    eapply f_req_ok; [|exact E1]. intros; eapply de_ne_ok; [|eassumption]. auto.
Qed.
Lemma sets_of_ok j a : sets_of_json j = Ok a -> set_ok a.
Proof.
  unfold sets_of_json. intros H. binds H. injection H as <-. unfold set_ok. cbn [cs_options].
  enough (nonempty_all (fun _ : list string => True) v0) by (now destruct H).
  eapply f_req_ok; [|exact E0]. intros; eapply de_ne_ok; [|eassumption]. auto.
Qed.
Lemma cred_of_ok j a : cred_of_json j = Ok a -> cred_ok a.
Proof.
  unfold cred_of_json. intros H. binds H. injection H as <-. unfold cred_ok.
  cbn [cq_format cq_claims cq_claim_sets cq_auths]. repeat split.
  - eapply f_req_ok; [|exact E1]. intros x b Hx. destruct x; cbn in Hx; try discriminate.
    injection Hx as <-. apply from_name_canonical.
  - eapply f_opt_ok; [|exact E3]. intros; eapply de_ne_ok; [apply claims_of_ok|eassumption].
  - eapply f_opt_ok; [|exact E4]. intros x b Hx.
    enough (nonempty_all (fun _ : list string => True) b) by (now destruct H).
    eapply de_ne_ok; [|exact Hx]. auto.
  - eapply f_opt_ok; [|exact E5]. intros; eapply de_ne_ok; [apply auths_of_ok|eassumption].
Qed.

(** C56: every query read from JSON satisfies the round-trip condition, so what was once read is never
    changed by writing and reading again. *)
Lemma c56_parsed_pf :
  forall (j : json) (q : dcql),
    dcql_of_json j = Ok q -> dcql_ok q /\ dcql_of_json (dcql_to_json q) = Ok q.
Proof.
  intros j q H. assert (K : dcql_ok q).
  { unfold dcql_of_json in H. binds H. injection H as <-. split; cbn [dq_credentials dq_sets].
    - eapply f_req_ok; [|exact E0]. intros; eapply de_ne_ok; [apply cred_of_ok|eassumption].
    - eapply f_opt_ok; [|exact E1]. intros; eapply de_ne_ok; [apply sets_of_ok|eassumption]. }
  split; [exact K|now apply dcql_rt].
Qed.

Example c56_parsed_ex :
  dcql_of_json (JObj [("credentials", JArr [JObj [("format", JStr "mso_mdoc"); ("id", JStr "a"); ("x", JNull)]])])
  = Ok (mk_dcql [cred_new "a" MsoMDoc] None)
  /\ dcql_of_json (JObj [("credentials", JArr [])]) = Err "cannot create a NonEmptyVec from an empty Vec".
Proof. split; reflexivity. Qed.

(* ------------------------------------------------------------ C57 *)
Lemma f_opt_bool_inv x o : f_opt de_bool x = Ok o ->
  x = FMissing /\ o = None \/ x = FVal JNull /\ o = None \/ exists b, x = FVal (JBool b) /\ o = Some b.
Proof.
  destruct x as [v| |]; cbn; try discriminate; [|intros H; injection H as <-; auto].
  destruct v; cbn; try discriminate; intros H; injection H as <-; eauto.
Qed.

(** C57: optional flags of a credential query read from JSON: absent or null gives the default (holder
    binding required, single credential), an explicit value is what the accessor returns, anything else
    was rejected. *)
Lemma c57_credential_defaults_pf :
  forall (m : obj) (c : cred_query),
    cred_of_json (JObj m) = Ok c ->
    match obj_get "require_cryptographic_holder_binding" m with
    | None | Some JNull => holder_binding c = true
    | Some (JBool b) => holder_binding c = b
    | _ => False
    end
    /\ match obj_get "multiple" m with
       | None | Some JNull => multiple c = false
       | Some (JBool b) => multiple c = b
       | _ => False
       end.
Proof.
  intros m c H. unfold cred_of_json in H. binds H. injection H as <-. cbn in E. injection E as <-.
  unfold holder_binding, multiple. cbn [cq_holder_binding cq_multiple].
  cbn [map nth_fld nth] in E6, E7.
  apply f_opt_bool_inv in E6. apply f_opt_bool_inv in E7. split.
  - destruct (obj_get "require_cryptographic_holder_binding" m) as [x|]; destruct E6 as [[X ->]|[[X ->]|(b & X & ->)]];
      try discriminate; try injection X as ->; reflexivity.
  - destruct (obj_get "multiple" m) as [x|]; destruct E7 as [[X ->]|[[X ->]|(b & X & ->)]];
      try discriminate; try injection X as ->; reflexivity.
Qed.

Example c57_credential_defaults_ex :
  exists c, cred_of_json (JObj [("format", JStr "mso_mdoc"); ("id", JStr "a"); ("multiple", JBool true)]) = Ok c
  /\ holder_binding c = true /\ multiple c = true.
Proof. eexists. repeat split. Qed.

(** C57: credential sets are required unless they say otherwise. *)
Lemma c57_set_defaults_pf :
  forall (m : obj) (s : set_query_),
    sets_of_json (JObj m) = Ok s ->
    match obj_get "required" m with
    | None | Some JNull => is_required s = true
    | Some (JBool b) => is_required s = b
    | _ => False
    end.
Proof.
  intros m s H. unfold sets_of_json in H. binds H. injection H as <-. cbn in E. injection E as <-.
  unfold is_required. cbn [cs_required]. cbn [map nth_fld nth] in E1. apply f_opt_bool_inv in E1.
  destruct (obj_get "required" m) as [x|]; destruct E1 as [[X ->]|[[X ->]|(b & X & ->)]];
      try discriminate; try injection X as ->; reflexivity.
Qed.

Example c57_set_defaults_ex :
  exists s, sets_of_json (JObj [("options", JArr [JArr [JStr "a"]]); ("required", JBool false)]) = Ok s
  /\ is_required s = false.
Proof. eexists. split; reflexivity. Qed.

(** C57: a query made with the constructor has the defaults; so have its JSON and what is read from
    it. *)
Lemma c57_new_pf :
  forall id f, canonical_designation f ->
    holder_binding (cred_new id f) = true /\ multiple (cred_new id f) = false
    /\ cred_of_json (cred_to_json (cred_new id f)) = Ok (cred_new id f)
    /\ (forall o, is_required (sets_new o) = true).
Proof.
  intros id f H. repeat split. apply cred_rt. repeat split. exact H.
Qed.

Example c57_new_ex : canonical_designation DcSdJwt.
Proof. exact I. Qed.

(** C57: what the constructors make says nothing beyond what they were given: their JSON has no other members (but for empty metadata). *)
Lemma c57_bare_pf :
  forall id f path options credentials,
    cred_to_json (cred_new id f) = JObj [("format", designation_to_json f); ("id", JStr id); ("meta", JObj [])]
    /\ (exists p, claims_to_json (claims_new path) = JObj [("path", p)])
    /\ (exists o, sets_to_json (sets_new options) = JObj [("options", o)])
    /\ (exists c, dcql_to_json (dcql_new credentials) = JObj [("credentials", c)]).
Proof. intros id f path options credentials. repeat split; try (eexists; reflexivity). Qed.
Example c57_bare_ex : cred_to_json (cred_new "pid" DcSdJwt) = JObj [("format", JStr "dc+sd-jwt"); ("id", JStr "pid"); ("meta", JObj [])].
Proof. reflexivity. Qed.

(* ------------------------------------------------------------ C58 *)
Lemma first_str_none l : first_str l = None <-> forall s, ~ In (PeStr s) l.
Proof.
  induction l as [|[s| |z] r IH]; cbn.
  - split; [intros _ s []|reflexivity].
  - split; [discriminate|]. intros H. exfalso. apply (H s). auto.
  - rewrite IH. split; intros H s; specialize (H s); intuition discriminate.
  - rewrite IH. split; intros H s; specialize (H s); intuition discriminate.
Qed.
Lemma first_str_some l s : first_str l = Some s <->
  exists a b, l = a ++ PeStr s :: b /\ forall t, ~ In (PeStr t) a.
Proof.
  induction l as [|p r IH]; cbn.
  - split; [discriminate|]. intros (a & b & H & _). destruct a; discriminate.
  - assert (Hskip : (forall t, p <> PeStr t) ->
      (exists a b, r = a ++ PeStr s :: b /\ (forall t, ~ In (PeStr t) a)) <->
      (exists a b, p :: r = a ++ PeStr s :: b /\ (forall t, ~ In (PeStr t) a))).
    { intros Hp. split; intros (a & b & H & N).
      - exists (p :: a), b. split; [now rewrite H|]. intros t [X|X]; [now apply (Hp t)|now apply (N t)].
      - destruct a as [|x a]; [injection H as H _; now destruct (Hp s)|]. injection H as -> ->.
        exists a, b. split; [reflexivity|]. intros t X. apply (N t). now right. }
    destruct p as [x| |z].
    + split.
      * intros H. injection H as ->. exists [], r. split; [reflexivity|]. intros t [].
      * intros (a & b & H & N). destruct a as [|y a]; [now injection H as -> _|].
        injection H as <- _. exfalso. apply (N x). now left.
    + rewrite IH. apply Hskip. discriminate.
    + rewrite IH. apply Hskip. discriminate.
Qed.

(** C58: namespace and element identifier are the first and second path elements when these are text;
    the claim name is the last text element. *)
Lemma c58_accessors_pf :
  forall (c : claims_query) (s : string),
    (namespace c = Some s <-> exists r, cl_path c = PeStr s :: r)
    /\ (element_identifier c = Some s <-> exists p r, cl_path c = p :: PeStr s :: r)
    /\ (claim_name c = Some s
        <-> exists a b, cl_path c = a ++ PeStr s :: b /\ forall t, ~ In (PeStr t) b)
    /\ (claim_name c = None <-> forall t, ~ In (PeStr t) (cl_path c)).
Proof.
  intros c s. unfold namespace, element_identifier, claim_name. repeat split.
  - destruct (cl_path c) as [|[x| |z] r]; try discriminate. intros H. injection H as ->. eauto.
  - intros (r & ->). reflexivity.
  - destruct (cl_path c) as [|p [|[x| |z] r]]; cbn; try discriminate. intros H. injection H as ->. eauto.
  - intros (p & r & ->). reflexivity.
  - intros H. apply first_str_some in H as (a & b & H & N).
    exists (rev b), (rev a). split.
    + rewrite <- (rev_involutive (cl_path c)), H. rewrite rev_app_distr. cbn [rev]. now rewrite <- app_assoc.
    + intros t X. apply (N t). now apply in_rev.
  - intros (a & b & H & N). apply first_str_some. exists (rev b), (rev a). split.
    + rewrite H, rev_app_distr. cbn [rev]. now rewrite <- app_assoc.
    + intros t X. apply (N t). now apply in_rev.
  - intros H t X. apply first_str_none with (s := t) in H. apply H. now apply in_rev in X.
  - intros H. apply first_str_none. intros t X. apply (H t). now apply in_rev.
Qed.

Example c58_accessors_ex :
  claim_name (claims_new [PeStr "ns"; PeStr "given_name"; PeNull; PeInt 2]) = Some "given_name".
Proof. reflexivity. Qed.

(* ------------------------------------------------------------ C59 *)
(** C59: a [NonEmptyVec] obtained from its constructors, conversion, deserialisation and any number of
    pushes is not empty, and holds exactly the given elements in order. *)
Lemma c59_nonempty_pf :
  forall (A : Type) (f : json -> res A) (pushed : list A),
    (forall x, fold_left ne_push pushed (ne_new x) = x :: pushed)
    /\ (forall l v, ne_try_from l = Ok v -> l <> [] /\ fold_left ne_push pushed v = l ++ pushed)
    /\ (forall l v, ne_maybe_new l = Some v -> l <> [] /\ fold_left ne_push pushed v = l ++ pushed)
    /\ (forall j v, de_ne f j = Ok v -> v <> [] /\ fold_left ne_push pushed v = v ++ pushed)
    /\ (forall l : list A, l <> [] -> ne_try_from l = Ok l /\ ne_maybe_new l = Some l /\ ne_into_inner l = l).
Proof.
  intros A f pushed.
  assert (P : forall l, fold_left ne_push pushed l = l ++ pushed).
  { induction pushed as [|x r IH]; intros l; cbn; [now rewrite app_nil_r|].
    rewrite IH. unfold ne_push. now rewrite <- app_assoc. }
  assert (T : forall l v : list A, ne_try_from l = Ok v -> l <> [] /\ v = l).
  { intros [|x l] v H; cbn in H; [discriminate|]. injection H as <-. split; [discriminate|reflexivity]. }
  split; [intros x; now rewrite P|]. split; [|split; [|split]].
  - intros l v H. rewrite P. destruct (T _ _ H) as [N ->]. auto.
  - intros l v H. rewrite P. unfold ne_maybe_new in H. destruct (ne_try_from l) eqn:E; [|discriminate].
    injection H as <-. destruct (T _ _ E) as [N ->]. auto.
  - intros j v H. rewrite P. split; [|reflexivity]. unfold de_ne in H. apply rbind_ok in H as (l & _ & H).
    destruct (T _ _ H) as [N ->]. exact N.
  - intros l N. unfold ne_maybe_new. destruct l; [contradiction|]. repeat split.
Qed.

Example c59_nonempty_ex :
  de_ne de_str (JArr [JStr "a"]) = Ok ["a"] /\ ne_try_from (@nil string) = Err "cannot create a NonEmptyVec from an empty Vec".
Proof. split; reflexivity. Qed.

(** C59: the derived [Default] instance is an empty [NonEmptyVec], which cannot be read back after
    writing. *)
Lemma c59_default_refuted_pf :
  exists v : list string, v = ne_default /\ v = [] /\ forall w, de_ne de_str (ser_ne JStr v) <> Ok w.
Proof. exists []. repeat split. discriminate. Qed.
