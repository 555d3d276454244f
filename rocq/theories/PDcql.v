(** DCQL (C56-C59) *)
From Coq Require Import Lia ZifyBool.
From Verif Require Import Base BaseFacts Json JsonFacts Serde MapFacts Object Formats Params Dcql Response Spec
  SpecObject ParamFacts.
From Verif Require Import PfDcql.

(** C56: a query converted to JSON and back is the same query. *)
Theorem c56_roundtrip :
  forall q : dcql, dcql_ok q -> dcql_of_json (dcql_to_json q) = Ok q.
Proof. exact c56_roundtrip_pf. Qed.
Print Assumptions c56_roundtrip.

Example c56_roundtrip_witness :
  let q := mk_dcql [mk_cred "pid" DcSdJwt [("vct_values", JArr [JStr "x"])]
                      (Some [mk_claims None [PeStr "a"; PeNull] (Some [CvStr "v"; CvInt 3]) (Some true)])
                      None (Some [mk_auths (AtOther "z") ["q"]]) None (Some true)]
                   (Some [mk_set [["pid"]; []] None]) in
  dcql_of_json (dcql_to_json q) = Ok q
  /\ dcql_ok q.
Proof. exact c56_roundtrip_ex. Qed.

(** C56: every query read from JSON satisfies the round-trip condition, so what was once read is never
    changed by writing and reading again. *)
Theorem c56_parsed :
  forall (j : json) (q : dcql),
    dcql_of_json j = Ok q -> dcql_ok q /\ dcql_of_json (dcql_to_json q) = Ok q.
Proof. exact c56_parsed_pf. Qed.
Print Assumptions c56_parsed.

Example c56_parsed_witness :
  dcql_of_json (JObj [("credentials", JArr [JObj [("format", JStr "mso_mdoc"); ("id", JStr "a"); ("x", JNull)]])])
  = Ok (mk_dcql [cred_new "a" MsoMDoc] None)
  /\ dcql_of_json (JObj [("credentials", JArr [])]) = Err "cannot create a NonEmptyVec from an empty Vec".
Proof. exact c56_parsed_ex. Qed.

(** C57: optional flags of a credential query read from JSON: absent or null gives the default (holder
    binding required, single credential), an explicit value is what the accessor returns, anything else
    was rejected. *)
Theorem c57_credential_defaults :
  forall (m : obj) (c : cred_query),
    cred_of_json (JObj m) = Ok c ->
    match obj_get "require_cryptographic_holder_binding" m with
    | None | Some JNull => holder_binding c = true
    | Some (JBool b) => holder_binding c = b
    | _ => False
    end
    /\ match obj_get "multiple" m with
       | None | Some JNull => multiple c = false
       | Some (JBool b) => multiple c = b
       | _ => False
       end.
Proof. exact c57_credential_defaults_pf. Qed.
Print Assumptions c57_credential_defaults.

Example c57_credential_defaults_witness :
  exists c, cred_of_json (JObj [("format", JStr "mso_mdoc"); ("id", JStr "a"); ("multiple", JBool true)]) = Ok c
  /\ holder_binding c = true /\ multiple c = true.
Proof. exact c57_credential_defaults_ex. Qed.

(** C57: credential sets are required unless they say otherwise. *)
Theorem c57_set_defaults :
  forall (m : obj) (s : set_query_),
    sets_of_json (JObj m) = Ok s ->
    match obj_get "required" m with
    | None | Some JNull => is_required s = true
    | Some (JBool b) => is_required s = b
    | _ => False
    end.
Proof. exact c57_set_defaults_pf. Qed.
Print Assumptions c57_set_defaults.

Example c57_set_defaults_witness :
  exists s, sets_of_json (JObj [("options", JArr [JArr [JStr "a"]]); ("required", JBool false)]) = Ok s
  /\ is_required s = false.
Proof. exact c57_set_defaults_ex. Qed.

(** C57: a query made with the constructor has the defaults; so have its JSON and what is read from
    it. *)
Theorem c57_new :
  forall id f, canonical_designation f ->
    holder_binding (cred_new id f) = true /\ multiple (cred_new id f) = false
    /\ cred_of_json (cred_to_json (cred_new id f)) = Ok (cred_new id f)
    /\ (forall o, is_required (sets_new o) = true).
Proof. exact c57_new_pf. Qed.
Print Assumptions c57_new.

Example c57_new_witness : canonical_designation DcSdJwt.
Proof. exact c57_new_ex. Qed.

(** C57: what the constructors make says nothing beyond what they were given: their JSON has no other members (but for empty metadata). *)
Theorem c57_bare :
  forall id f path options credentials,
    cred_to_json (cred_new id f) = JObj [("format", designation_to_json f); ("id", JStr id); ("meta", JObj [])]
    /\ (exists p, claims_to_json (claims_new path) = JObj [("path", p)])
    /\ (exists o, sets_to_json (sets_new options) = JObj [("options", o)])
    /\ (exists c, dcql_to_json (dcql_new credentials) = JObj [("credentials", c)]).
Proof. exact c57_bare_pf. Qed.
Print Assumptions c57_bare.

Example c57_bare_witness : cred_to_json (cred_new "pid" DcSdJwt) = JObj [("format", JStr "dc+sd-jwt"); ("id", JStr "pid"); ("meta", JObj [])].
Proof. exact c57_bare_ex. Qed.

(** C58: namespace and element identifier are the first and second path elements when these are text;
    the claim name is the last text element. *)
Theorem c58_accessors :
  forall (c : claims_query) (s : string),
    (namespace c = Some s <-> exists r, cl_path c = PeStr s :: r)
    /\ (element_identifier c = Some s <-> exists p r, cl_path c = p :: PeStr s :: r)
    /\ (claim_name c = Some s
        <-> exists a b, cl_path c = a ++ PeStr s :: b /\ forall t, ~ In (PeStr t) b)
    /\ (claim_name c = None <-> forall t, ~ In (PeStr t) (cl_path c)).
Proof. exact c58_accessors_pf. Qed.
Print Assumptions c58_accessors.

Example c58_accessors_witness :
  claim_name (claims_new [PeStr "ns"; PeStr "given_name"; PeNull; PeInt 2]) = Some "given_name".
Proof. exact c58_accessors_ex. Qed.

(** C59: a [NonEmptyVec] obtained from its constructors, conversion, deserialisation and any number of
    pushes is not empty, and holds exactly the given elements in order. *)
Theorem c59_nonempty :
  forall (A : Type) (f : json -> res A) (pushed : list A),
    (forall x, fold_left ne_push pushed (ne_new x) = x :: pushed)
    /\ (forall l v, ne_try_from l = Ok v -> l <> [] /\ fold_left ne_push pushed v = l ++ pushed)
    /\ (forall l v, ne_maybe_new l = Some v -> l <> [] /\ fold_left ne_push pushed v = l ++ pushed)
    /\ (forall j v, de_ne f j = Ok v -> v <> [] /\ fold_left ne_push pushed v = v ++ pushed)
    /\ (forall l : list A, l <> [] -> ne_try_from l = Ok l /\ ne_maybe_new l = Some l /\ ne_into_inner l = l).
Proof. exact c59_nonempty_pf. Qed.
Print Assumptions c59_nonempty.

Example c59_nonempty_witness :
  de_ne de_str (JArr [JStr "a"]) = Ok ["a"] /\ ne_try_from (@nil string) = Err "cannot create a NonEmptyVec from an empty Vec".
Proof. exact c59_nonempty_ex. Qed.

(** C59: the derived [Default] instance is an empty [NonEmptyVec], which cannot be read back after
    writing. *)
Theorem c59_default_refuted :
  exists v : list string, v = ne_default /\ v = [] /\ forall w, de_ne de_str (ser_ne JStr v) <> Ok w.
Proof. exact c59_default_refuted_pf. Qed.
Print Assumptions c59_default_refuted.
