(** Specification vocabulary: which JSON denotes which DCQL query, member by member. *)
From Coq Require Import ZArith.
From Verif Require Import Base Json Formats Dcql.

(** The members of a structure: of an object, or in order when it is given as the array of all its members. *)
Definition members_in (names : list string) (j : json) (m : obj) : Prop :=
  j = JObj m \/ exists vs, j = JArr vs /\ length vs = length names /\ m = combine names vs.

(** A required member, and an optional one: absent or null stand for none. *)
Definition required {A} (R : json -> A -> Prop) (k : string) (m : obj) (a : A) : Prop :=
  exists v, obj_get k m = Some v /\ R v a.
Definition optional {A} (R : json -> A -> Prop) (k : string) (m : obj) (o : option A) : Prop :=
  match o with
  | Some a => exists v, obj_get k m = Some v /\ v <> JNull /\ R v a
  | None => obj_get k m = None \/ obj_get k m = Some JNull
  end.

Definition is_text (j : json) (s : string) : Prop := j = JStr s.
Definition is_flag (j : json) (b : bool) : Prop := j = JBool b.
Definition is_list {A} (R : json -> A -> Prop) (j : json) (l : list A) : Prop := exists js, j = JArr js /\ Forall2 R js l.
Definition is_nonempty {A} (R : json -> A -> Prop) (j : json) (l : list A) : Prop := is_list R j l /\ l <> [].

(** Formats: the four known names, or any other name. *)
Definition known_formats : list (string * designation) :=
  [("jwt_vc_json", JwtVcJson); ("ldp_vc", LdpVc); ("mso_mdoc", MsoMDoc); ("dc+sd-jwt", DcSdJwt)].
Definition is_format (j : json) (d : designation) : Prop :=
  exists s, j = JStr s /\ (In (s, d) known_formats \/ d = OtherFormat s /\ ~ In s (map fst known_formats)).

(** Authority types: the three known names (also as the only member, with value null, of an object), or any other. *)
Definition known_authorities : list (string * authority_type) :=
  [("aki", AtAki); ("etsi_tl", AtEtsiTl); ("openid_federation", AtOpenidFederation)].
Definition is_authority (j : json) (a : authority_type) : Prop :=
  exists s, (j = JStr s \/ j = JObj [(s, JNull)]) /\ In (s, a) known_authorities
  \/ j = JStr s /\ a = AtOther s /\ ~ In s (map fst known_authorities).

(** Path elements are text, null or an index (64 bit); values are text, an integer (64 bit) or a flag. *)
Definition is_path_element (j : json) (p : path_elem) : Prop :=
  match p with
  | PeStr s => j = JStr s
  | PeNull => j = JNull
  | PeInt z => j = JInt z /\ (0 <= z < 2 ^ 64)%Z
  end.
Definition is_claim_value (j : json) (v : claim_value) : Prop :=
  match v with
  | CvStr s => j = JStr s
  | CvInt z => j = JInt z /\ (- 2 ^ 63 <= z < 2 ^ 63)%Z
  | CvBool b => j = JBool b
  end.

Definition is_claim (j : json) (c : claims_query) : Prop :=
  exists m, members_in ["id"; "path"; "values"; "intent_to_retain"] j m
    /\ optional is_text "id" m (cl_id c)
    /\ required (is_nonempty is_path_element) "path" m (cl_path c)
    /\ optional (is_nonempty is_claim_value) "values" m (cl_values c)
    /\ optional is_flag "intent_to_retain" m (cl_intent c).
Definition is_authorities (j : json) (a : authorities_query) : Prop :=
  exists m, members_in ["type"; "values"] j m
    /\ required is_authority "type" m (ta_type a)
    /\ required (is_nonempty is_text) "values" m (ta_values a).
Definition is_set (j : json) (s : set_query_) : Prop :=
  exists m, members_in ["options"; "required"] j m
    /\ required (is_nonempty (is_list is_text)) "options" m (cs_options s)
    /\ optional is_flag "required" m (cs_required s).
Definition is_credential_query (j : json) (c : cred_query) : Prop :=
  exists m, members_in ["id"; "format"; "meta"; "claims"; "claim_sets"; "trusted_authorities";
                        "require_cryptographic_holder_binding"; "multiple"] j m
    /\ required is_text "id" m (cq_id c)
    /\ required is_format "format" m (cq_format c)
    /\ (obj_get "meta" m = Some (JObj (cq_meta c)) \/ obj_get "meta" m = None /\ cq_meta c = [])
    /\ optional (is_nonempty is_claim) "claims" m (cq_claims c)
    /\ optional (is_nonempty (is_list is_text)) "claim_sets" m (cq_claim_sets c)
    /\ optional (is_nonempty is_authorities) "trusted_authorities" m (cq_auths c)
    /\ optional is_flag "require_cryptographic_holder_binding" m (cq_holder_binding c)
    /\ optional is_flag "multiple" m (cq_multiple c).
Definition is_query (j : json) (q : dcql) : Prop :=
  exists m, members_in ["credentials"; "credential_sets"] j m
    /\ required (is_nonempty is_credential_query) "credentials" m (dq_credentials q)
    /\ optional (is_nonempty is_set) "credential_sets" m (dq_sets q).
