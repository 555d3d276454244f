(** Small specification vocabulary used in theorem statements, independent of the model's functions:
    only data types of the model and plain lists, strings and propositions. *)
From Coq Require Import Sorting.Permutation.
From Verif Require Import Base Json Formats Params Dcql Response.

(** Values whose text is the name of a known variant are written as that variant. *)
Definition canonical_mode (m : response_mode) : Prop :=
  match m with
  | UnsupportedMode s => ~ In s ["direct_post"; "direct_post.jwt"; "dc_api"; "dc_api.jwt"]
  | _ => True
  end.
Definition canonical_type (t : response_type) : Prop :=
  match t with UnsupportedType s => ~ In s ["vp_token"; "vp_token id_token"] | _ => True end.
Definition canonical_designation (d : designation) : Prop :=
  match d with
  | OtherFormat s => ~ In s ["jwt_vc_json"; "ldp_vc"; "mso_mdoc"; "dc+sd-jwt"]
  | _ => True
  end.
(** An opaque payload does not look like one of the known ones. *)
Definition canonical_payload (p : payload) : Prop :=
  match p with
  | OtherPayload j =>
      forall l, j <> JObj [("alg_values", JArr (map JStr l))]
                /\ j <> JObj [("proof_type_values", JArr (map JStr l))]
  | _ => True
  end.
(** A formats map: distinct formats, all canonical. *)
Definition format_map_ok (m : format_map) : Prop :=
  NoDup (map fst m) /\
  Forall (fun e => canonical_designation (fst e) /\ canonical_payload (snd e)) m.

(* ------------------------------------------------------------ DCQL *)
Definition canonical_authority (a : authority_type) : Prop :=
  match a with AtOther s => ~ In s ["aki"; "etsi_tl"; "openid_federation"] | _ => True end.
Definition opt_all {A} (P : A -> Prop) (o : option A) : Prop :=
  match o with Some a => P a | None => True end.
Definition nonempty_all {A} (P : A -> Prop) (l : list A) : Prop := l <> [] /\ Forall P l.

(** Path indices are [usize], integer claim values [isize] (64 bit). *)
Definition path_elem_ok (p : path_elem) : Prop :=
  match p with PeInt z => (0 <= z <= 18446744073709551615)%Z | _ => True end.
Definition claim_value_ok (v : claim_value) : Prop :=
  match v with CvInt z => (-9223372036854775808 <= z <= 9223372036854775807)%Z | _ => True end.
Definition claims_ok (c : claims_query) : Prop :=
  nonempty_all path_elem_ok (cl_path c) /\ opt_all (nonempty_all claim_value_ok) (cl_values c).
Definition auths_ok (a : authorities_query) : Prop :=
  canonical_authority (ta_type a) /\ ta_values a <> [].
Definition set_ok (s : set_query_) : Prop := cs_options s <> [].
Definition cred_ok (c : cred_query) : Prop :=
  canonical_designation (cq_format c) /\
  opt_all (nonempty_all claims_ok) (cq_claims c) /\
  opt_all (fun l => l <> []) (cq_claim_sets c) /\
  opt_all (nonempty_all auths_ok) (cq_auths c).
(** A DCQL query as the typed API can hold it: non-empty vectors are not empty, machine integers are
    in range, and known names are not spelled as "other". *)
Definition dcql_ok (q : dcql) : Prop :=
  nonempty_all cred_ok (dq_credentials q) /\ opt_all (nonempty_all set_ok) (dq_sets q).

(* ------------------------------------------------------------ VP token *)
(** A VP token: distinct credential query ids. *)
Definition vp_ok (t : vp_token) : Prop := NoDup (map fst t).
