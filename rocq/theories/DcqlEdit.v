(** Editing DCQL queries in memory: the setters and mutable accessors of /repo/src/core/dcql_query.rs. *)
From Verif Require Import Base Json Object Formats Dcql.

(** What a caller does to one field: replace it ([set_*]) or change it through the reference that [*_mut] returns. *)
Inductive edit (A : Type) := SetTo (v : A) | Change (f : A -> A).
Arguments SetTo {A} v.
Arguments Change {A} f.

(** [cred_query]; the [set_*] and [*_mut] methods. *)
Definition cred_set_id (v : string) (c : cred_query) : cred_query :=
  mk_cred v (cq_format c) (cq_meta c) (cq_claims c) (cq_claim_sets c) (cq_auths c) (cq_holder_binding c) (cq_multiple c). (** dcql_query.rs:137-139 *)
Definition cred_id_mut (f : string -> string) (c : cred_query) : cred_query :=
  mk_cred (f (cq_id c)) (cq_format c) (cq_meta c) (cq_claims c) (cq_claim_sets c) (cq_auths c) (cq_holder_binding c) (cq_multiple c). (** dcql_query.rs:133-135 *)
Definition cred_set_format (v : designation) (c : cred_query) : cred_query :=
  mk_cred (cq_id c) v (cq_meta c) (cq_claims c) (cq_claim_sets c) (cq_auths c) (cq_holder_binding c) (cq_multiple c). (** dcql_query.rs:149-151 *)
Definition cred_format_mut (f : designation -> designation) (c : cred_query) : cred_query :=
  mk_cred (cq_id c) (f (cq_format c)) (cq_meta c) (cq_claims c) (cq_claim_sets c) (cq_auths c) (cq_holder_binding c) (cq_multiple c). (** dcql_query.rs:145-147 *)
Definition cred_set_meta (v : obj) (c : cred_query) : cred_query :=
  mk_cred (cq_id c) (cq_format c) v (cq_claims c) (cq_claim_sets c) (cq_auths c) (cq_holder_binding c) (cq_multiple c). (** dcql_query.rs:161-163 *)
Definition cred_meta_mut (f : obj -> obj) (c : cred_query) : cred_query :=
  mk_cred (cq_id c) (cq_format c) (f (cq_meta c)) (cq_claims c) (cq_claim_sets c) (cq_auths c) (cq_holder_binding c) (cq_multiple c). (** dcql_query.rs:157-159 *)
Definition cred_set_claims (v : option (list claims_query)) (c : cred_query) : cred_query :=
  mk_cred (cq_id c) (cq_format c) (cq_meta c) v (cq_claim_sets c) (cq_auths c) (cq_holder_binding c) (cq_multiple c). (** dcql_query.rs:173-175 *)
Definition cred_claims_mut (f : (option (list claims_query)) -> option (list claims_query)) (c : cred_query) : cred_query :=
  mk_cred (cq_id c) (cq_format c) (cq_meta c) (f (cq_claims c)) (cq_claim_sets c) (cq_auths c) (cq_holder_binding c) (cq_multiple c). (** dcql_query.rs:169-171 *)
Definition cred_set_claim_sets (v : option (list (list string))) (c : cred_query) : cred_query :=
  mk_cred (cq_id c) (cq_format c) (cq_meta c) (cq_claims c) v (cq_auths c) (cq_holder_binding c) (cq_multiple c). (** dcql_query.rs:185-187 *)
Definition cred_claim_sets_mut (f : (option (list (list string))) -> option (list (list string))) (c : cred_query) : cred_query :=
  mk_cred (cq_id c) (cq_format c) (cq_meta c) (cq_claims c) (f (cq_claim_sets c)) (cq_auths c) (cq_holder_binding c) (cq_multiple c). (** dcql_query.rs:181-183 *)
Definition cred_set_trusted_authorities (v : option (list authorities_query)) (c : cred_query) : cred_query :=
  mk_cred (cq_id c) (cq_format c) (cq_meta c) (cq_claims c) (cq_claim_sets c) v (cq_holder_binding c) (cq_multiple c). (** dcql_query.rs:197-202 *)
Definition cred_trusted_authorities_mut (f : (option (list authorities_query)) -> option (list authorities_query)) (c : cred_query) : cred_query :=
  mk_cred (cq_id c) (cq_format c) (cq_meta c) (cq_claims c) (cq_claim_sets c) (f (cq_auths c)) (cq_holder_binding c) (cq_multiple c). (** dcql_query.rs:193-195 *)
Definition cred_set_holder_binding (v : option bool) (c : cred_query) : cred_query :=
  mk_cred (cq_id c) (cq_format c) (cq_meta c) (cq_claims c) (cq_claim_sets c) (cq_auths c) v (cq_multiple c). (** dcql_query.rs:214-219 *)
Definition cred_set_multiple (v : option bool) (c : cred_query) : cred_query :=
  mk_cred (cq_id c) (cq_format c) (cq_meta c) (cq_claims c) (cq_claim_sets c) (cq_auths c) (cq_holder_binding c) v. (** dcql_query.rs:231-233 *)
Inductive cred_call :=
| Cred_id (e : edit string)
| Cred_format (e : edit designation)
| Cred_meta (e : edit obj)
| Cred_claims (e : edit (option (list claims_query)))
| Cred_claim_sets (e : edit (option (list (list string))))
| Cred_trusted_authorities (e : edit (option (list authorities_query)))
| Cred_holder_binding (v : option bool)
| Cred_multiple (v : option bool).
Definition cred_edit (c : cred_query) (e : cred_call) : cred_query :=
  match e with
  | Cred_id (SetTo v) => cred_set_id v c
  | Cred_id (Change f) => cred_id_mut f c
  | Cred_format (SetTo v) => cred_set_format v c
  | Cred_format (Change f) => cred_format_mut f c
  | Cred_meta (SetTo v) => cred_set_meta v c
  | Cred_meta (Change f) => cred_meta_mut f c
  | Cred_claims (SetTo v) => cred_set_claims v c
  | Cred_claims (Change f) => cred_claims_mut f c
  | Cred_claim_sets (SetTo v) => cred_set_claim_sets v c
  | Cred_claim_sets (Change f) => cred_claim_sets_mut f c
  | Cred_trusted_authorities (SetTo v) => cred_set_trusted_authorities v c
  | Cred_trusted_authorities (Change f) => cred_trusted_authorities_mut f c
  | Cred_holder_binding v => cred_set_holder_binding v c
  | Cred_multiple v => cred_set_multiple v c
  end.

(** [authorities_query]; the [set_*] and [*_mut] methods. *)
Definition auths_set_type (v : authority_type) (c : authorities_query) : authorities_query :=
  mk_auths v (ta_values c). (** dcql_query.rs:264-266 *)
Definition auths_set_values (v : list string) (c : authorities_query) : authorities_query :=
  mk_auths (ta_type c) v. (** dcql_query.rs:276-278 *)
Definition auths_values_mut (f : (list string) -> list string) (c : authorities_query) : authorities_query :=
  mk_auths (ta_type c) (f (ta_values c)). (** dcql_query.rs:272-274 *)
Inductive auths_call :=
| Auths_type (v : authority_type)
| Auths_values (e : edit (list string)).
Definition auths_edit (c : authorities_query) (e : auths_call) : authorities_query :=
  match e with
  | Auths_type v => auths_set_type v c
  | Auths_values (SetTo v) => auths_set_values v c
  | Auths_values (Change f) => auths_values_mut f c
  end.

(** [set_query_]; the [set_*] and [*_mut] methods. *)
Definition set_set_options (v : list (list string)) (c : set_query_) : set_query_ :=
  mk_set v (cs_required c). (** dcql_query.rs:327-329 *)
Definition set_options_mut (f : (list (list string)) -> list (list string)) (c : set_query_) : set_query_ :=
  mk_set (f (cs_options c)) (cs_required c). (** dcql_query.rs:323-325 *)
Definition set_set_required (v : option bool) (c : set_query_) : set_query_ :=
  mk_set (cs_options c) v. (** dcql_query.rs:346-348 *)
Definition set_required_mut (f : (option bool) -> option bool) (c : set_query_) : set_query_ :=
  mk_set (cs_options c) (f (cs_required c)). (** dcql_query.rs:342-344 *)
Inductive set_call :=
| Set_options (e : edit (list (list string)))
| Set_required (e : edit (option bool)).
Definition set_edit (c : set_query_) (e : set_call) : set_query_ :=
  match e with
  | Set_options (SetTo v) => set_set_options v c
  | Set_options (Change f) => set_options_mut f c
  | Set_required (SetTo v) => set_set_required v c
  | Set_required (Change f) => set_required_mut f c
  end.

(** [claims_query]; the [set_*] and [*_mut] methods. *)
Definition claim_set_id (v : option string) (c : claims_query) : claims_query :=
  mk_claims v (cl_path c) (cl_values c) (cl_intent c). (** dcql_query.rs:390-392 *)
Definition claim_id_mut (f : (option string) -> option string) (c : claims_query) : claims_query :=
  mk_claims (f (cl_id c)) (cl_path c) (cl_values c) (cl_intent c). (** dcql_query.rs:386-388 *)
Definition claim_set_path (v : list path_elem) (c : claims_query) : claims_query :=
  mk_claims (cl_id c) v (cl_values c) (cl_intent c). (** dcql_query.rs:402-404 *)
Definition claim_path_mut (f : (list path_elem) -> list path_elem) (c : claims_query) : claims_query :=
  mk_claims (cl_id c) (f (cl_path c)) (cl_values c) (cl_intent c). (** dcql_query.rs:398-400 *)
Definition claim_set_values (v : option (list claim_value)) (c : claims_query) : claims_query :=
  mk_claims (cl_id c) (cl_path c) v (cl_intent c). (** dcql_query.rs:414-416 *)
Definition claim_values_mut (f : (option (list claim_value)) -> option (list claim_value)) (c : claims_query) : claims_query :=
  mk_claims (cl_id c) (cl_path c) (f (cl_values c)) (cl_intent c). (** dcql_query.rs:410-412 *)
Definition claim_set_intent (v : option bool) (c : claims_query) : claims_query :=
  mk_claims (cl_id c) (cl_path c) (cl_values c) v. (** dcql_query.rs:426-428 *)
Definition claim_intent_mut (f : (option bool) -> option bool) (c : claims_query) : claims_query :=
  mk_claims (cl_id c) (cl_path c) (cl_values c) (f (cl_intent c)). (** dcql_query.rs:422-424 *)
Inductive claim_call :=
| Claim_id (e : edit (option string))
| Claim_path (e : edit (list path_elem))
| Claim_values (e : edit (option (list claim_value)))
| Claim_intent (e : edit (option bool)).
Definition claim_edit (c : claims_query) (e : claim_call) : claims_query :=
  match e with
  | Claim_id (SetTo v) => claim_set_id v c
  | Claim_id (Change f) => claim_id_mut f c
  | Claim_path (SetTo v) => claim_set_path v c
  | Claim_path (Change f) => claim_path_mut f c
  | Claim_values (SetTo v) => claim_set_values v c
  | Claim_values (Change f) => claim_values_mut f c
  | Claim_intent (SetTo v) => claim_set_intent v c
  | Claim_intent (Change f) => claim_intent_mut f c
  end.

(** [dcql]; the [set_*] and [*_mut] methods. *)
Definition query_set_credentials (v : list cred_query) (c : dcql) : dcql :=
  mk_dcql v (dq_sets c). (** dcql_query.rs:47-49 *)
Definition query_credentials_mut (f : (list cred_query) -> list cred_query) (c : dcql) : dcql :=
  mk_dcql (f (dq_credentials c)) (dq_sets c). (** dcql_query.rs:43-45 *)
Definition query_set_sets (v : option (list set_query_)) (c : dcql) : dcql :=
  mk_dcql (dq_credentials c) v. (** dcql_query.rs:24-29 *)
Definition query_sets_mut (f : (option (list set_query_)) -> option (list set_query_)) (c : dcql) : dcql :=
  mk_dcql (dq_credentials c) (f (dq_sets c)). (** dcql_query.rs:35-37 *)
Inductive query_call :=
| Query_credentials (e : edit (list cred_query))
| Query_sets (e : edit (option (list set_query_))).
Definition query_edit (c : dcql) (e : query_call) : dcql :=
  match e with
  | Query_credentials (SetTo v) => query_set_credentials v c
  | Query_credentials (Change f) => query_credentials_mut f c
  | Query_sets (SetTo v) => query_set_sets v c
  | Query_sets (Change f) => query_sets_mut f c
  end.
