(** Queries and tokens made in memory (C108) *)
From Coq Require Import Lia ZArith.
From Verif Require Import Base BaseFacts Json JsonFacts Serde MapFacts Object Formats Dcql Response DcqlEdit Spec SpecEdit SpecResponse PfDcql PfResponse.
From Coq Require Import Permutation.
From Verif Require Import PfEdit.

(** C108: after any sequence of edits of a credential query each field holds what was last set for it, with the changes made
    through its reference since; edits of other fields have no effect on it. *)
Theorem c108_cred :
  forall (c : cred_query) (l : list cred_call),
    cq_id (fold_left cred_edit l c) = written (cq_id c) (cred_id_edits l)
    /\ cq_format (fold_left cred_edit l c) = written (cq_format c) (cred_format_edits l)
    /\ cq_meta (fold_left cred_edit l c) = written (cq_meta c) (cred_meta_edits l)
    /\ cq_claims (fold_left cred_edit l c) = written (cq_claims c) (cred_claims_edits l)
    /\ cq_claim_sets (fold_left cred_edit l c) = written (cq_claim_sets c) (cred_claim_sets_edits l)
    /\ cq_auths (fold_left cred_edit l c) = written (cq_auths c) (cred_trusted_authorities_edits l)
    /\ cq_holder_binding (fold_left cred_edit l c) = written (cq_holder_binding c) (cred_holder_binding_edits l)
    /\ cq_multiple (fold_left cred_edit l c) = written (cq_multiple c) (cred_multiple_edits l).
Proof. exact c108_cred_pf. Qed.
Print Assumptions c108_cred.

Example c108_cred_witness :
  fold_left cred_edit [Cred_multiple (Some true); Cred_id (SetTo "b"); Cred_meta (Change (obj_insert "k" JNull)); Cred_id (Change (fun s => s +:+ "c")); Cred_multiple None] (cred_new "a" MsoMDoc)
  = mk_cred "bc" MsoMDoc [("k", JNull)] None None None None None.
Proof. exact c108_cred_ex. Qed.

(** C108: after any sequence of edits of a trusted authorities query each field holds what was last set for it, with the changes made
    through its reference since; edits of other fields have no effect on it. *)
Theorem c108_auths :
  forall (c : authorities_query) (l : list auths_call),
    ta_type (fold_left auths_edit l c) = written (ta_type c) (auths_type_edits l)
    /\ ta_values (fold_left auths_edit l c) = written (ta_values c) (auths_values_edits l).
Proof. exact c108_auths_pf. Qed.
Print Assumptions c108_auths.

Example c108_auths_witness :
  fold_left auths_edit [Auths_values (Change (fun l => ne_push l "y")); Auths_type AtEtsiTl] (mk_auths AtAki ["x"]) = mk_auths AtEtsiTl ["x"; "y"].
Proof. exact c108_auths_ex. Qed.

(** C108: after any sequence of edits of a credential set query each field holds what was last set for it, with the changes made
    through its reference since; edits of other fields have no effect on it. *)
Theorem c108_set :
  forall (c : set_query_) (l : list set_call),
    cs_options (fold_left set_edit l c) = written (cs_options c) (set_options_edits l)
    /\ cs_required (fold_left set_edit l c) = written (cs_required c) (set_required_edits l).
Proof. exact c108_set_pf. Qed.
Print Assumptions c108_set.

Example c108_set_witness :
  fold_left set_edit [Set_required (SetTo (Some false)); Set_options (Change (fun l => ne_push l []))] (sets_new [["a"]]) = mk_set [["a"]; []] (Some false).
Proof. exact c108_set_ex. Qed.

(** C108: after any sequence of edits of a claims query each field holds what was last set for it, with the changes made
    through its reference since; edits of other fields have no effect on it. *)
Theorem c108_claim :
  forall (c : claims_query) (l : list claim_call),
    cl_id (fold_left claim_edit l c) = written (cl_id c) (claim_id_edits l)
    /\ cl_path (fold_left claim_edit l c) = written (cl_path c) (claim_path_edits l)
    /\ cl_values (fold_left claim_edit l c) = written (cl_values c) (claim_values_edits l)
    /\ cl_intent (fold_left claim_edit l c) = written (cl_intent c) (claim_intent_edits l).
Proof. exact c108_claim_pf. Qed.
Print Assumptions c108_claim.

Example c108_claim_witness :
  fold_left claim_edit [Claim_id (SetTo (Some "i")); Claim_path (Change (fun l => ne_push l PeNull)); Claim_intent (SetTo (Some true)); Claim_values (SetTo (Some [CvInt 3]))] (claims_new [PeStr "a"])
  = mk_claims (Some "i") [PeStr "a"; PeNull] (Some [CvInt 3%Z]) (Some true).
Proof. exact c108_claim_ex. Qed.

(** C108: after any sequence of edits of a query each field holds what was last set for it, with the changes made
    through its reference since; edits of other fields have no effect on it. *)
Theorem c108_query :
  forall (c : dcql) (l : list query_call),
    dq_credentials (fold_left query_edit l c) = written (dq_credentials c) (query_credentials_edits l)
    /\ dq_sets (fold_left query_edit l c) = written (dq_sets c) (query_sets_edits l).
Proof. exact c108_query_pf. Qed.
Print Assumptions c108_query.

Example c108_query_witness :
  fold_left query_edit [Query_credentials (Change (fun l => ne_push l (cred_new "b" DcSdJwt))); Query_sets (SetTo (Some [sets_new [["a"]]]))] (dcql_new [cred_new "a" MsoMDoc])
  = mk_dcql [cred_new "a" MsoMDoc; cred_new "b" DcSdJwt] (Some [sets_new [["a"]]]).
Proof. exact c108_query_ex. Qed.

(** C108: and the receiver of the query reads those values, if they are ones JSON can express. *)
Theorem c108_sent :
  forall (q : dcql) (l : list query_call),
    nonempty_all cred_ok (written (dq_credentials q) (query_credentials_edits l)) ->
    opt_all (nonempty_all set_ok) (written (dq_sets q) (query_sets_edits l)) ->
    exists q', dcql_of_json (dcql_to_json (fold_left query_edit l q)) = Ok q'
      /\ dq_credentials q' = written (dq_credentials q) (query_credentials_edits l)
      /\ dq_sets q' = written (dq_sets q) (query_sets_edits l).
Proof. exact c108_sent_pf. Qed.
Print Assumptions c108_sent.

Example c108_sent_witness :
  dcql_of_json (dcql_to_json (fold_left query_edit [Query_credentials (Change (fun l => ne_push l (cred_new "b" DcSdJwt)))] (dcql_new [cred_new "a" MsoMDoc])))
  = Ok (dcql_new [cred_new "a" MsoMDoc; cred_new "b" DcSdJwt]).
Proof. exact c108_sent_ex. Qed.

(** C108 refuted as "a query that was edited without error follows the rule that claim sets need claims": nothing prevents it and
    the receiver reads it. *)
Theorem c108_claim_sets_refuted :
  exists l : list cred_call, let c := fold_left cred_edit l (cred_new "a" DcSdJwt) in
    cq_claims c = None /\ cq_claim_sets c <> None /\ cred_of_json (cred_to_json c) = Ok c.
Proof. exact c108_claim_sets_refuted_pf. Qed.
Print Assumptions c108_claim_sets_refuted.

(** C108: a VP token made by any sequence of insertions, the first of which may be made by the constructor, holds for each
    credential query exactly what was inserted last, once. *)
Theorem c108_token :
  forall (l : list (string * list vp_item)) (t : vp_token),
    (t = fold_left (fun t e => vp_insert (fst e) (snd e) t) l vp_new
     \/ exists id v r, l = (id, v) :: r /\ t = fold_left (fun t e => vp_insert (fst e) (snd e) t) r (vp_with_credential id v)) ->
    (forall id v, vp_get id t = Some v <-> last_given id v l)
    /\ (forall id, vp_get id t = None <-> ~ In id (map fst l))
    /\ NoDup (map fst t) /\ (forall id v, In (id, v) t <-> last_given id v l)
    /\ vp_len t = length (nodup string_dec (map fst l)) /\ (vp_is_empty t = true <-> l = []).
Proof. exact c108_token_pf. Qed.
Print Assumptions c108_token.

Example c108_token_witness :
  fold_left (fun t e => vp_insert (fst e) (snd e) t) [("b", []); ("a", [VpString "y"])] (vp_with_credential "a" [VpString "x"])
  = [("a", [VpString "y"]); ("b", [])].
Proof. exact c108_token_ex. Qed.
