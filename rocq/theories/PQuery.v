(** Reading DCQL queries (C87) *)
From Coq Require Import Lia ZArith.
From Verif Require Import Base BaseFacts Json JsonFacts Serde MapFacts Object Formats Params Dcql Spec SpecObject ParamFacts PfDcql SpecDcql.
From Verif Require Import PfQuery.

(** C87: a JSON value is read as a DCQL query exactly when it is one, member by member, and then as that query; unknown
    members are ignored. *)
Theorem c87_query
  : forall (j : json) (q : dcql), dcql_of_json j = Ok q <-> is_query j q.
Proof. exact c87_query_pf. Qed.
Print Assumptions c87_query.

Example c87_query_witness :
  dcql_of_json (JObj [("credentials", JArr [JObj [("format", JStr "mso_mdoc"); ("id", JStr "a"); ("x", JNull)]]);
                      ("credential_sets", JArr [JArr [JArr [JArr [JStr "a"]]; JNull]])])
  = Ok (mk_dcql [cred_new "a" MsoMDoc] (Some [mk_set [["a"]] None]))
  /\ is_ok (dcql_of_json (JObj [("credentials", JArr [JObj [("format", JStr "mso_mdoc"); ("id", JStr "a"); ("meta", JNull)]])])) = false
  /\ is_ok (dcql_of_json (JObj [("credentials", JArr [JObj [("format", JStr "mso_mdoc"); ("id", JStr "a"); ("claims", JArr [])]])])) = false.
Proof. exact c87_query_ex. Qed.
