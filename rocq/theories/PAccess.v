(** What a parsed request says (C09) *)
From Verif Require Import Base BaseFacts Json Url Object Formats Params Dcql Response Request.
From Verif Require Import Spec SpecObject SpecRequest SpecDcql SpecReading PfRequest PfReading.
From Verif Require Import PfAccess.

(** C09: the other accessors of a parsed request too say what its members say: an ID token is asked for by exactly the
    response type "vp_token id_token", not asked for by exactly "vp_token", and unknown for any other; the state, the
    query and the client metadata are those of the members with these names, absent exactly when these are. *)
Theorem c09_accessors :
  forall (url_parse : string -> option url) (o : obj) (a : aro),
    aro_of_obj url_parse o = Ok a ->
    (is_id_token_requested a = Some true <-> text_at "response_type" o "vp_token id_token")
    /\ (is_id_token_requested a = Some false <-> text_at "response_type" o "vp_token")
    /\ (forall s, aro_state a = Some (Ok s) <-> text_at "state" o s)
    /\ (aro_state a = None <-> absent "state" o)
    /\ (forall q, aro_dcql a = Some (Ok q) <-> exists v, obj_get "dcql_query" o = Some v /\ is_query v q)
    /\ (aro_dcql a = None <-> absent "dcql_query" o)
    /\ (forall m, aro_client_metadata a = Ok m <-> obj_get "client_metadata" o = Some (JObj m))
    /\ (forall f, aro_vp_formats a = Ok f <-> exists m, obj_get "client_metadata" o = Some (JObj m) /\ uo_get p_vp_formats m = Some (Ok f)).
Proof. exact c09_accessors_pf. Qed.
Print Assumptions c09_accessors.

Example c09_accessors_witness :
  option_map (fun a => (is_id_token_requested a, aro_state a)) (match aro_of_obj simple_parse (obj_insert "state" (JStr "s1") (obj_insert "response_type" (JStr "vp_token id_token") sample_request)) with Ok a => Some a | Err _ => None end)
  = Some (Some true, Some (Ok "s1")).
Proof. exact c09_accessors_ex. Qed.
