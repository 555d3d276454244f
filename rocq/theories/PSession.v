(** Sessions (C34, C35, C40, C41) *)
From Coq Require Import Lia.
From Verif Require Import Base BaseFacts Json Url Params Request Metadata Dcql Response Session Client Builder Server.
From Verif Require Import Spec SpecObject SpecRequest SpecBuilder SpecSession StoreFacts PfBuilder.
From Verif Require Import PfSession.

(** C41: statuses are compared by their rank; equality of statuses is equality of ranks, so it ignores what
    an outcome carries. *)
Theorem c41_rank :
  forall a b : status,
    status_cmp a b = Some (N.compare (rank a) (rank b))
    /\ status_eqb a b = N.eqb (rank a) (rank b)
    /\ status_lt a b = N.ltb (rank a) (rank b).
Proof. exact c41_rank_pf. Qed.
Print Assumptions c41_rank.

Example c41_rank_witness :
  status_lt (Complete (OFailure "x")) (Complete (OSuccess JNull)) = true
  /\ status_eqb (Complete (OError "x")) (Complete (OError "y")) = true
  /\ status_lt ReceivedResponse (Complete (OError "x")) = true.
Proof. exact c41_rank_ex. Qed.

(** C41: the order is irreflexive, transitive, total and consistent with equality, and equality is an equivalence. *)
Theorem c41_laws :
  forall a b c : status,
    status_lt a a = false
    /\ (status_lt a b = true -> status_lt b c = true -> status_lt a c = true)
    /\ (status_lt a b = true \/ status_eqb a b = true \/ status_lt b a = true)
    /\ (status_lt a b = true -> status_eqb a b = false /\ status_lt b a = false)
    /\ (status_cmp a b = Some Eq <-> status_eqb a b = true)
    /\ status_eqb a a = true /\ status_eqb a b = status_eqb b a
    /\ (status_eqb a b = true -> status_eqb b c = true -> status_eqb a c = true)
    /\ (status_eqb a b = true -> status_lt a c = status_lt b c /\ status_lt c a = status_lt c b).
Proof. exact c41_laws_pf. Qed.
Print Assumptions c41_laws.

Example c41_laws_witness :
  status_lt SentRequestByReference SentRequest = true /\ status_lt SentRequest ReceivedResponse = true.
Proof. exact c41_laws_ex. Qed.

(** C34: any sequence of store operations gives the results, and leaves the content, that a map from session ids
    gives. *)
Theorem c34_map :
  forall os : list op,
    snd (apply_ops os []) = snd (apply_abss os aempty)
    /\ forall u, st_get u (fst (apply_ops os [])) = fst (apply_abss os aempty) u.
Proof. exact c34_map_pf. Qed.
Print Assumptions c34_map.

Example c34_map_witness :
  snd (apply_ops [OpInitiate (toy_session 3%N); OpInitiate (toy_session 1%N); OpUpdate 2%N SentRequest; OpUpdate 3%N SentRequest; OpRemove 1%N; OpGet 1%N; OpGet 3%N] [])
  = [RNone (Ok tt); RNone (Ok tt); RNone (Err "session not found"); RNone (Ok tt); RNone (Ok tt);
     RSession (Err "session not found"); RSession (Ok (mk_session 3%N SentRequest "h.p.s" toy_aro toy_query))].
Proof. exact c34_map_ex. Qed.

(** C34: an operation that finds the lock held is an error and changes nothing. *)
Theorem c34_contended :
  forall (s : session) (u : uuid) (st : status) (m : store),
    initiate true s m = (m, Err "try_lock") /\ update_status true u st m = (m, Err "try_lock")
    /\ get_session true u m = Err "try_lock" /\ remove_session true u m = (m, Err "try_lock").
Proof. exact c34_contended_pf. Qed.
Print Assumptions c34_contended.

(** C35: retrieving returns the JWT stored for the session and an error for an unknown session; it changes
    nothing but the status of a session not yet sent, which becomes sent. *)
Theorem c35_retrieve :
  forall (u : uuid) (m : store),
    match st_get u m with
    | None => exists e, retrieve u m = (m, Err e)
    | Some s =>
        exists m', retrieve u m = (m', Ok (s_jwt s))
        /\ (forall u', u' <> u -> st_get u' m' = st_get u' m)
        /\ exists s', st_get u m' = Some s' /\ same_request s s'
           /\ s_status s' = match s_status s with SentRequestByReference => SentRequest | st => st end
           /\ (progress (s_status s) <= progress (s_status s'))%N
    end.
Proof. exact c35_retrieve_pf. Qed.
Print Assumptions c35_retrieve.

Example c35_retrieve_witness :
  retrieve 3%N [(3%N, toy_session 3%N)] = ([(3%N, set_status (toy_session 3%N) SentRequest)], Ok "h.p.s").
Proof. exact c35_retrieve_ex. Qed.

(** C35: retrieving again returns the same and changes nothing more. *)
Theorem c35_idempotent :
  forall (u : uuid) (m m' : store) (jwt : string),
    retrieve u m = (m', Ok jwt) -> exists m'', retrieve u m' = (m'', Ok jwt) /\ forall u', st_get u' m'' = st_get u' m'.
Proof. exact c35_idempotent_pf. Qed.
Print Assumptions c35_idempotent.

Example c35_idempotent_witness :
  retrieve 3%N (fst (retrieve 3%N [(3%N, toy_session 3%N)])) = (fst (retrieve 3%N [(3%N, toy_session 3%N)]), Ok "h.p.s").
Proof. exact c35_idempotent_ex. Qed.

(** C40: a response for an unknown session is an error and no validator runs; otherwise the validator is called
    once, with the stored session and the response, and its outcome is the new status, whatever the status was;
    nothing else changes. *)
Theorem c40_verify_response :
  forall (u : uuid) (r : auth_response) (validator : session -> auth_response -> outcome) (m : store),
    match st_get u m with
    | None => exists e, verify_response u r validator m = (m, [], Err e)
    | Some s =>
        exists m', verify_response u r validator m = (m', [(s, r)], Ok tt)
        /\ (forall u', u' <> u -> st_get u' m' = st_get u' m)
        /\ exists s', st_get u m' = Some s' /\ same_request s s' /\ s_status s' = Complete (validator s r)
    end.
Proof. exact c40_verify_response_pf. Qed.
Print Assumptions c40_verify_response.

Example c40_verify_response_witness :
  verify_response 3%N (Jwt "j") (fun s r => OFailure (s_jwt s)) [(3%N, set_status (toy_session 3%N) (Complete (OSuccess JNull)))]
  = ([(3%N, set_status (toy_session 3%N) (Complete (OFailure "h.p.s")))], [(set_status (toy_session 3%N) (Complete (OSuccess JNull)), Jwt "j")], Ok tt).
Proof. exact c40_verify_response_ex. Qed.

(** C40: polling returns the stored status and changes nothing. *)
Theorem c40_poll :
  forall (u : uuid) (m : store),
    poll_status u m = (m, match st_get u m with Some s => Ok (s_status s) | None => Err "session not found" end).
Proof. exact c40_poll_pf. Qed.
Print Assumptions c40_poll.

Example c40_poll_witness : poll_status 3%N [(3%N, toy_session 3%N)] = ([(3%N, toy_session 3%N)], Ok SentRequestByReference).
Proof. exact c40_poll_ex. Qed.
