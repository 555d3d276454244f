(** Concurrent sessions (C36-C40) *)
From Coq Require Import Lia.
From Verif Require Import Base BaseFacts Json Url Params Request Metadata Dcql Response Session Client Builder Server.
From Verif Require Import Spec SpecObject SpecRequest SpecBuilder SpecSession StoreFacts PfBuilder PfSession.
From Verif Require Import PfServer.

(** C40: a call that runs without interference is an execution of the concurrent system, with the same result,
    store and validator calls; so the properties of interleavings hold for it too. *)
Theorem c40_alone :
  forall (url_parse : string -> option url) (contended : bool) (validator : session -> auth_response -> outcome)
    (c : call) (m m' : store) (ts : list (call * prog answer)) (l : list (call * event))
    (calls : list (session * auth_response)) (x : res answer),
    run contended validator (code url_parse c) m = (m', calls, x) ->
    exists evs,
      steps url_parse (mk_sys m ts l) (mk_sys m' ts ((c, EvReturn x) :: evs ++ l))
      /\ validator_calls evs = calls /\ (forall e, In e evs -> fst e = c)
      /\ (forall s r o, In (c, EvValidate s r o) evs -> o = validator s r).
Proof. exact c40_alone_pf. Qed.
Print Assumptions c40_alone.

Example c40_alone_witness :
  run false (fun _ _ => OFailure "no") (code simple_parse (CVerify 3%N (Jwt "j"))) [(3%N, toy_session 3%N)]
  = ([(3%N, set_status (toy_session 3%N) (Complete (OFailure "no")))], [(toy_session 3%N, Jwt "j")], Ok ANothing).
Proof. exact c40_alone_ex. Qed.

(** C36: in any interleaving, a step that changes what is stored for a session is an action of a call about that
    session. *)
Theorem c36_isolated :
  forall (url_parse : string -> option url) (a b : sys) (u : uuid),
    reachable url_parse a -> step url_parse a b ->
    st_get u (sy_store b) = st_get u (sy_store a)
    \/ exists c e, sy_log b = (c, e) :: sy_log a /\ target c = u.
Proof. exact c36_isolated_pf. Qed.
Print Assumptions c36_isolated.

Example c36_isolated_witness :
  exists y s, reachable simple_parse y /\ st_get 7%N (sy_store y) = Some s /\ sy_log y <> [].
Proof. exact c36_isolated_ex. Qed.

(** C36: what happens around a session is what could have happened had no other session existed: leaving out all
    other sessions, the calls about them and their history from a reachable state gives a reachable state. *)
Theorem c36_projection :
  forall (url_parse : string -> option url) (y : sys) (u : uuid),
    reachable url_parse y -> reachable url_parse (only_session u y).
Proof. exact c36_projection_pf. Qed.
Print Assumptions c36_projection.

Example c36_projection_witness :
  exists y, reachable simple_parse y /\ sy_store (only_session 7%N y) <> [] /\ only_session 8%N y = sys_init.
Proof. exact c36_projection_ex. Qed.

(** C37: as long as a session is neither removed nor created again, it stays in the store with the request object,
    JWT and query it has. *)
Theorem c37_immutable :
  forall (url_parse : string -> option url) (a b : sys) (l : list (call * event)) (u : uuid) (s : session),
    reachable url_parse a -> steps url_parse a b -> history a b l ->
    ~ removes u l -> (forall s1, ~ creates u s1 l) ->
    st_get u (sy_store a) = Some s ->
    exists s', st_get u (sy_store b) = Some s' /\ same_request s s'.
Proof. exact c37_immutable_pf. Qed.
Print Assumptions c37_immutable.

Example c37_immutable_witness :
  exists a b l s, reachable simple_parse a /\ steps simple_parse a b /\ history a b l /\ length l = 3
    /\ ~ removes 7%N l /\ (forall s1, ~ creates 7%N s1 l) /\ st_get 7%N (sy_store a) = Some s.
Proof. exact c37_immutable_ex. Qed.

(** C37: what is stored, and the JWT that a retrieve returns, is what some build created for that session id. *)
Theorem c37_retrieved :
  forall (url_parse : string -> option url) (y : sys) (u : uuid),
    reachable url_parse y ->
    (forall s, st_get u (sy_store y) = Some s -> exists s1, creates u s1 (sy_log y) /\ same_request s1 s)
    /\ (forall jwt, In (CRetrieve u, EvReturn (Ok (AJwt jwt))) (sy_log y) ->
        exists s1, creates u s1 (sy_log y) /\ s_jwt s1 = jwt).
Proof. exact c37_retrieved_pf. Qed.
Print Assumptions c37_retrieved.

Example c37_retrieved_witness :
  exists y jwt, reachable simple_parse y /\ In (CRetrieve 7%N, EvReturn (Ok (AJwt jwt))) (sy_log y).
Proof. exact c37_retrieved_ex. Qed.

(** C39: a session is complete with an outcome only after a response for it was validated with that outcome, for
    the session as read from the store; if the session id is not reused for another request, that is the request
    the session holds. *)
Theorem c39_outcome :
  forall (url_parse : string -> option url) (y : sys) (u : uuid) (s : session) (o : outcome),
    reachable url_parse y -> st_get u (sy_store y) = Some s -> s_status s = Complete o ->
    exists newer older r s0,
      sy_log y = newer ++ (CVerify u r, EvUpdate u (Complete o) (Ok tt)) :: older
      /\ validated u o s0 r older
      /\ ((forall s1 s2, creates u s1 (sy_log y) -> creates u s2 (sy_log y) -> same_request s1 s2) -> same_request s0 s).
Proof. exact c39_outcome_pf. Qed.
Print Assumptions c39_outcome.

Example c39_outcome_witness :
  exists y s, reachable simple_parse y /\ st_get 7%N (sy_store y) = Some s /\ s_status s = Complete (OFailure "no").
Proof. exact c39_outcome_ex. Qed.

(** C39: so does a poll that reports an outcome. *)
Theorem c39_polled :
  forall (url_parse : string -> option url) (y : sys) (u : uuid) (o : outcome),
    reachable url_parse y -> In (CPoll u, EvReturn (Ok (AStatus (Complete o)))) (sy_log y) ->
    exists r s0, validated u o s0 r (sy_log y).
Proof. exact c39_polled_pf. Qed.
Print Assumptions c39_polled.

Example c39_polled_witness :
  exists y, reachable simple_parse y /\ In (CPoll 7%N, EvReturn (Ok (AStatus (Complete (OFailure "no"))))) (sy_log y).
Proof. exact c39_polled_ex. Qed.

(** C38: a retrieve that overlaps with a response for the same session can put the session back from complete to
    sent, and nothing else is done meanwhile. *)
Theorem c38_race_refuted :
  exists (url_parse : string -> option url) (u : uuid) (o : outcome) (a b : sys) (s s' : session) (l : list (call * event)),
    reachable url_parse a /\ steps url_parse a b /\ history a b l
    /\ st_get u (sy_store a) = Some s /\ s_status s = Complete o
    /\ st_get u (sy_store b) = Some s' /\ s_status s' = SentRequest
    /\ l = [(CRetrieve u, EvUpdate u SentRequest (Ok tt))].
Proof. exact c38_race_refuted_pf. Qed.
Print Assumptions c38_race_refuted.

(** C38: this is the only way in which a session goes backwards: a step that lowers the progress of a session is
    either a new build under the same id or the update of a retrieve that had read the session before it was sent. *)
Theorem c38_only_race :
  forall (url_parse : string -> option url) (a b : sys) (u : uuid) (s s' : session),
    reachable url_parse a -> step url_parse a b ->
    st_get u (sy_store a) = Some s -> st_get u (sy_store b) = Some s' ->
    (progress (s_status s') < progress (s_status s))%N ->
    (exists c, sy_log b = (c, EvInitiate s' (Ok tt)) :: sy_log a)
    \/ sy_log b = (CRetrieve u, EvUpdate u SentRequest (Ok tt)) :: sy_log a
       /\ s_status s' = SentRequest
       /\ exists s0, In (CRetrieve u, EvGet u (Ok s0)) (sy_log a) /\ s_status s0 = SentRequestByReference.
Proof. exact c38_only_race_pf. Qed.
Print Assumptions c38_only_race.

Example c38_only_race_witness :
  exists a b s s', reachable simple_parse a /\ step simple_parse a b /\ st_get 7%N (sy_store a) = Some s /\ st_get 7%N (sy_store b) = Some s'
    /\ (progress (s_status s') < progress (s_status s))%N.
Proof. exact c38_only_race_ex. Qed.

(** C38: so sessions whose request is conveyed by value, and never created again otherwise, only make progress. *)
Theorem c38_by_value :
  forall (url_parse : string -> option url) (a b : sys) (u : uuid) (s s' : session) (l : list (call * event)),
    reachable url_parse a -> steps url_parse a b -> history a b l ->
    (forall s1, creates u s1 (sy_log a) -> s_status s1 = SentRequest) ->
    (forall s1, ~ creates u s1 l) -> ~ removes u l ->
    st_get u (sy_store a) = Some s -> st_get u (sy_store b) = Some s' ->
    (progress (s_status s) <= progress (s_status s'))%N.
Proof. exact c38_by_value_pf. Qed.
Print Assumptions c38_by_value.

Example c38_by_value_witness :
  exists a s, reachable simple_parse a /\ st_get 7%N (sy_store a) = Some s /\ s_status s = SentRequest
    /\ (forall s1, creates 7%N s1 (sy_log a) -> s_status s1 = SentRequest).
Proof. exact c38_by_value_ex. Qed.
