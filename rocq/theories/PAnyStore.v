(** Verifiers with any session store (C116) *)
From Coq Require Import Lia.
From Verif Require Import Base BaseFacts Json Url Request Metadata Dcql Response Session StoreFacts Client Builder Server SpecSession PfBuilder PfServer
  SpecBuilder AnyStore SpecStore.
From Verif Require Import PfAnyStore.

(** C116: whatever session store a verifier is given (one that fails, loses or invents sessions included) and however calls are
    interleaved and cancelled, each call asks of the store and of the validator exactly what its protocol says, in that order, stops early only by
    being cancelled, and returns what the protocol says. *)
Theorem c116_protocol :
  forall (url_parse : string -> option url) (S : Type) (st : session_store S) (m0 : S) (y : any_sys S) (i : nat) (c : call) (e : event),
    any_reachable url_parse S st m0 y -> In (i, (c, e)) (an_log y) ->
    exists events rest result,
      protocol url_parse c (events ++ rest) result
      /\ (events_of i (an_log y) = events \/ rest = [] /\ events_of i (an_log y) = events ++ [EvReturn result])
      /\ forall c' e', In (i, (c', e')) (an_log y) -> c' = c.
Proof. exact c116_protocol_pf. Qed.
Print Assumptions c116_protocol.

Example c116_protocol_witness : exists y s, any_reachable simple_parse _ journal [] y
  /\ In (3, (CPoll 7%N, EvGet 7%N (Err "unknown"))) (an_log y)
  /\ events_of 3 (an_log y) = [EvGet 7%N (Err "unknown"); EvReturn (Err "unknown")]
  /\ events_of 1 (an_log y) = [EvGet 7%N (Ok s); EvValidate s (Jwt "x") (OFailure "no"); EvUpdate 7%N (Complete (OFailure "no")) (Ok tt); EvReturn (Ok ANothing)].
Proof. exact c116_protocol_ex. Qed.

(** C116: a verifier with any session store that keeps sessions, lets them expire and fails as it likes behaves as one with the memory store:
    every history of it is, but for the texts of errors, a history of a verifier with the memory store in which the expired sessions were
    removed; and then the two stores hold the same sessions. *)
Theorem c116_any_store :
  forall (url_parse : string -> option url) (S : Type) (st : session_store S) (look : S -> uuid -> option session) (m0 : S) (y : any_sys S),
    faithful st look -> (forall u, look m0 u = None) -> any_reachable url_parse S st m0 y ->
    exists y', reachable url_parse y' /\ (forall u, st_get u (sy_store y') = look (an_store y) u) /\ matches (an_log y) (sy_log y')
      /\ map (fun t => fst (snd t)) (an_tasks y) = map fst (sy_tasks y').
Proof. exact c116_any_store_pf. Qed.
Print Assumptions c116_any_store.

Example c116_any_store_witness : exists y, faithful journal (fun j u => last_entry u j) /\ (forall u, last_entry u [] = None)
  /\ any_reachable simple_parse _ journal [] y /\ length (an_log y) = 10 /\ last_entry 7%N (an_store y) = None.
Proof. exact c116_any_store_ex. Qed.

(** C116: with every store that invents nothing, a poll reports an outcome only after a call received that session, had a response to it
    validated and got that outcome; a fetched request was built for that session; and a validator is only given a session that was built under
    the identifier the response came for, unchanged but for its status. *)
Theorem c116_trusted :
  forall (url_parse : string -> option url) (S : Type) (st : session_store S) (shows : S -> uuid -> session -> Prop) (m0 : S) (y : any_sys S) (u : uuid),
    invents_nothing st shows -> (forall u s, ~ shows m0 u s) -> any_reachable url_parse S st m0 y ->
    (forall i o, In (i, (CPoll u, EvReturn (Ok (AStatus (Complete o))))) (an_log y) ->
       exists k response s, In (k, (CVerify u response, EvGet u (Ok s))) (an_log y) /\ In (k, (CVerify u response, EvValidate s response o)) (an_log y))
    /\ (forall i jwt, In (i, (CRetrieve u, EvReturn (Ok (AJwt jwt)))) (an_log y) ->
       exists j c s answer, In (j, (c, EvInitiate s answer)) (an_log y) /\ builds c u /\ s_uuid s = u /\ s_jwt s = jwt)
    /\ (forall i response s given o, In (i, (CVerify u response, EvValidate s given o)) (an_log y) ->
       given = response /\ exists j c s0 answer, In (j, (c, EvInitiate s0 answer)) (an_log y) /\ builds c u /\ s_uuid s0 = u /\ same_session s0 s).
Proof. exact c116_trusted_pf. Qed.
Print Assumptions c116_trusted.

Example c116_trusted_witness : exists y jwt s, invents_nothing sloppy (fun m u s => In (u, s) m) /\ (forall (u : uuid) (s : session), ~ In (u, s) [])
  /\ any_reachable simple_parse _ sloppy [] y /\ In (2, (CPoll 7%N, EvReturn (Ok (AStatus (Complete (OFailure "no")))))) (an_log y)
  /\ In (3, (CRetrieve 7%N, EvReturn (Ok (AJwt jwt)))) (an_log y) /\ In (1, (CVerify 7%N (Jwt "x"), EvValidate s (Jwt "x") (OFailure "no"))) (an_log y)
  /\ invents_nothing journal (fun j u s => last_entry u j = Some s).
Proof. exact c116_trusted_ex. Qed.
