(** Histories of concurrent calls (C88-C90) *)
From Coq Require Import Lia Permutation.
From Verif Require Import Base BaseFacts Json Url Params Request Metadata Dcql Response Session Client Builder Server.
From Verif Require Import Spec SpecObject SpecRequest SpecBuilder SpecSession SpecServer StoreFacts PfBuilder PfSession PfServer.
From Verif Require Import PfHistory.

(** C88: at any moment of any interleaving, the store holds what the operations recorded in the history so far, one
    after the other, make of an empty map, and every operation gave the result that the map gives at its place in
    the history, or found the lock held and did nothing. *)
Theorem c88_linear
  : forall (url_parse : string -> option url) (y : sys),
    reachable url_parse y ->
    (forall u, st_get u (sy_store y) = after (sy_log y) u)
    /\ forall newer c e older, sy_log y = newer ++ (c, e) :: older -> explained e (after older).
Proof. exact c88_linear_pf. Qed.
Print Assumptions c88_linear.

Example c88_linear_witness :
  exists y s, reachable simple_parse y /\ after (sy_log y) 7%N = Some s /\ s_status s = Complete (OFailure "no").
Proof. exact c88_linear_ex. Qed.

(** C88: a poll returns the status, and a retrieve the JWT, that the session had at a moment during the call, namely
    where the history records the read. *)
Theorem c88_answers
  : forall (url_parse : string -> option url) (y : sys) (u : uuid),
    reachable url_parse y ->
    (forall newer older st, sy_log y = newer ++ (CPoll u, EvReturn (Ok (AStatus st))) :: older ->
       exists between before s, older = between ++ (CPoll u, EvGet u (Ok s)) :: before
         /\ after before u = Some s /\ s_status s = st)
    /\ (forall newer older jwt, sy_log y = newer ++ (CRetrieve u, EvReturn (Ok (AJwt jwt))) :: older ->
       exists between before s, older = between ++ (CRetrieve u, EvGet u (Ok s)) :: before
         /\ after before u = Some s /\ s_jwt s = jwt).
Proof. exact c88_answers_pf. Qed.
Print Assumptions c88_answers.

Example c88_answers_witness :
  (exists y, reachable simple_parse y /\ In (CPoll 7%N, EvReturn (Ok (AStatus (Complete (OFailure "no"))))) (sy_log y))
  /\ exists y jwt, reachable simple_parse y /\ In (CRetrieve 7%N, EvReturn (Ok (AJwt jwt))) (sy_log y).
Proof. exact c88_answers_ex. Qed.

(** C89: every execution in which no new call starts ends, after at most four steps (the return included) for every
    call in flight, however the calls are interleaved and whatever they find. *)
Theorem c89_ends
  : forall (url_parse : string -> option url) (a b : sys) (n : nat),
    reachable url_parse a -> quiet url_parse a b n -> n <= 4 * length (sy_tasks a).
Proof. exact c89_ends_pf. Qed.
Print Assumptions c89_ends.

Example c89_ends_witness :
  exists a b, reachable simple_parse a /\ quiet simple_parse a b 4 /\ length (sy_tasks a) = 1 /\ sy_tasks b = [].
Proof. exact c89_ends_ex. Qed.

(** C89: no call ever waits for another: whatever state the system is in, each call in flight can take its next step,
    which leaves the others as they are. *)
Theorem c89_no_waiting
  : forall (url_parse : string -> option url) (m : store) (before after_ : list (call * prog answer)) (c : call) (p : prog answer)
    (l : list (call * event)),
    exists m' e rest, step url_parse (mk_sys m (before ++ (c, p) :: after_) l) (mk_sys m' (before ++ rest ++ after_) ((c, e) :: l))
      /\ (rest = [] /\ (exists r, e = EvReturn r) \/ exists p', rest = [(c, p')]).
Proof. exact c89_no_waiting_pf. Qed.
Print Assumptions c89_no_waiting.

(** C89: so from any state all calls in flight can return, in whichever order. *)
Theorem c89_all_return
  : forall (url_parse : string -> option url) (a : sys) (order : list call),
    Permutation order (map fst (sy_tasks a)) ->
    exists b l, steps url_parse a b /\ history a b l /\ sy_tasks b = [] /\ map fst (returned l) = order.
Proof. exact c89_all_return_pf. Qed.
Print Assumptions c89_all_return.

Example c89_all_return_witness : exists a order, reachable simple_parse a /\ order <> [] /\ Permutation order (map fst (sy_tasks a)).
Proof. exact c89_all_return_ex. Qed.

(** C90: cancelling calls, at whatever point, adds no behaviour: everything that is stored and everything that happened in an
    execution with cancelled calls is so in one in which the same calls are merely still in flight. *)
Theorem c90_cancelled
  : forall (url_parse : string -> option url) (y : sys),
    reachable url_parse y ->
    exists y' idle, uncancelled url_parse y' /\ sy_store y' = sy_store y /\ sy_log y' = sy_log y
      /\ Permutation (sy_tasks y') (sy_tasks y ++ idle).
Proof. exact c90_cancelled_pf. Qed.
Print Assumptions c90_cancelled.

Example c90_cancelled_witness :
  exists y l c, reachable simple_parse y /\ sy_log y = l /\ sy_tasks y = [] /\ In (c, EvGet 7%N (Err "session not found")) l
    /\ returned l = [].
Proof. exact c90_cancelled_ex. Qed.
