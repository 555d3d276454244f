(** HTTP requests to the example verifier act as if one at a time (C123) *)
From Coq Require Import Lia Sorted Permutation.
From Verif Require Import Base BaseFacts Utf8 Json JsonFacts JsonText Serde Url UrlEncoded Object Formats Params Metadata Dcql
  Request Response Session X509 Client Builder Server ExVerifier.
From Verif Require Import Spec SpecObject SpecRequest SpecBuilder SpecSession SpecServer SpecVerifierEx SpecAtomic SpecExHistory SpecExAtomic
  StoreFacts PfBuilder UuidFacts PfSession PfServer PfHistory PfFresh PfExServer PfExHistory PfAtomic.
From Verif Require Import PfExAtomic.

(** C123: whatever the interleaving of HTTP requests to the example verifier, if session ids are not shared and no request is
    marked as sent after its response was judged, the sessions are those left by the requests that took effect, each served
    alone, one after the other, in the order in which they took effect. *)
Theorem c123_sequential
  : forall (url_parse : string -> option url) (jwe_open : string -> res string) (a : adapter) (x : hsys),
    hreachable url_parse jwe_open a x -> sessions_apart (hs_log x) -> no_late_fetch (hs_log x) ->
    exists l, in_turn url_parse jwe_open a l (hs_store x) /\ map fst l = came_to_pass (hs_log x).
Proof. exact c123_sequential_pf. Qed.
Print Assumptions c123_sequential.

Example c123_sequential_witness :
  exists x, hreachable simple_parse toy_open xa x /\ sessions_apart (hs_log x) /\ no_late_fetch (hs_log x) /\ came_to_pass (hs_log x) = [xv; xr; xi].
Proof. exact c123_sequential_ex. Qed.

(** C123: and each request got the answer it gets in that sequence: unless it found the lock held and was answered with an
    error, or is answered so whatever the sessions, it took effect at a moment between its start and its answer, and its
    answer is the one it gets when served alone on the sessions that the requests before that moment leave. *)
Theorem c123_answers
  : forall (url_parse : string -> option url) (jwe_open : string -> res string) (a : adapter) (x y : hsys) (h : hreq) (r : reply)
           (newer older : list (hreq * hevent)),
    hreachable url_parse jwe_open a x -> hsteps url_parse jwe_open a x y ->
    sessions_apart (hs_log y) -> no_late_fetch (hs_log y) -> idle h x ->
    hs_log y = newer ++ (h, HReply r) :: older ++ hs_log x ->
    (contended h older /\ exists n, r = RError n)
    \/ (forall m, run false (app_validator jwe_open) (handler url_parse a h) m = (m, [], Ok r))
    \/ exists l1 e l2 q m, older = l1 ++ (h, HDoes e) :: l2 /\ comes_to_pass (h, HDoes e) = true
         /\ in_turn url_parse jwe_open a q m /\ map fst q = came_to_pass (l2 ++ hs_log x)
         /\ snd (run false (app_validator jwe_open) (handler url_parse a h) m) = Ok r.
Proof. exact c123_answers_pf. Qed.
Print Assumptions c123_answers.

Example c123_answers_witness :
  exists y newer older, hreachable simple_parse toy_open xa hs_init /\ hsteps simple_parse toy_open xa hs_init y
    /\ sessions_apart (hs_log y) /\ no_late_fetch (hs_log y) /\ idle xv hs_init
    /\ hs_log y = newer ++ (xv, HReply (RJson 200 (JObj []))) :: older ++ hs_log hs_init
    /\ In (xr, HDoes (EvUpdate 7%N SentRequest (Ok tt))) older.
Proof. exact c123_answers_ex. Qed.

(** C123: when no request was dropped and all have been answered, the requests with their answers, error answers apart of
    requests that found the lock held, can be arranged in an order in which, served alone one after the other, they get these
    very answers and leave these very sessions. *)
Theorem c123_arranged
  : forall (url_parse : string -> option url) (jwe_open : string -> res string) (a : adapter) (x : hsys),
    undropped url_parse jwe_open a x -> hs_tasks x = [] -> sessions_apart (hs_log x) -> no_late_fetch (hs_log x) ->
    exists l extra, in_turn url_parse jwe_open a l (hs_store x) /\ Permutation (replies (hs_log x)) (l ++ extra)
      /\ forall h r, In (h, r) extra -> contended h (hs_log x) /\ exists n, r = RError n.
Proof. exact c123_arranged_pf. Qed.
Print Assumptions c123_arranged.

Example c123_arranged_witness :
  exists x, undropped simple_parse toy_open xa x /\ hs_tasks x = [] /\ sessions_apart (hs_log x) /\ no_late_fetch (hs_log x)
    /\ length (replies (hs_log x)) = 3 /\ forall h, ~ contended h (hs_log x).
Proof. exact c123_arranged_ex. Qed.

(** C123: the last condition is met when no fetch of a request object is under way while a verdict on the response to it is
    recorded; so requests of wallets that answer once they have the request act as if served one at a time. *)
Theorem c123_in_time
  : forall (url_parse : string -> option url) (jwe_open : string -> res string) (a : adapter) (x : hsys),
    answered_later url_parse jwe_open a x -> sessions_apart (hs_log x) ->
    no_late_fetch (hs_log x)
    /\ exists l, in_turn url_parse jwe_open a l (hs_store x) /\ map fst l = came_to_pass (hs_log x).
Proof. exact c123_in_time_pf. Qed.
Print Assumptions c123_in_time.

Example c123_in_time_witness :
  exists x, answered_later simple_parse toy_open xa x /\ sessions_apart (hs_log x) /\ came_to_pass (hs_log x) = [xv; xr; xi].
Proof. exact c123_in_time_ex. Qed.

(** C123: the last condition is needed: when a fetch that read a session before the response was judged marks it as sent
    afterwards, no order of the three requests, served alone one after the other with these answers, leaves these sessions,
    although no request found the lock held. *)
Theorem c123_late_refuted
  : exists (url_parse : string -> option url) (jwe_open : string -> res string) (a : adapter) (x : hsys),
    undropped url_parse jwe_open a x /\ hs_tasks x = [] /\ sessions_apart (hs_log x) /\ (forall h, ~ contended h (hs_log x))
    /\ forall l, Permutation l (replies (hs_log x)) -> ~ in_turn url_parse jwe_open a l (hs_store x).
Proof. exact c123_late_refuted_pf. Qed.
Print Assumptions c123_late_refuted.
