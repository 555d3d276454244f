(** Calls act as if one at a time (C122) *)
From Coq Require Import Lia Sorted Permutation.
From Verif Require Import Base BaseFacts Json Url Request Metadata Dcql Response Session Client Builder Server.
From Verif Require Import Spec SpecObject SpecRequest SpecBuilder SpecSession SpecServer SpecAtomic StoreFacts PfBuilder PfSession PfServer PfHistory.
From Verif Require Import PfAtomic.

(** C122: whatever the interleaving, if ids are not shared, the validator does not depend on the status of the session and no
    request is marked as sent after its response was judged, the store is the one left by the calls that took effect, each
    executed alone, one after the other, in the order in which they took effect. *)
Theorem c122_sequential
  : forall (url_parse : string -> option url) (v : session -> auth_response -> outcome) (y : sys),
    reachable url_parse y -> judged_by v (sy_log y) -> ids_apart (sy_log y) -> no_late_mark (sy_log y) ->
    exists l, one_by_one url_parse v l (sy_store y) /\ map fst l = in_effect (sy_log y).
Proof. exact c122_sequential_pf. Qed.
Print Assumptions c122_sequential.

Example c122_sequential_witness :
  exists y, reachable simple_parse y /\ judged_by always_yes (sy_log y) /\ ids_apart (sy_log y) /\ no_late_mark (sy_log y)
    /\ in_effect (sy_log y) = [ocv; ocr; ob].
Proof. exact c122_sequential_ex. Qed.

(** C122: and each call gave the answer it gives in that sequence: unless it found the lock held, or fails whatever the store,
    it took effect at a moment between its start and its return, and its answer is the one it gives when executed alone on
    the store that the calls before that moment leave. *)
Theorem c122_answers
  : forall (url_parse : string -> option url) (v : session -> auth_response -> outcome) (a b : sys) (c : call) (x : res answer)
           (newer older : list (call * event)),
    reachable url_parse a -> steps url_parse a b ->
    judged_by v (sy_log b) -> ids_apart (sy_log b) -> no_late_mark (sy_log b) ->
    (forall p, ~ In (c, p) (sy_tasks a)) ->
    sy_log b = newer ++ (c, EvReturn x) :: older ++ sy_log a ->
    x = Err "try_lock"
    \/ (forall m, run false v (code url_parse c) m = (m, [], x))
    \/ exists l1 e l2 q m, older = l1 ++ (c, e) :: l2 /\ takes_effect (c, e) = true
         /\ one_by_one url_parse v q m /\ map fst q = in_effect (l2 ++ sy_log a) /\ snd (run false v (code url_parse c) m) = x.
Proof. exact c122_answers_pf. Qed.
Print Assumptions c122_answers.

Example c122_answers_witness :
  exists b newer older, reachable simple_parse sys_init /\ steps simple_parse sys_init b
    /\ judged_by always_yes (sy_log b) /\ ids_apart (sy_log b) /\ no_late_mark (sy_log b)
    /\ (forall p, ~ In (ocv, p) (sy_tasks sys_init))
    /\ sy_log b = newer ++ (ocv, EvReturn (Ok ANothing)) :: older ++ sy_log sys_init
    /\ In (ocr, EvUpdate 7%N SentRequest (Ok tt)) older.
Proof. exact c122_answers_ex. Qed.

(** C122: when no call was cancelled and all have returned, the calls with their answers, those apart that found the lock held,
    can be arranged in an order in which, executed alone one after the other, they give these very answers and leave this very
    store. *)
Theorem c122_arranged
  : forall (url_parse : string -> option url) (v : session -> auth_response -> outcome) (y : sys),
    uncancelled url_parse y -> sy_tasks y = [] ->
    judged_by v (sy_log y) -> ids_apart (sy_log y) -> no_late_mark (sy_log y) ->
    exists l, one_by_one url_parse v l (sy_store y) /\ Permutation l (filter uncontended (returned (sy_log y))).
Proof. exact c122_arranged_pf. Qed.
Print Assumptions c122_arranged.

Example c122_arranged_witness :
  exists y, uncancelled simple_parse y /\ sy_tasks y = [] /\ judged_by always_yes (sy_log y) /\ ids_apart (sy_log y) /\ no_late_mark (sy_log y)
    /\ length (filter uncontended (returned (sy_log y))) = 3.
Proof. exact c122_arranged_ex. Qed.

(** C122: the last condition is met when no retrieval of a request is under way while a verdict on its response is recorded; so
    calls by wallets that answer once they have the request act as if executed one at a time. *)
Theorem c122_in_time
  : forall (url_parse : string -> option url) (v : session -> auth_response -> outcome) (y : sys),
    fetched_first url_parse y -> judged_by v (sy_log y) -> ids_apart (sy_log y) ->
    no_late_mark (sy_log y)
    /\ exists l, one_by_one url_parse v l (sy_store y) /\ map fst l = in_effect (sy_log y).
Proof. exact c122_in_time_pf. Qed.
Print Assumptions c122_in_time.

Example c122_in_time_witness :
  exists y, fetched_first simple_parse y /\ judged_by always_yes (sy_log y) /\ ids_apart (sy_log y) /\ in_effect (sy_log y) = [ocv; ocr; ob].
Proof. exact c122_in_time_ex. Qed.

(** C122: the last condition is needed: when a retrieval that read a session before the response was judged marks it as sent
    afterwards, no order of the three calls, executed alone one after the other with these answers, leaves this store. *)
Theorem c122_late_refuted
  : exists (url_parse : string -> option url) (v : session -> auth_response -> outcome) (y : sys),
    uncancelled url_parse y /\ sy_tasks y = [] /\ judged_by v (sy_log y) /\ ids_apart (sy_log y)
    /\ forall l, Permutation l (filter uncontended (returned (sy_log y))) -> ~ one_by_one url_parse v l (sy_store y).
Proof. exact c122_late_refuted_pf. Qed.
Print Assumptions c122_late_refuted.
