(** With any session store that keeps sessions, concurrent calls act as if executed one at a time (C125) *)
From Coq Require Import Lia Sorted.
From Verif Require Import Base BaseFacts Json Url Request Metadata Dcql Response Session StoreFacts Client Builder Server AnyStore.
From Verif Require Import SpecSession SpecServer SpecBuilder SpecStore SpecAtomic SpecAnyAtomic PfBuilder PfSession PfServer PfHistory PfAtomic PfAnyStore.
From Verif Require Import PfAnyAtomic.

(** C125: whatever the interleaving, with any session store that keeps sessions, lets them expire and fails as it likes: if ids are
    not shared, the validator does not depend on the status of the session and no session is marked as sent after its verdict was
    recorded, the sessions held are those left by the calls that took effect, each executed alone on the memory store, one after
    the other, in the order in which they took effect, with removals for the sessions that expired. *)
Theorem c125_sequential
  : forall (url_parse : string -> option url) (v : session -> auth_response -> outcome) (S : Type) (st : session_store S)
           (look : S -> uuid -> option session) (m0 : S) (y : any_sys S),
    faithful st look -> (forall u, look m0 u = None) -> any_reachable url_parse S st m0 y ->
    judged_by v (map snd (an_log y)) -> ids_apart (map snd (an_log y)) -> marked_in_time (an_log y) ->
    exists l m, one_by_one url_parse v l m /\ with_expiries (carried_out (an_log y)) (map fst l)
      /\ forall u, st_get u m = look (an_store y) u.
Proof. exact c125_sequential_pf. Qed.
Print Assumptions c125_sequential.

Example c125_sequential_witness :
  exists y, faithful journal (fun j u => last_entry u j) /\ (forall u, last_entry u [] = None)
    /\ any_reachable simple_parse _ journal [] y
    /\ judged_by never (map snd (an_log y)) /\ ids_apart (map snd (an_log y)) /\ marked_in_time (an_log y)
    /\ carried_out (an_log y) = [CPoll 7%N; CVerify 7%N (Jwt "x"); toy_build true] /\ last_entry 7%N (an_store y) = None.
Proof. exact c125_sequential_ex. Qed.

(** C125: when sessions do not expire, they are those left by exactly the calls that took effect, in that order. *)
Theorem c125_lasting
  : forall (url_parse : string -> option url) (v : session -> auth_response -> outcome) (S : Type) (st : session_store S)
           (look : S -> uuid -> option session) (m0 : S) (y : any_sys S),
    faithful st look -> (forall m m', ss_other st m m' -> unchanged look m m') ->
    (forall u, look m0 u = None) -> any_reachable url_parse S st m0 y ->
    judged_by v (map snd (an_log y)) -> ids_apart (map snd (an_log y)) -> marked_in_time (an_log y) ->
    exists l m, one_by_one url_parse v l m /\ map fst l = carried_out (an_log y)
      /\ forall u, st_get u m = look (an_store y) u.
Proof. exact c125_lasting_pf. Qed.
Print Assumptions c125_lasting.

Example c125_lasting_witness :
  exists y, faithful lasting (fun j u => last_entry u j)
    /\ (forall m m', ss_other lasting m m' -> unchanged (fun j u => last_entry u j) m m') /\ (forall u, last_entry u [] = None)
    /\ any_reachable simple_parse _ lasting [] y
    /\ judged_by never (map snd (an_log y)) /\ ids_apart (map snd (an_log y)) /\ marked_in_time (an_log y)
    /\ carried_out (an_log y) = [CPoll 7%N; toy_build true].
Proof. exact c125_lasting_ex. Qed.

(** C125: and a call that succeeded took effect at a moment between its start and its return, and its answer is the one it gives
    when executed alone on the store that the calls before that moment, and the expiries, leave. *)
Theorem c125_answers
  : forall (url_parse : string -> option url) (v : session -> auth_response -> outcome) (S : Type) (st : session_store S)
           (look : S -> uuid -> option session) (m0 : S) (y : any_sys S)
           (newer older : list (nat * (call * event))) (i : nat) (c : call) (a : answer),
    faithful st look -> (forall u, look m0 u = None) -> any_reachable url_parse S st m0 y ->
    judged_by v (map snd (an_log y)) -> ids_apart (map snd (an_log y)) -> marked_in_time (an_log y) ->
    an_log y = newer ++ (i, (c, EvReturn (Ok a))) :: older ->
    exists l1 e l2 q m, older = l1 ++ (i, (c, e)) :: l2 /\ succeeds (c, e) = true
      /\ one_by_one url_parse v q m /\ with_expiries (carried_out l2) (map fst q)
      /\ snd (run false v (code url_parse c) m) = Ok a.
Proof. exact c125_answers_pf. Qed.
Print Assumptions c125_answers.

Example c125_answers_witness :
  exists y newer older, faithful journal (fun j u => last_entry u j) /\ (forall u, last_entry u [] = None)
    /\ any_reachable simple_parse _ journal [] y
    /\ judged_by never (map snd (an_log y)) /\ ids_apart (map snd (an_log y)) /\ marked_in_time (an_log y)
    /\ an_log y = newer ++ (2, (CPoll 7%N, EvReturn (Ok (AStatus (Complete (OFailure "no")))))) :: older.
Proof. exact c125_answers_ex. Qed.

(** C125: a call takes effect at most once, exactly once when it succeeds and not at all when it fails (whatever the session store). *)
Theorem c125_once
  : forall (url_parse : string -> option url) (S : Type) (st : session_store S) (m0 : S) (y : any_sys S) (i : nat) (c : call) (x : res answer),
    any_reachable url_parse S st m0 y ->
    times i (an_log y) <= 1
    /\ (In (i, (c, EvReturn x)) (an_log y) -> times i (an_log y) = match x with Ok _ => 1 | Err _ => 0 end).
Proof. exact c125_once_pf. Qed.
Print Assumptions c125_once.

Example c125_once_witness :
  exists y, any_reachable simple_parse _ journal [] y /\ map (fun i => times i (an_log y)) [0; 1; 2; 3] = [1; 1; 1; 0].
Proof. exact c125_once_ex. Qed.

(** C125: a crash of the process, which ends all calls in flight, whatever they were doing, and leaves the store as it is, is one of
    the executions considered here, and so are executions that go on after a restart. *)
Theorem c125_crash
  : forall (url_parse : string -> option url) (S : Type) (st : session_store S) (m0 : S) (y : any_sys S),
    crashing url_parse st m0 y -> any_reachable url_parse S st m0 y.
Proof. exact c125_crash_pf. Qed.
Print Assumptions c125_crash.

Example c125_crash_witness :
  exists y, crashing simple_parse journal [] y /\ an_started y = 1 /\ an_tasks y = [].
Proof. exact c125_crash_ex. Qed.
