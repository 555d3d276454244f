(** Requests to the command line verifier, one at a time (C139) *)
From Coq Require Import Lia Sorted Permutation.
From Verif Require Import Base BaseFacts Utf8 Json Url Request Metadata Dcql Response Session Client Builder Server ExVerifier ExCli ExConsole.
From Verif Require Import Spec SpecObject SpecRequest SpecBuilder SpecSession SpecServer SpecVerifierEx SpecConsole SpecAtomic SpecCliAtomic
  StoreFacts PfBuilder UuidFacts PfSession PfServer PfHistory PfAtomic PfExCli PfConsole.
From Verif Require Import PfCliAtomic.

(** C139: whatever the interleaving of requests to the command line verifier, and wherever it is stopped, if the request is not
    marked as sent after a verdict was recorded, the session is the one left by the requests that took effect, each attended
    to alone, one after the other, in the order in which they took effect. *)
Theorem c139_sequential
  : forall (url_parse : string -> option url) (public : url) (types : list string) (fresh id : uuid) (m : store) (dest : url) (x : csys),
    cli_setup url_parse public types fresh id = (m, Ok dest) -> csteps (cs_init m) x -> none_late (cs_log x) ->
    exists l, attended m l (cs_store x) /\ map fst l = settled (cs_log x).
Proof. exact c139_sequential_pf. Qed.
Print Assumptions c139_sequential.

Example c139_sequential_witness : exists dest x,
  cli_setup simple_parse (toy_url "https://v.example/") ["ldp_vc"] 1%N 7%N = (fst cli_toy, Ok dest) /\ csteps (cs_init (fst cli_toy)) x
  /\ none_late (cs_log x) /\ settled (cs_log x) = [toy_post; toy_fetch].
Proof. exact c139_sequential_ex. Qed.

(** C139: and each request got the answer it gets in that sequence: unless it found the lock held and was answered with an
    error, or is answered so whatever the session, it took effect at a moment between its arrival and its answer, and its answer
    is the one it gets when attended to alone after the requests before that moment. *)
Theorem c139_answers
  : forall (url_parse : string -> option url) (public : url) (types : list string) (fresh id : uuid) (m : store) (dest : url) (x y : csys)
           (h : creq) (r : reply) (newer older : list cevent),
    cli_setup url_parse public types fresh id = (m, Ok dest) -> csteps (cs_init m) x -> csteps x y -> none_late (cs_log y) ->
    (forall p, ~ In (h, p) (cs_tasks x)) ->
    cs_log y = newer ++ EvAnswered h r :: older ++ cs_log x ->
    (held_up h older /\ exists n, r = RError n)
    \/ (forall m', undisturbed (chandler h) m' = (m', r))
    \/ exists l1 e l2 q m', older = l1 ++ EvDoes h e :: l2 /\ settles (EvDoes h e) = true
         /\ attended m q m' /\ map fst q = settled (l2 ++ cs_log x) /\ snd (undisturbed (chandler h) m') = r.
Proof. exact c139_answers_pf. Qed.
Print Assumptions c139_answers.

Example c139_answers_witness : exists dest y newer older,
  cli_setup simple_parse (toy_url "https://v.example/") ["ldp_vc"] 1%N 7%N = (fst cli_toy, Ok dest) /\ csteps (cs_init (fst cli_toy)) y
  /\ none_late (cs_log y) /\ (forall p, ~ In (toy_post, p) (cs_tasks (cs_init (fst cli_toy))))
  /\ cs_log y = newer ++ EvAnswered toy_post (RJson 200 (JObj [])) :: older ++ cs_log (cs_init (fst cli_toy))
  /\ In (EvDoes toy_fetch (EvUpdate 7%N SentRequest (Ok tt))) older.
Proof. exact c139_answers_ex. Qed.

(** C139: when no request was dropped and all have been answered, the requests with their answers, error answers apart of
    requests that found the lock held, can be arranged in an order in which, attended to alone one after the other, they get
    these very answers and leave this very session. *)
Theorem c139_arranged
  : forall (url_parse : string -> option url) (public : url) (types : list string) (fresh id : uuid) (m : store) (dest : url) (x : csys),
    cli_setup url_parse public types fresh id = (m, Ok dest) -> all_kept m x -> cs_tasks x = [] -> none_late (cs_log x) ->
    exists l extra, attended m l (cs_store x) /\ Permutation (answers (cs_log x)) (l ++ extra)
      /\ forall h r, In (h, r) extra -> held_up h (cs_log x) /\ exists n, r = RError n.
Proof. exact c139_arranged_pf. Qed.
Print Assumptions c139_arranged.

Example c139_arranged_witness : exists dest x,
  cli_setup simple_parse (toy_url "https://v.example/") ["ldp_vc"] 1%N 7%N = (fst cli_toy, Ok dest) /\ all_kept (fst cli_toy) x
  /\ cs_tasks x = [] /\ none_late (cs_log x) /\ map fst (answers (cs_log x)) = [toy_post; toy_fetch] /\ forall h, ~ held_up h (cs_log x).
Proof. exact c139_arranged_ex. Qed.

(** C139: the condition is met when no fetch of the request is under way while a verdict on the response is recorded. *)
Theorem c139_in_time
  : forall (url_parse : string -> option url) (public : url) (types : list string) (fresh id : uuid) (m : store) (dest : url) (x : csys),
    cli_setup url_parse public types fresh id = (m, Ok dest) -> fetched_before m x ->
    none_late (cs_log x) /\ exists l, attended m l (cs_store x) /\ map fst l = settled (cs_log x).
Proof. exact c139_in_time_pf. Qed.
Print Assumptions c139_in_time.

Example c139_in_time_witness : exists dest x,
  cli_setup simple_parse (toy_url "https://v.example/") ["ldp_vc"] 1%N 7%N = (fst cli_toy, Ok dest) /\ fetched_before (fst cli_toy) x
  /\ settled (cs_log x) = [toy_post; toy_fetch].
Proof. exact c139_in_time_ex. Qed.

(** C139: the condition is needed: when a fetch that read the session before the response was judged marks it as sent afterwards,
    no order of the two requests, attended to alone one after the other with these answers, leaves this session, although no
    request found the lock held: the recorded verdict is lost. *)
Theorem c139_late_refuted
  : exists (url_parse : string -> option url) (public : url) (types : list string) (fresh id : uuid) (m : store) (dest : url) (x : csys),
    cli_setup url_parse public types fresh id = (m, Ok dest) /\ all_kept m x /\ cs_tasks x = [] /\ (forall h, ~ held_up h (cs_log x))
    /\ forall l, Permutation l (answers (cs_log x)) -> ~ attended m l (cs_store x).
Proof. exact c139_late_refuted_pf. Qed.
Print Assumptions c139_late_refuted.
