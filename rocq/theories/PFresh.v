(** Calls are answered from what they find while they run (C88) *)
From Coq Require Import Lia.
From Verif Require Import Base BaseFacts Json Url Params Request Metadata Dcql Response Session Client Builder Server.
From Verif Require Import Spec SpecObject SpecRequest SpecBuilder SpecSession SpecServer StoreFacts PfBuilder PfSession PfServer PfHistory.
From Verif Require Import PfFresh.

(** C88: calls are answered from what they find while they run: a poll or retrieve that was not yet in flight at some
    moment and returns later returns what was stored at a moment in between; and a response that is taken was judged in
    between, for the session as stored in between, and the judgement stored after that. *)
Theorem c88_fresh
  : forall (url_parse : string -> option url) (a b : sys) (l : list (call * event)) (c : call) (newer older : list (call * event)) (x : answer),
    reachable url_parse a -> steps url_parse a b -> history a b l ->
    (forall p, ~ In (c, p) (sy_tasks a)) ->
    l = newer ++ (c, EvReturn (Ok x)) :: older ->
    (forall u st, c = CPoll u -> x = AStatus st ->
       exists between before s, older = between ++ (c, EvGet u (Ok s)) :: before
         /\ after (before ++ sy_log a) u = Some s /\ s_status s = st)
    /\ (forall u jwt, c = CRetrieve u -> x = AJwt jwt ->
       exists between before s, older = between ++ (c, EvGet u (Ok s)) :: before
         /\ after (before ++ sy_log a) u = Some s /\ s_jwt s = jwt)
    /\ (forall u r, c = CVerify u r ->
       exists l1 l2 l3 before s o,
         older = l1 ++ (c, EvUpdate u (Complete o) (Ok tt)) :: l2 ++ (c, EvValidate s r o) :: l3 ++ (c, EvGet u (Ok s)) :: before
         /\ after (before ++ sy_log a) u = Some s).
Proof. exact c88_fresh_pf. Qed.
Print Assumptions c88_fresh.

Example c88_fresh_witness :
  exists a b l older, reachable simple_parse a /\ steps simple_parse a b /\ history a b l
    /\ (forall p, ~ In (CVerify 7%N (Jwt "j"), p) (sy_tasks a))
    /\ l = [] ++ (CVerify 7%N (Jwt "j"), EvReturn (Ok ANothing)) :: older.
Proof. exact c88_fresh_ex. Qed.
