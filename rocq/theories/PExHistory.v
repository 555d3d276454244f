(** The example verifier under concurrency (C94) *)
From Coq Require Import Lia Permutation.
From Verif Require Import Base BaseFacts Utf8 Json JsonFacts JsonText Serde Url UrlEncoded Object Formats Params Metadata Dcql
  Request Response Session X509 Client Builder Server ExVerifier.
From Verif Require Import Spec SpecObject SpecRequest SpecBuilder SpecSession SpecServer SpecVerifierEx SpecExHistory
  StoreFacts PfBuilder UuidFacts PfSession PfServer PfHistory PfFresh PfExServer.
From Verif Require Import PfExHistory.

(** C94: whatever requests the example verifier handles at the same time, what is stored is what the operations in the
    order of the history make of an empty map, and each operation gave the result that the map gives at its place in the
    history, or found the lock held. *)
Theorem c94_linear
  : forall (url_parse : string -> option url) (jwe_open : string -> res string) (a : adapter) (x : hsys),
    hreachable url_parse jwe_open a x ->
    (forall u, st_get u (hs_store x) = hafter (hs_log x) u)
    /\ forall newer h e older, hs_log x = newer ++ (h, HDoes e) :: older -> explained e (hafter older).
Proof. exact c94_linear_pf. Qed.
Print Assumptions c94_linear.

Example c94_linear_witness :
  exists x s, hreachable simple_parse toy_open (toy_adapter true) x /\ hafter (hs_log x) 7%N = Some s
    /\ s_status s = Complete (OSuccess toy_info).
Proof. exact c94_linear_ex. Qed.

(** C94: every answer speaks of the time during which the request was handled: a status or request object that is
    answered was stored at a moment after the request came in, and a response that is accepted was judged by the
    validator after it came in, for the session as stored after it came in, and that judgement was stored. *)
Theorem c94_fresh
  : forall (url_parse : string -> option url) (jwe_open : string -> res string) (a : adapter) (x y : hsys)
    (l newer older : list (hreq * hevent)) (sid : string),
    hreachable url_parse jwe_open a x -> hsteps url_parse jwe_open a x y -> hhistory x y l ->
    (forall j, idle (HStatus sid) x -> l = newer ++ (HStatus sid, HReply (RJson 200 j)) :: older ->
       exists u between before s, uuid_of_string sid = Some u
         /\ older = between ++ (HStatus sid, HDoes (EvGet u (Ok s))) :: before
         /\ hafter (before ++ hs_log x) u = Some s /\ tells (s_status s) j)
    /\ (forall jwt, idle (HRequest sid) x -> l = newer ++ (HRequest sid, HReply (RJwt jwt)) :: older ->
       exists u between before s, uuid_of_string sid = Some u
         /\ older = between ++ (HRequest sid, HDoes (EvGet u (Ok s))) :: before
         /\ hafter (before ++ hs_log x) u = Some s /\ s_jwt s = jwt)
    /\ (forall body j, idle (HResponse sid body) x -> l = newer ++ (HResponse sid body, HReply (RJson 200 j)) :: older ->
       exists u l1 l2 l3 before s r, uuid_of_string sid = Some u /\ from_form body = Ok r
         /\ older = l1 ++ (HResponse sid body, HDoes (EvUpdate u (Complete (app_validator jwe_open s r)) (Ok tt)))
                    :: l2 ++ (HResponse sid body, HDoes (EvValidate s r (app_validator jwe_open s r)))
                    :: l3 ++ (HResponse sid body, HDoes (EvGet u (Ok s))) :: before
         /\ hafter (before ++ hs_log x) u = Some s).
Proof. exact c94_fresh_pf. Qed.
Print Assumptions c94_fresh.

Example c94_fresh_witness :
  exists x y l newer older j, hreachable simple_parse toy_open (toy_adapter true) x /\ hsteps simple_parse toy_open (toy_adapter true) x y
    /\ hhistory x y l /\ idle (HStatus toy_sid) x /\ l = newer ++ (HStatus toy_sid, HReply (RJson 200 j)) :: older.
Proof. exact c94_fresh_ex. Qed.

(** C94: if no further request comes in, the server comes to rest, after at most four steps (the answer included) for
    every request being handled, however they interleave. *)
Theorem c94_ends
  : forall (url_parse : string -> option url) (jwe_open : string -> res string) (a : adapter) (x y : hsys) (n : nat),
    hreachable url_parse jwe_open a x -> hquiet url_parse jwe_open a x y n -> n <= 4 * length (hs_tasks x).
Proof. exact c94_ends_pf. Qed.
Print Assumptions c94_ends.

Example c94_ends_witness :
  exists x y, hreachable simple_parse toy_open (toy_adapter true) x /\ hquiet simple_parse toy_open (toy_adapter true) x y 2
    /\ length (hs_tasks x) = 1 /\ hs_tasks y = [].
Proof. exact c94_ends_ex. Qed.

(** C94: and from any state of the server all requests being handled can be answered, in whichever order; none has to
    wait for another. *)
Theorem c94_all_answered
  : forall (url_parse : string -> option url) (jwe_open : string -> res string) (a : adapter) (x : hsys) (order : list hreq),
    hreachable url_parse jwe_open a x -> Permutation order (map fst (hs_tasks x)) ->
    exists y l, hsteps url_parse jwe_open a x y /\ hhistory x y l /\ hs_tasks y = [] /\ map fst (replies l) = order.
Proof. exact c94_all_answered_pf. Qed.
Print Assumptions c94_all_answered.

Example c94_all_answered_witness :
  exists x, hreachable simple_parse toy_open (toy_adapter true) x
    /\ Permutation [HRequest toy_sid; HStatus toy_sid] (map fst (hs_tasks x)).
Proof. exact c94_all_answered_ex. Qed.

(** C94: the status of a session goes back in two ways only: a new session is created under the same id, or the request
    object is fetched by a request that had read the session before anybody fetched it. *)
Theorem c94_only_race
  : forall (url_parse : string -> option url) (jwe_open : string -> res string) (a : adapter) (x y : hsys) (u : uuid) (s s' : session),
    hreachable url_parse jwe_open a x -> hstep url_parse jwe_open a x y ->
    st_get u (hs_store x) = Some s -> st_get u (hs_store y) = Some s' ->
    (progress (s_status s') < progress (s_status s))%N ->
    (exists h, hs_log y = (h, HDoes (EvInitiate s' (Ok tt))) :: hs_log x)
    \/ exists sid, uuid_of_string sid = Some u
       /\ hs_log y = (HRequest sid, HDoes (EvUpdate u SentRequest (Ok tt))) :: hs_log x
       /\ s_status s' = SentRequest
       /\ exists sid' s0, uuid_of_string sid' = Some u
          /\ In (HRequest sid', HDoes (EvGet u (Ok s0))) (hs_log x) /\ s_status s0 = SentRequestByReference.
Proof. exact c94_only_race_pf. Qed.
Print Assumptions c94_only_race.

Example c94_only_race_witness :
  exists x y s s', hreachable simple_parse toy_open (toy_adapter true) x /\ hstep simple_parse toy_open (toy_adapter true) x y
    /\ st_get 7%N (hs_store x) = Some s /\ st_get 7%N (hs_store y) = Some s' /\ (progress (s_status s') < progress (s_status s))%N.
Proof. exact c94_only_race_ex. Qed.

(** C94: so the status endpoint can report that a presentation succeeded and later that the wallet has not answered yet,
    for a session that was created once: the wallet fetches the request object twice, and the slower fetch ends last. *)
Theorem c94_regress_refuted
  : exists (url_parse : string -> option url) (jwe_open : string -> res string) (a : adapter) (x y : hsys)
      (l : list (hreq * hevent)) (sid : string) (j1 j2 info : json),
    hreachable url_parse jwe_open a x /\ answered (hs_log x) (HStatus sid) (RJson 200 j1) /\ says_success j1 info
    /\ hsteps url_parse jwe_open a x y /\ hhistory x y l /\ idle (HStatus sid) x
    /\ answered l (HStatus sid) (RJson 200 j2) /\ tells SentRequest j2
    /\ forall h e, In (h, HDoes (EvInitiate e (Ok tt))) l -> False.
Proof. exact c94_regress_refuted_pf. Qed.
Print Assumptions c94_regress_refuted.
