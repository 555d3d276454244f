(** Repeating and reordering requests does not matter (C129) *)
From Coq Require Import Lia Sorted Permutation.
From Verif Require Import Base BaseFacts Utf8 Json JsonFacts JsonText Serde Url UrlEncoded Object Formats Params Metadata Dcql
  Request Response Session X509 Client Builder Server ExVerifier.
From Verif Require Import Spec SpecObject SpecRequest SpecBuilder SpecSession SpecServer SpecVerifierEx SpecAtomic SpecExHistory SpecExAtomic SpecConverge
  StoreFacts PfBuilder UuidFacts PfSession PfServer PfHistory PfFresh PfExServer PfExHistory PfAtomic PfExAtomic.
From Verif Require Import PfConverge.

(** C129: fetching a request object, sending a response and asking for the status can be repeated: delivered again directly afterwards, the
    request gets the same answer and changes nothing. *)
Theorem c129_repeat :
  forall (url_parse : string -> option url) (jwe_open : string -> res string) (a : adapter) (h : hreq) (l : list (hreq * reply))
         (m m' m2 : store) judged judged' (r r' : reply),
    in_turn url_parse jwe_open a l m ->
    (forall nonce fresh id, h <> HInitiate nonce fresh id) ->
    run false (app_validator jwe_open) (handler url_parse a h) m = (m', judged, Ok r) ->
    run false (app_validator jwe_open) (handler url_parse a h) m' = (m2, judged', Ok r') ->
    r' = r /\ m2 = m'.
Proof. exact c129_repeat_pf. Qed.
Print Assumptions c129_repeat.

Example c129_repeat_witness :
  exists l m s, in_turn simple_parse toy_open xa l m /\ length l = 2
    /\ run false (app_validator toy_open) (handler simple_parse xa xv) m = ([(7%N, x_done s)], [(set_status s SentRequest, xresp)], Ok x_ok)
    /\ run false (app_validator toy_open) (handler simple_parse xa xv) [(7%N, x_done s)] = ([(7%N, x_done s)], [(x_done s, xresp)], Ok x_ok).
Proof. exact c129_repeat_ex. Qed.

(** C129: when each session is started once and is sent one response only, however often, and no request is answered with an error, the
    sessions that are left depend only on which requests there were: not on how often each was delivered and not on their order. *)
Theorem c129_converge :
  forall (url_parse : string -> option url) (jwe_open : string -> res string) (a : adapter) (l l' : list (hreq * reply)) (m m' : store),
    in_turn url_parse jwe_open a l m -> in_turn url_parse jwe_open a l' m' ->
    same_requests (map fst l) (map fst l') ->
    started_once (map fst l) -> started_once (map fst l') -> one_response (map fst l) -> no_errors l -> no_errors l' ->
    m = m'.
Proof. exact c129_converge_pf. Qed.
Print Assumptions c129_converge.

Example c129_converge_witness :
  exists l l' m m', in_turn simple_parse toy_open xa l m /\ in_turn simple_parse toy_open xa l' m' /\ same_requests (map fst l) (map fst l')
    /\ started_once (map fst l) /\ started_once (map fst l') /\ one_response (map fst l) /\ no_errors l /\ no_errors l'
    /\ length l = 6 /\ length l' = 3 /\ map s_status (map snd m) = [Complete xo].
Proof. exact c129_converge_ex. Qed.

Theorem c129_concurrent :
  forall (url_parse : string -> option url) (jwe_open : string -> res string) (a : adapter) (x y : hsys),
    undropped url_parse jwe_open a x -> hs_tasks x = [] -> sessions_apart (hs_log x) -> no_late_fetch (hs_log x) ->
    undropped url_parse jwe_open a y -> hs_tasks y = [] -> sessions_apart (hs_log y) -> no_late_fetch (hs_log y) ->
    same_requests (map fst (replies (hs_log x))) (map fst (replies (hs_log y))) ->
    started_once (map fst (replies (hs_log x))) -> started_once (map fst (replies (hs_log y))) ->
    one_response (map fst (replies (hs_log x))) -> no_errors (replies (hs_log x)) -> no_errors (replies (hs_log y)) ->
    hs_store x = hs_store y.
Proof. exact c129_concurrent_pf. Qed.
Print Assumptions c129_concurrent.

Example c129_concurrent_witness :
  exists x y, undropped simple_parse toy_open xa x /\ hs_tasks x = [] /\ sessions_apart (hs_log x) /\ no_late_fetch (hs_log x)
    /\ undropped simple_parse toy_open xa y /\ hs_tasks y = [] /\ sessions_apart (hs_log y) /\ no_late_fetch (hs_log y)
    /\ same_requests (map fst (replies (hs_log x))) (map fst (replies (hs_log y)))
    /\ started_once (map fst (replies (hs_log x))) /\ started_once (map fst (replies (hs_log y)))
    /\ one_response (map fst (replies (hs_log x))) /\ no_errors (replies (hs_log x)) /\ no_errors (replies (hs_log y))
    /\ map fst (replies (hs_log x)) = [xi; xv; xr] /\ map fst (replies (hs_log y)) = [xi; xr; xv].
Proof. exact c129_concurrent_ex. Qed.

(** C129: with two responses to one session the order matters: each is answered with success and the last one judged is what the session keeps. *)
Theorem c129_two_refuted :
  exists (a : adapter) (jwe_open : string -> res string) l l' m m',
    in_turn simple_parse jwe_open a l m /\ in_turn simple_parse jwe_open a l' m' /\ same_requests (map fst l) (map fst l')
    /\ started_once (map fst l) /\ started_once (map fst l') /\ no_errors l /\ no_errors l'
    /\ length l = 3 /\ length l' = 3 /\ map s_status (map snd m) <> map s_status (map snd m').
Proof. exact c129_two_refuted_pf. Qed.
Print Assumptions c129_two_refuted.
