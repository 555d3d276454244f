(** the command line verifier while it runs (C100) *)
From Coq Require Import Lia ZArith.
From Verif Require Import Base BaseFacts Utf8 Json Serde Url UrlEncoded Params Dcql Request Response Session Builder Server ExVerifier ExCli ExConsole.
From Verif Require Import MapFacts Spec SpecObject SpecSession StoreFacts PfBuilder UuidFacts PfSession PfServer SpecExample PfExample SpecVerifierEx PfExServer
  PfExInitiate SpecCli PfExCli SpecConsole.
From Verif Require Import PfConsole.

(** C100: the command line verifier says that it is complete only after a response posted for its own session has been
    validated. *)
Theorem c100_completed
  : forall (url_parse : string -> option url) (public : url) (types : list string) (fresh id : uuid) (m : store) (dest : url)
      (x : csys) (later earlier : list cevent),
    cli_setup url_parse public types fresh id = (m, Ok dest) -> csteps (cs_init m) x ->
    cs_log x = (later ++ EvCompleted :: earlier)%list ->
    exists h r o, validated id earlier h r o.
Proof. exact c100_completed_pf. Qed.
Print Assumptions c100_completed.

Example c100_completed_witness : exists dest x later earlier, cli_setup simple_parse (toy_url "https://v.example/") ["ldp_vc"] 1%N 7%N = (fst cli_toy, Ok dest)
  /\ csteps (cs_init (fst cli_toy)) x /\ cs_log x = (later ++ EvCompleted :: earlier)%list.
Proof. exact c100_completed_ex. Qed.

(** C100: whatever it prints is true at that moment: that the request was fetched, that a response was posted, or the
    verdict on a response that was posted for its session. *)
Theorem c100_truthful
  : forall (url_parse : string -> option url) (public : url) (types : list string) (fresh id : uuid) (m : store) (dest : url)
      (x : csys) (later earlier : list cevent) (h : creq) (d : display),
    cli_setup url_parse public types fresh id = (m, Ok dest) -> csteps (cs_init m) x ->
    cs_log x = (later ++ EvShown h d :: earlier)%list ->
    truthful id earlier d.
Proof. exact c100_truthful_pf. Qed.
Print Assumptions c100_truthful.

Example c100_truthful_witness : exists dest x later earlier h info, cli_setup simple_parse (toy_url "https://v.example/") ["ldp_vc"] 1%N 7%N = (fst cli_toy, Ok dest)
  /\ csteps (cs_init (fst cli_toy)) x /\ cs_log x = (later ++ EvShown h (DSuccess info) :: earlier)%list.
Proof. exact c100_truthful_ex. Qed.

(** C100: the only request object it serves is that of its session, to who asks for that session; a response is
    answered with success only after it has been validated and its outcome recorded, and a refusal is 400 exactly if the
    body of a response was not text, otherwise 500. *)
Theorem c100_answered
  : forall (url_parse : string -> option url) (public : url) (types : list string) (fresh id : uuid) (m : store) (dest : url)
      (x : csys) (later earlier : list cevent) (h : creq) (a : reply),
    cli_setup url_parse public types fresh id = (m, Ok dest) -> csteps (cs_init m) x ->
    cs_log x = (later ++ EvAnswered h a :: earlier)%list ->
    exists s, st_get id m = Some s /\ honest id (s_jwt s) earlier h a.
Proof. exact c100_answered_pf. Qed.
Print Assumptions c100_answered.

Example c100_answered_witness : exists dest x later earlier, cli_setup simple_parse (toy_url "https://v.example/") ["ldp_vc"] 1%N 7%N = (fst cli_toy, Ok dest)
  /\ csteps (cs_init (fst cli_toy)) x /\ cs_log x = (later ++ EvAnswered toy_post (RJson 200 (JObj [])) :: earlier)%list.
Proof. exact c100_answered_ex. Qed.

(** C100: at all times it holds its one session, with the request it was created with; an outcome stored there is that
    of a response that was posted for it. *)
Theorem c100_status
  : forall (url_parse : string -> option url) (public : url) (types : list string) (fresh id : uuid) (m : store) (dest : url) (x : csys),
    cli_setup url_parse public types fresh id = (m, Ok dest) -> csteps (cs_init m) x ->
    (forall u, u <> id -> st_get u (cs_store x) = None)
    /\ exists s s', st_get id m = Some s /\ st_get id (cs_store x) = Some s' /\ same_request s s'
       /\ forall o, s_status s' = Complete o -> exists h r, validated id (cs_log x) h r o.
Proof. exact c100_status_pf. Qed.
Print Assumptions c100_status.

Example c100_status_witness : exists dest x, cli_setup simple_parse (toy_url "https://v.example/") ["ldp_vc"] 1%N 7%N = (fst cli_toy, Ok dest)
  /\ csteps (cs_init (fst cli_toy)) x /\ exists s o, st_get 7%N (cs_store x) = Some s /\ s_status s = Complete o.
Proof. exact c100_status_ex. Qed.

(** C100: it stops once, and no request arrives afterwards. *)
Theorem c100_once
  : forall (m : store) (x : csys) (later earlier : list cevent) (e : cevent),
    csteps (cs_init m) x -> cs_log x = (later ++ e :: earlier)%list -> ends e ->
    cs_over x = true /\ forall e', In e' later -> ~ ends e' /\ forall h, e' <> EvArrived h.
Proof. exact c100_once_pf. Qed.
Print Assumptions c100_once.

Example c100_once_witness : exists x later earlier e, csteps (cs_init (fst cli_toy)) x /\ cs_log x = (later ++ e :: earlier)%list /\ ends e.
Proof. exact c100_once_ex. Qed.

(** C100: when just one request arrives and is answered as a response, it has printed exactly that it is processing a
    response and the verdict on it, stored that verdict for its session, and given the notification that ends the
    program. *)
Theorem c100_alone
  : forall (m : store) (x : csys) (h : creq) (code : N) (body : json),
    csteps (cs_init m) x -> arrivals (cs_log x) = [h] -> answers (cs_log x) = [(h, RJson code body)] ->
    exists id r o d s s', posts_response id h r /\ outcome_for r o /\ reports o d /\ shown (cs_log x) = [DReceived; d]
      /\ st_get id m = Some s /\ st_get id (cs_store x) = Some s' /\ same_request s s' /\ s_status s' = Complete o
      /\ (cs_notified x = true \/ In EvCompleted (cs_log x)).
Proof. exact c100_alone_pf. Qed.
Print Assumptions c100_alone.

Example c100_alone_witness : exists x, csteps (cs_init (fst cli_toy)) x /\ arrivals (cs_log x) = [toy_post] /\ answers (cs_log x) = [(toy_post, RJson 200 (JObj []))].
Proof. exact c100_alone_ex. Qed.

(** C100: a response posted for a session that exists can be handled to that end, without another request and without
    anything else happening. *)
Theorem c100_possible
  : forall (m : store) (h : creq) (id : uuid) (r : auth_response) (s : session),
    posts_response id h r -> st_get id m = Some s ->
    exists x, csteps (cs_init m) x /\ arrivals (cs_log x) = [h] /\ answers (cs_log x) = [(h, RJson 200 (JObj []))]
      /\ In EvCompleted (cs_log x).
Proof. exact c100_possible_pf. Qed.
Print Assumptions c100_possible.

Example c100_possible_witness : exists m r s, st_get 7%N m = Some s /\ posts_response 7%N toy_post r.
Proof. exact c100_possible_ex. Qed.

(** C100, refuted: that the verdict is printed before the program ends.  The display is one variable: another request
    can overwrite it between the verdict being set and being printed. *)
Theorem c100_lost_refuted
  : exists (url_parse : string -> option url) (public : url) (types : list string) (fresh id : uuid) (m : store) (dest : url)
      (x : csys) (s : session) (info : json),
    cli_setup url_parse public types fresh id = (m, Ok dest) /\ csteps (cs_init m) x /\ In EvCompleted (cs_log x)
    /\ st_get id (cs_store x) = Some s /\ s_status s = Complete (OSuccess info) /\ shown (cs_log x) = [DReceived; DReceived].
Proof. exact c100_lost_refuted_pf. Qed.
Print Assumptions c100_lost_refuted.

(** C100, refuted: that a verdict that was printed and ended the program is recorded and acknowledged to the wallet.
    The outcome is stored after the validator has printed it, and storing it fails while another request uses the
    store. *)
Theorem c100_unstored_refuted
  : exists (url_parse : string -> option url) (public : url) (types : list string) (fresh id : uuid) (m : store) (dest : url)
      (x : csys) (h : creq) (info : json) (s : session),
    cli_setup url_parse public types fresh id = (m, Ok dest) /\ csteps (cs_init m) x /\ In EvCompleted (cs_log x)
    /\ shown (cs_log x) = [DReceived; DSuccess info] /\ answers (cs_log x) = [(h, RError 500)]
    /\ st_get id (cs_store x) = Some s /\ s_status s = SentRequestByReference.
Proof. exact c100_unstored_refuted_pf. Qed.
Print Assumptions c100_unstored_refuted.

(** C100, refuted: that it says that it is processing a response only when one was posted for its session: any
    identifier will do, and the message stays. *)
Theorem c100_stranger_refuted
  : exists (url_parse : string -> option url) (public : url) (types : list string) (fresh id : uuid) (m : store) (dest : url)
      (x : csys) (sid body : string),
    cli_setup url_parse public types fresh id = (m, Ok dest) /\ csteps (cs_init m) x
    /\ arrivals (cs_log x) = [CResponse sid body] /\ uuid_of_string sid <> Some id
    /\ shown (cs_log x) = [DReceived] /\ cs_display x = DReceived /\ answers (cs_log x) = [(CResponse sid body, RError 500)].
Proof. exact c100_stranger_refuted_pf. Qed.
Print Assumptions c100_stranger_refuted.
