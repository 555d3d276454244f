(** The command line verifier's web server (C109) *)
From Coq Require Import Lia ZArith.
From Verif Require Import Base BaseFacts Utf8 Json Url Request Response Session Builder Server ExVerifier ExHttp ExWeb ExCli ExConsole ExCliWeb.
From Verif Require Import SpecJsonText GrammarFacts SpecEncodings SpecBuilder SpecSession SpecObject StoreFacts PfBuilder UuidFacts Spec SpecExample
  SpecVerifierEx SpecWeb PfWeb PfExCli SpecConsole PfConsole SpecCliWeb.
From Verif Require SpecCli.
From Verif Require Import SpecRequest.
From Verif Require Import PfCliWeb.

(** C109: the two handlers of the command line verifier are called exactly for the requests they are meant for. *)
Theorem c109_routes :
  forall q : hrequest,
    (forall sid, cli_dispatch q = CTo (CFetch sid) <-> reads (hq_method q) /\ names_session "request" (hq_path q) sid)
    /\ (forall sid body, cli_dispatch q = CTo (CResponse sid body) <->
          hq_method q = "POST" /\ names_session "response" (hq_path q) sid /\ body = hq_body q /\ fits q).
Proof. exact c109_routes_pf. Qed.
Print Assumptions c109_routes.

Example c109_routes_witness :
  cli_dispatch (web_get "GET" ("/request/" +:+ uuid_str 7%N)) = CTo (CFetch (uuid_str 7%N))
  /\ cli_dispatch (web_post ("/response/" +:+ uuid_str 7%N) "vp_token={}") = CTo (CResponse (uuid_str 7%N) "vp_token={}")
  /\ cli_dispatch (web_get "GET" "/request/a%2Fb") = CTo (CFetch "a/b").
Proof. exact c109_routes_ex. Qed.

(** C109: any other request is sent back, with a status code that says why. *)
Theorem c109_refused :
  forall q : hrequest,
    let m := hq_method q in
    let p := hq_path q in
    let sent_back n := cli_dispatch q = CRefuse n in
    (forall n, sent_back n -> In n [200; 400; 404; 405; 413]%N)
    /\ (sent_back 200%N <-> m = "OPTIONS")
    /\ (sent_back 404%N <-> m <> "OPTIONS" /\ ~ cli_known p)
    /\ (sent_back 405%N <-> m <> "OPTIONS" /\ cli_known p /\ ~ cli_allowed p m)
    /\ (sent_back 413%N <-> ~ fits q /\ m = "POST" /\ exists sid, names_session "response" p sid)
    /\ (sent_back 400%N <-> cli_allowed p m /\ (garbled "request" p \/ garbled "response" p)).
Proof. exact c109_refused_pf. Qed.
Print Assumptions c109_refused.

Example c109_refused_witness :
  cli_dispatch (web_get "OPTIONS" "/x") = CRefuse 200 /\ cli_dispatch (web_get "GET" "/status/x") = CRefuse 404
  /\ cli_dispatch (web_get "GET" "/response/x") = CRefuse 405 /\ cli_dispatch (web_get "GET" "/request/%ff") = CRefuse 400
  /\ exists q, cli_dispatch q = CRefuse 413.
Proof. exact c109_refused_ex. Qed.

(** C109: the server adds nothing to what the handlers do: in every execution the sessions, the display, the notification and
    the end are those of an execution without HTTP, and what happens is the same, apart from requests sent back. *)
Theorem c109_behaves :
  forall (m : store) (x : ksys), ksteps (ks_init m) x ->
    exists y, csteps (cs_init m) y
      /\ ks_store x = cs_store y /\ ks_display x = cs_display y /\ ks_notified x = cs_notified y /\ ks_over x = cs_over y
      /\ retells (fun q h => cli_dispatch q = CTo h) (fun q n => cli_dispatch q = CRefuse n) (ks_log x) (cs_log y).
Proof. exact c109_behaves_pf. Qed.
Print Assumptions c109_behaves.

Example c109_behaves_witness : exists dest x, cli_setup simple_parse (toy_url "https://v.example/") ["ldp_vc"] 1%N 7%N = (fst cli_toy, Ok dest)
  /\ ksteps (ks_init (fst cli_toy)) x /\ In KCompleted (ks_log x).
Proof. exact c109_behaves_ex. Qed.

(** C109: the program completes only after a response was posted to the response endpoint of its session and validated. *)
Theorem c109_completed
  : forall (url_parse : string -> option url) (public : url) (types : list string) (fresh id : uuid) (m : store) (dest : url)
      (x : ksys) (later earlier : list kentry),
    cli_setup url_parse public types fresh id = (m, Ok dest) -> ksteps (ks_init m) x ->
    ks_log x = (later ++ KCompleted :: earlier)%list ->
    exists q r o, judged id earlier q r o.
Proof. exact c109_completed_pf. Qed.
Print Assumptions c109_completed.

Example c109_completed_witness : exists dest x later earlier, cli_setup simple_parse (toy_url "https://v.example/") ["ldp_vc"] 1%N 7%N = (fst cli_toy, Ok dest)
  /\ ksteps (ks_init (fst cli_toy)) x /\ ks_log x = (later ++ KCompleted :: earlier)%list.
Proof. exact c109_completed_ex. Qed.

(** C109: whatever the console shows is true of the HTTP requests before: the request was fetched from its endpoint, something was
    posted to a response endpoint, or the verdict is that on a response posted for the session. *)
Theorem c109_truthful
  : forall (url_parse : string -> option url) (public : url) (types : list string) (fresh id : uuid) (m : store) (dest : url)
      (x : ksys) (later earlier : list kentry) (q : hrequest) (d : display),
    cli_setup url_parse public types fresh id = (m, Ok dest) -> ksteps (ks_init m) x ->
    ks_log x = (later ++ KFor q (KShown d) :: earlier)%list ->
    true_on_console id earlier d.
Proof. exact c109_truthful_pf. Qed.
Print Assumptions c109_truthful.

Example c109_truthful_witness : exists dest x later earlier q d, cli_setup simple_parse (toy_url "https://v.example/") ["ldp_vc"] 1%N 7%N = (fst cli_toy, Ok dest)
  /\ ksteps (ks_init (fst cli_toy)) x /\ ks_log x = (later ++ KFor q (KShown d) :: earlier)%list.
Proof. exact c109_truthful_ex. Qed.

(** C109: a JWT is sent only in answer to a GET of the request endpoint of the session, and is the request of that session; a JSON body
    only, with status 200 and empty, in answer to a response posted to its response endpoint, validated and recorded. *)
Theorem c109_answered
  : forall (url_parse : string -> option url) (public : url) (types : list string) (fresh id : uuid) (m : store) (dest : url)
      (x : ksys) (later earlier : list kentry) (q : hrequest) (code : N) (body : content),
    cli_setup url_parse public types fresh id = (m, Ok dest) -> ksteps (ks_init m) x ->
    ks_log x = (later ++ KFor q (KAnswer (code, body)) :: earlier)%list ->
    (forall jwt, body = CJwt jwt -> code = 200%N /\ hq_method q = "GET" /\ fetches "request" q id
                                    /\ exists s, st_get id m = Some s /\ jwt = s_jwt s)
    /\ (forall j, body = CJson j -> code = 200%N /\ j = JObj []
          /\ exists r o, posts q id r
             /\ (exists q', judged id earlier q' r o) /\ exists q', posts q' id r /\ In (KFor q' (KDoes (EvUpdate id (Complete o) (Ok tt)))) earlier).
Proof. exact c109_answered_pf. Qed.
Print Assumptions c109_answered.

Example c109_answered_witness : exists dest x later earlier q a, cli_setup simple_parse (toy_url "https://v.example/") ["ldp_vc"] 1%N 7%N = (fst cli_toy, Ok dest)
  /\ ksteps (ks_init (fst cli_toy)) x /\ ks_log x = (later ++ KFor q (KAnswer a) :: earlier)%list.
Proof. exact c109_answered_ex. Qed.

(** C109: wherever the verifier is (whatever its public URL), the request URI and the response URI that it puts into requests are served: fetching
    the one leads to the handler of requests for this session, posting to the other to that of responses. *)
Theorem c109_links
  : forall (url_parse : string -> option url) (public : url) (types : list string) (fresh id : uuid) (m : store) (dest : url),
    cli_setup url_parse public types fresh id = (m, Ok dest) ->
    exists sess base response request endpoint,
      st_get id m = Some sess /\ text_at "response_uri" (aro_to_obj (s_request sess)) (url_str response)
      /\ to_url (mk_ar (Some ("redirect_uri:" +:+ url_str base)) (ByReference request)) endpoint = Ok dest
      /\ (forall q, hq_path q = u_path request -> reads (hq_method q) -> cli_dispatch q = CTo (CFetch (uuid_str id)))
      /\ (forall q, hq_path q = u_path response -> hq_method q = "POST" -> fits q -> cli_dispatch q = CTo (CResponse (uuid_str id) (hq_body q))).
Proof. exact c109_links_pf. Qed.
Print Assumptions c109_links.

Example c109_links_witness : exists dest, cli_setup simple_parse (toy_url "https://v.example/") ["ldp_vc"] 1%N 7%N = (fst cli_toy, Ok dest).
Proof. exact c109_links_ex. Qed.

(** C109: the server works: a GET of the request URI can be answered with the request of the session, and a response posted to the
    response URI can be answered with success and complete the program. *)
Theorem c109_served
  : forall (m : store) (id : uuid) (s : session) (q : hrequest), st_get id m = Some s ->
    (hq_method q = "GET" -> fetches "request" q id ->
       exists x, ksteps (ks_init m) x /\ In (KFor q (KAnswer (200%N, CJwt (s_jwt s)))) (ks_log x))
    /\ (forall r, posts q id r -> utf8_valid (hq_body q) = true ->
       exists x, ksteps (ks_init m) x /\ In (KFor q (KAnswer (200%N, CJson (JObj [])))) (ks_log x) /\ In KCompleted (ks_log x)).
Proof. exact c109_served_pf. Qed.
Print Assumptions c109_served.

Example c109_served_witness : exists m s q q' r, st_get 7%N m = Some s /\ hq_method q = "GET" /\ fetches "request" q 7%N
  /\ posts q' 7%N r /\ utf8_valid (hq_body q') = true.
Proof. exact c109_served_ex. Qed.

(** C109, refuted: that when the console says that the request was fetched, it has been sent to somebody: a HEAD request
    suffices. *)
Theorem c109_head_refuted
  : exists (url_parse : string -> option url) (public : url) (types : list string) (fresh id : uuid) (m : store) (dest : url) (x : ksys) (q : hrequest),
    cli_setup url_parse public types fresh id = (m, Ok dest) /\ ksteps (ks_init m) x
    /\ In (KFor q (KShown DFetched)) (ks_log x)
    /\ forall q' code body, In (KFor q' (KAnswer (code, body))) (ks_log x) -> body = CNone.
Proof. exact c109_head_refuted_pf. Qed.
Print Assumptions c109_head_refuted.
