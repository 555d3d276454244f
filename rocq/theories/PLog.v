(** What the example verifier logs (C137) *)
From Coq Require Import Lia ZArith.
From Verif Require Import Base BaseFacts Utf8 Json JsonFacts JsonText Serde Url UrlEncoded Object Formats Params Metadata Dcql
  Effects Jwt Request Response Jwe Session X509 Client Builder Server ExMatcher ExWallet ExVerifier ExLog.
From Verif Require Import Spec SpecObject SpecRequest SpecBuilder SpecSession SpecServer StoreFacts PfBuilder PfSession PfServer SpecVerifierEx PfExServer SpecLog.
From Verif Require Import PfLog.

(** C137: logging changes nothing: the server that keeps a log reaches exactly the states of the server of C78. *)
Theorem c137_transparent
  : forall (url_parse : string -> option url) (jwe_open : string -> res string) (a : adapter) (x : hsys),
    hreachable url_parse jwe_open a x <-> exists w, lreachable url_parse jwe_open a (mk_lsys x w).
Proof. exact c137_transparent_pf. Qed.
Print Assumptions c137_transparent.

Example c137_transparent_witness :
  exists w x, lreachable simple_parse log_open (toy_adapter false) (mk_lsys x w) /\ st_get 7%N (hs_store x) <> None.
Proof. exact c137_transparent_ex. Qed.

(** C137: at the default level the log tells nothing of the presentations of an unencrypted response but which queries it
    answers and with how many: any history of requests, with any schedule, and the same history with other presentations
    leave the same lines, the same sessions and the same answers. *)
Theorem c137_presentations
  : forall (url_parse : string -> option url) (jwe_open : string -> res string) (a : adapter) (f : string -> string) (x : lsys),
    (forall b, same_outline_body b (f b)) -> lreachable url_parse jwe_open a x ->
    exists y, lreachable url_parse jwe_open a y
      /\ map fst (hs_tasks (ls_sys y)) = map (with_body f) (map fst (hs_tasks (ls_sys x)))
      /\ map fst (hs_log (ls_sys y)) = map (with_body f) (map fst (hs_log (ls_sys x)))
      /\ (forall h r, In (h, HReply r) (hs_log (ls_sys x)) -> In (with_body f h, HReply r) (hs_log (ls_sys y)))
      /\ hs_store (ls_sys y) = hs_store (ls_sys x)
      /\ ordinary_log (ls_lines y) = ordinary_log (ls_lines x).
Proof. exact c137_presentations_pf. Qed.
Print Assumptions c137_presentations.

Example c137_presentations_witness :
  exists f x, (forall b, same_outline_body b (f b)) /\ lreachable simple_parse log_open (toy_adapter false) x
    /\ came (HResponse toy_sid (log_body "secret")) (ls_sys x) /\ f (log_body "secret") = log_body "other".
Proof. exact c137_presentations_ex. Qed.

(** C137: the token of an encrypted response is written to the log, decrypted, at the default level. *)
Theorem c137_decrypted_refuted
  : forall (url_parse : string -> option url) (jwe_open : string -> res string) (a : adapter) (x : lsys) (h : hreq) (s : session)
      (jwe payload : string) (m : obj) (token : json) (o : outcome),
    lreachable url_parse jwe_open a x -> In (h, HDoes (EvValidate s (Jwt jwe) o)) (hs_log (ls_sys x)) ->
    jwe_open jwe = Ok payload -> json_of_text payload = Some (JObj m) -> obj_get "vp_token" m = Some token ->
    In (says_token token) (ordinary_log (ls_lines x)).
Proof. exact c137_decrypted_refuted_pf. Qed.
Print Assumptions c137_decrypted_refuted.

Example c137_decrypted_refuted_witness :
  exists x h s o m, lreachable simple_parse log_open (toy_adapter true) x /\ In (h, HDoes (EvValidate s (Jwt "a.b.c") o)) (hs_log (ls_sys x))
    /\ json_of_text "{""vp_token"":{""q"":[""secret""]}}" = Some (JObj m) /\ obj_get "vp_token" m = Some (JObj [("q", JArr [JStr "secret"])]).
Proof. exact c137_decrypted_refuted_ex. Qed.

(** C137: whatever level the operator asks for, the whole body of every response is written to the log. *)
Theorem c137_level_refuted
  : forall (url_parse : string -> option url) (jwe_open : string -> res string) (a : adapter) (x : lsys) (asked : level)
      (sid body : string) (u : uuid),
    lreachable url_parse jwe_open a x -> came (HResponse sid body) (ls_sys x) -> uuid_of_string sid = Some u -> utf8_valid body = true ->
    In (says_body body) (filter (written (verifier_level asked)) (ls_lines x)).
Proof. exact c137_level_refuted_pf. Qed.
Print Assumptions c137_level_refuted.

Example c137_level_refuted_witness :
  exists x, lreachable simple_parse log_open (toy_adapter false) x /\ came (HResponse toy_sid (log_body "secret")) (ls_sys x)
    /\ uuid_of_string toy_sid = Some 7%N /\ utf8_valid (log_body "secret") = true.
Proof. exact c137_level_refuted_ex. Qed.

(** C137: a level in force shows the lines of that level and of every more important one, and no others. *)
Theorem c137_threshold
  : forall (in_force : level) (x : line),
    written in_force x = true
    <-> exists more less, [LvError; LvWarn; LvInfo; LvDebug; LvTrace] = more ++ in_force :: less /\ In (ln_level x) (more ++ [in_force]).
Proof. exact c137_threshold_pf. Qed.
Print Assumptions c137_threshold.

Example c137_threshold_witness : written LvInfo (mk_line LvInfo "" []) = true /\ written LvInfo (mk_line LvDebug "" []) = false.
Proof. exact c137_threshold_ex. Qed.

(** C137: the log is an audit trail: no session has a verdict unless the log, at the default level, says that a response was
    received for it and that it was validated. *)
Theorem c137_audit
  : forall (url_parse : string -> option url) (jwe_open : string -> res string) (a : adapter) (x : lsys) (u : uuid) (s : session)
      (o : outcome),
    lreachable url_parse jwe_open a x -> st_get u (hs_store (ls_sys x)) = Some s -> s_status s = Complete o ->
    In (says_received u) (ordinary_log (ls_lines x)) /\ In (says_validating u) (ordinary_log (ls_lines x)).
Proof. exact c137_audit_pf. Qed.
Print Assumptions c137_audit.

Example c137_audit_witness :
  exists x s o, lreachable simple_parse log_open (toy_adapter false) x /\ st_get 7%N (hs_store (ls_sys x)) = Some s /\ s_status s = Complete o.
Proof. exact c137_audit_ex. Qed.

(** C137: the log says that a session was created exactly when the caller was told so. *)
Theorem c137_created
  : forall (url_parse : string -> option url) (jwe_open : string -> res string) (a : adapter) (x : lsys) (u : uuid),
    lreachable url_parse jwe_open a x ->
    In (says_created u) (ordinary_log (ls_lines x))
    <-> exists nonce fresh code m, In (HInitiate nonce fresh u, HReply (RJson code (JObj m))) (hs_log (ls_sys x)).
Proof. exact c137_created_pf. Qed.
Print Assumptions c137_created.

Example c137_created_witness :
  exists x code m, lreachable simple_parse log_open (toy_adapter false) x
    /\ In (HInitiate (Some "nonce") 1%N 7%N, HReply (RJson code (JObj m))) (hs_log (ls_sys x)).
Proof. exact c137_created_ex. Qed.

(** C137: a session can be in the store although no line of the log, at any level, names it: its request was dropped after
    the session was stored. *)
Theorem c137_unnamed_refuted
  : forall (url_parse : string -> option url) (jwe_open : string -> res string) (a : adapter) (nonce : option string)
      (fresh id : uuid) (s : session) (dest : url),
    rb_prepare url_parse (initiate_builder a nonce fresh) id (ap_wallet a) = Ok (s, dest) ->
    exists x, lreachable url_parse jwe_open a x /\ st_get id (hs_store (ls_sys x)) = Some s
      /\ forall l, In l (ls_lines x) -> forall u, ~ mentions u l.
Proof. exact c137_unnamed_refuted_pf. Qed.
Print Assumptions c137_unnamed_refuted.

Example c137_unnamed_refuted_witness : is_ok (rb_prepare simple_parse (initiate_builder (toy_adapter false) (Some "n") 1%N) 7%N (ap_wallet (toy_adapter false))) = true.
Proof. exact c137_unnamed_refuted_ex. Qed.
