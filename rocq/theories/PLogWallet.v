(** What the example wallet logs (C138) *)
From Coq Require Import Lia ZArith.
From Verif Require Import Base BaseFacts Utf8 Json JsonFacts JsonText Serde Url UrlEncoded Object Formats Params Metadata Dcql
  Effects Jwt Request Response Jwe Session Builder Server ExMatcher ExWallet ExVerifier ExLog.
From Verif Require Import Spec SpecObject SpecRequest SpecExample PfBuilder PfResolve PfExample PfInterop SpecLog.
From Verif Require Import PfLogWallet.

(** C138: nothing the example wallet logs, at any level, tells anything of the text of the credentials it holds or of the
    key that signs: wallets that differ only in those leave the same log, but for the size of the answer. *)
Theorem c138_credentials
  : forall (url_parse : string -> option url) (ssi_header : obj -> option bool) (uri_ok : string -> bool)
      (jwk_ok : obj -> bool) (jwe_encrypt : obj -> obj -> obj -> res string) (lower sign sign' : string -> string) (now now' : Z)
      (http : http_client) (endpoint : url) (store store' : list credential) (auto_consent post : bool) (p : params),
    Forall2 same_but_text store store' -> ignores_bodies http -> ignores_contents jwe_encrypt ->
    but_sizes (authorize_lines url_parse ssi_header uri_ok jwk_ok jwe_encrypt lower sign now http endpoint store auto_consent post p)
    = but_sizes (authorize_lines url_parse ssi_header uri_ok jwk_ok jwe_encrypt lower sign' now' http endpoint store' auto_consent post p).
Proof. exact c138_credentials_pf. Qed.
Print Assumptions c138_credentials.

Example c138_credentials_witness :
  Forall2 same_but_text [pid] [other_pid] /\ String.eqb (mc_raw pid) (mc_raw other_pid) = false /\ ignores_bodies (serve 200 "{}")
  /\ ignores_contents (fun h c k => Ok (jprint (JArr [JObj h; JObj c]))) /\ existsb gives_size (log_run (serve 200 "{}") [pid]) = true.
Proof. exact c138_credentials_ex. Qed.

(** C138: at the default level not even the size shows. *)
Theorem c138_ordinary
  : forall (url_parse : string -> option url) (ssi_header : obj -> option bool) (uri_ok : string -> bool)
      (jwk_ok : obj -> bool) (jwe_encrypt : obj -> obj -> obj -> res string) (lower sign sign' : string -> string) (now now' : Z)
      (http : http_client) (endpoint : url) (store store' : list credential) (auto_consent post : bool) (p : params),
    Forall2 same_but_text store store' -> ignores_bodies http -> ignores_contents jwe_encrypt ->
    ordinary_log (authorize_lines url_parse ssi_header uri_ok jwk_ok jwe_encrypt lower sign now http endpoint store auto_consent post p)
    = ordinary_log (authorize_lines url_parse ssi_header uri_ok jwk_ok jwe_encrypt lower sign' now' http endpoint store' auto_consent post p).
Proof. exact c138_ordinary_pf. Qed.
Print Assumptions c138_ordinary.

Example c138_ordinary_witness :
  Forall2 same_but_text [pid] [other_pid] /\ ignores_bodies (serve 200 "{}")
  /\ map ln_text (ordinary_log (log_run (serve 200 "{}") [pid]))
     = ["Received authorization request (GET)"; "Processing authorization request (headless mode)"; "Successfully matched credentials";
        "Successfully built vp_token"; "Submitting response"; "Verifier response received"].
Proof. exact c138_ordinary_ex. Qed.

(** C138: the parameters of the request, with its nonce and its state, are attached to every line at every level. *)
Theorem c138_parameters
  : forall (url_parse : string -> option url) (ssi_header : obj -> option bool) (uri_ok : string -> bool)
      (jwk_ok : obj -> bool) (jwe_encrypt : obj -> obj -> obj -> res string) (lower sign : string -> string) (now : Z)
      (http : http_client) (endpoint : url) (store : list credential) (auto_consent post : bool) (p : params),
    let w := authorize_lines url_parse ssi_header uri_ok jwk_ok jwe_encrypt lower sign now http endpoint store auto_consent post p in
    ordinary_log w <> []
    /\ forall x, In x w -> exists l, In (APairs l) (ln_args x)
         /\ (forall v, pa_state p = Some v -> In ("state", v) l) /\ (forall v, pa_nonce p = Some v -> In ("nonce", v) l)
         /\ (forall v, pa_request p = Some v -> In ("request", v) l).
Proof. exact c138_parameters_pf. Qed.
Print Assumptions c138_parameters.

Example c138_parameters_witness : forallb (fun x => existsb (fun a => match a with APairs _ => true | _ => false end) (ln_args x)) (log_run echo [pid]) = true.
Proof. exact c138_parameters_ex. Qed.

(** C138: a request fails exactly when the log, at the default level, reports a failure. *)
Theorem c138_failures
  : forall (url_parse : string -> option url) (ssi_header : obj -> option bool) (uri_ok : string -> bool)
      (jwk_ok : obj -> bool) (jwe_encrypt : obj -> obj -> obj -> res string) (lower sign : string -> string) (now : Z)
      (http : http_client) (endpoint : url) (store : list credential) (auto_consent post : bool) (p : params),
    (exists e, snd (authorize url_parse ssi_header uri_ok jwk_ok jwe_encrypt lower sign now http endpoint store auto_consent p) = Err e)
    <-> exists x, In x (authorize_lines url_parse ssi_header uri_ok jwk_ok jwe_encrypt lower sign now http endpoint store auto_consent post p)
          /\ reports_failure x.
Proof. exact c138_failures_pf. Qed.
Print Assumptions c138_failures.

Example c138_failures_witness :
  is_ok (snd (ex_run (Some "redirect_uri:https://e.example/") (ex_object "redirect_uri:https://e.example/"))) = false
  /\ existsb failing (log_run (serve 200 "{}") [pid]) = false /\ existsb failing (log_run echo [pid]) = true.
Proof. exact c138_failures_ex. Qed.

(** C138: something is sent to the verifier exactly when a line of the log gives the size of the answer. *)
Theorem c138_sent
  : forall (url_parse : string -> option url) (ssi_header : obj -> option bool) (uri_ok : string -> bool)
      (jwk_ok : obj -> bool) (jwe_encrypt : obj -> obj -> obj -> res string) (lower sign : string -> string) (now : Z)
      (http : http_client) (endpoint : url) (store : list credential) (auto_consent post : bool) (p : params),
    posts (http_events (fst (authorize url_parse ssi_header uri_ok jwk_ok jwe_encrypt lower sign now http endpoint store auto_consent p))) <> []
    <-> exists x, In x (authorize_lines url_parse ssi_header uri_ok jwk_ok jwe_encrypt lower sign now http endpoint store auto_consent post p)
          /\ gives_size x = true.
Proof. exact c138_sent_pf. Qed.
Print Assumptions c138_sent.

Example c138_sent_witness : match log_posted (serve 200 "{}") with [r] => rq_uri r | _ => EmptyString end = "https://v.example/resp".
Proof. exact c138_sent_ex. Qed.

(** C138: the answer itself is written to the log, at the default level, when a verifier that refuses it sends it back. *)
Theorem c138_echo_refuted
  : exists (url_parse : string -> option url) (ssi_header : obj -> option bool) (uri_ok : string -> bool)
      (jwk_ok : obj -> bool) (jwe_encrypt : obj -> obj -> obj -> res string) (lower sign : string -> string) (now : Z)
      (http : http_client) (endpoint : url) (store : list credential) (auto_consent post : bool) (p : params) (r : http_req) (x : line),
    posts (http_events (fst (authorize url_parse ssi_header uri_ok jwk_ok jwe_encrypt lower sign now http endpoint store auto_consent p))) = [r]
    /\ In x (ordinary_log (authorize_lines url_parse ssi_header uri_ok jwk_ok jwe_encrypt lower sign now http endpoint store auto_consent post p))
    /\ In (AText (rq_body r)) (ln_args x).
Proof. exact c138_echo_refuted_pf. Qed.
Print Assumptions c138_echo_refuted.
