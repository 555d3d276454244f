(** What stands on the console of the command line verifier (C118) *)
From Coq Require Import Lia ZArith.
From Verif Require Import Base BaseFacts Utf8 Json JsonFacts JsonText JsonTextFacts JsonPretty PrettyFacts Base64Facts Url UrlEncoded Params Dcql Request Response Session
  Builder Server ExVerifier ExHttp ExWeb ExCli ExConsole ExCliWeb ExPrint.
From Verif Require Import PfBuilder PfExCli SpecObject SpecExample PfExample SpecVerifierEx PfExServer HostFacts SpecWeb SpecConsole PfConsole SpecCliWeb PfCliWeb SpecPrint.
From Verif Require Import PfPrint.

(** C118: whatever wallets and others send, every line on the console is one of the program's own messages or a line of indented JSON. *)
Theorem c118_lines :
  forall (m : store) (x : ksys) (calls : list string) (line : string),
    ksteps (ks_init m) x -> calls_of (ks_log x) calls -> line_in line (console calls) ->
    In line messages \/ json_line line.
Proof. exact c118_lines_pf. Qed.
Print Assumptions c118_lines.

Example c118_lines_witness : exists x calls line, ksteps (ks_init (fst cli_toy)) x /\ calls_of (ks_log x) calls /\ line_in line (console calls)
  /\ line = "    " +:+ print_str (hd "" forging_ids).
Proof. exact c118_lines_ex. Qed.

(** C118: a line that announces a success, a failure, that the request was fetched or that the verification is complete is on the
    console only if a response posted for this session was found good or was refused, the request was fetched, or the program has completed. *)
Theorem c118_says :
  forall (url_parse : string -> option url) (public : url) (types : list string) (fresh id : uuid) (m : store) (dest : url)
      (x : ksys) (calls : list string) (line : string),
    cli_setup url_parse public types fresh id = (m, Ok dest) -> ksteps (ks_init m) x ->
    calls_of (ks_log x) calls -> line_in line (console calls) ->
    (line = "[+] Status: SUCCESS" -> exists q t info, judged id (ks_log x) q (Unencoded t) (OSuccess info))
    /\ (line = "[-] Status: FAILED" -> exists q jwe reason, judged id (ks_log x) q (Jwt jwe) (OFailure reason))
    /\ (line = "[*] Status: REQUEST FETCHED" -> exists q s, fetches "request" q id /\ In (KFor q (KDoes (EvGet id (Ok s)))) (ks_log x))
    /\ (line = "[*] Verification complete. Shutting down..." ->
          In KCompleted (ks_log x) /\ exists q r o, judged id (ks_log x) q r o).
Proof. exact c118_says_pf. Qed.
Print Assumptions c118_says.

Example c118_says_witness : exists dest x calls, cli_setup simple_parse (toy_url "https://v.example/") ["ldp_vc"] 1%N 7%N = (fst cli_toy, Ok dest)
  /\ ksteps (ks_init (fst cli_toy)) x /\ calls_of (ks_log x) calls /\ line_in "[+] Status: SUCCESS" (console calls).
Proof. exact c118_says_ex. Qed.

(** C118: the console holds no control characters of ASCII other than line ends (but for DEL). *)
Theorem c118_plain :
  forall (m : store) (x : ksys) (calls : list string) (before after : string) (c : ascii),
    ksteps (ks_init m) x -> calls_of (ks_log x) calls -> console calls = before +:+ String c after ->
    c = line_feed \/ (32 <= byte c)%N.
Proof. exact c118_plain_pf. Qed.
Print Assumptions c118_plain.

Example c118_plain_witness : exists x calls c after, ksteps (ks_init (fst cli_toy)) x /\ calls_of (ks_log x) calls /\ console calls = "" +:+ String c after.
Proof. exact c118_plain_ex. Qed.

(** C118: what is printed with a success is JSON text for what the response contained: how many credentials, and for which queries. *)
Theorem c118_verdict :
  forall (url_parse : string -> option url) (public : url) (types : list string) (fresh id : uuid) (m : store) (dest : url)
      (x : ksys) (q : hrequest) (info : json),
    cli_setup url_parse public types fresh id = (m, Ok dest) -> ksteps (ks_init m) x ->
    In (KFor q (KShown (DSuccess info))) (ks_log x) ->
    exists q' t, judged id (ks_log x) q' (Unencoded t) (OSuccess info)
      /\ ((Z.of_nat (length (ur_vp_token t)) < 2 ^ 64)%Z ->
          exists call info', In call (prints (KFor q (KShown (DSuccess info)))) /\ parse_raw call = Some info'
            /\ members_are info' [("credentials_received", JInt (Z.of_nat (length (ur_vp_token t))));
                                  ("credential_query_ids", JArr (map JStr (map fst (ur_vp_token t))))]).
Proof. exact c118_verdict_pf. Qed.
Print Assumptions c118_verdict.

Example c118_verdict_witness : exists dest x q info, cli_setup simple_parse (toy_url "https://v.example/") ["ldp_vc"] 1%N 7%N = (fst cli_toy, Ok dest)
  /\ ksteps (ks_init (fst cli_toy)) x /\ In (KFor q (KShown (DSuccess info))) (ks_log x).
Proof. exact c118_verdict_ex. Qed.

Theorem c118_control_refuted :
  exists (url_parse : string -> option url) (public : url) (types : list string) (fresh id : uuid) (m : store) (dest : url)
      (x : ksys) (calls : list string) (before after : string),
    cli_setup url_parse public types fresh id = (m, Ok dest) /\ ksteps (ks_init m) x /\ calls_of (ks_log x) calls
    /\ console calls = before +:+ String "194" (String "155" ("2J" +:+ after)).
Proof. exact c118_control_refuted_pf. Qed.
Print Assumptions c118_control_refuted.
