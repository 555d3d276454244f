(** References relative to URLs (C114) *)
From Coq Require Import Lia ZArith.
From Verif Require Import Base BaseFacts Utf8 Utf8Facts JsonText JsonTextFacts Base64Facts UrlEncoded UrlEncodedFacts Url Effects
  WebUrl SpecWebUrl PfWebUrl PfWebReads WebJoin SpecHttpUri SpecReqwest SpecWebJoin.
From Verif Require Import PfWebJoin.

(** C114: what a reference found at a web URL means: it is accepted, and means a URL, exactly when the URL standard says so. *)
Theorem c114_resolves :
  forall (domain ipv6 : string -> option string) (base : url), special (u_scheme base) -> (exists x, u_path base = "/" +:+ x) ->
    forall s u, web_join domain ipv6 base s = Some u <-> resolves domain ipv6 base s u.
Proof. exact c114_resolves_pf. Qed.
Print Assumptions c114_resolves.

Example c114_resolves_witness :
  exists base, web_parse toy_domain toy_ipv6 "https://me@v.example:8443/a/b?q#f" = Some base /\ special (u_scheme base) /\ u_path base = "/a/b"
    /\ map (fun s => option_map url_str (web_join toy_domain toy_ipv6 base s))
         ["/c"; "c/../d e"; "?x"; "#y"; ""; "//w.example"; "https:c"; "HTTP:\\w.example"; "\\\w.example"; "../../.."; "mailto:me"; "https:"]
       = [Some "https://me@v.example:8443/c"; Some "https://me@v.example:8443/a/d%20e"; Some "https://me@v.example:8443/a/b?x"; Some "https://me@v.example:8443/a/b?q#y";
          Some "https://me@v.example:8443/a/b?q"; Some "https://w.example/"; Some "https://me@v.example:8443/a/c"; Some "http://w.example/"; Some "https://w.example/";
          Some "https://me@v.example:8443/"; Some "mailto:me"; Some "https://me@v.example:8443/a/b?q"].
Proof. exact c114_resolves_ex. Qed.
