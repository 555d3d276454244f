(** Hosts of web URLs (C115) *)
From Coq Require Import Lia ZArith.
From Verif Require Import Base BaseFacts Utf8 Utf8Facts Base64Facts JsonText JsonTextFacts UrlEncoded UrlEncodedFacts Url WebUrl WebHost SpecWebUrl SpecHttpUri SpecHost PfWebUrl PfWebReads
  HttpUri PfHttpUri HostFacts PfIp PfHost ExCache ExStart SpecStart PfStart.
From Verif Require Import PfHostUrl.

(** C115: web URLs read with these hosts: every host is an IPv6 or IPv4 address in its one printed form or a name of small
    letters that cannot be taken for an address; the URL is written as a text that is read as the same URL. *)
Theorem c115_urls :
  forall idna, idna_ok idna -> forall s u, web_parse (web_domain idna) web_ipv6 s = Some u ->
    web_parse (web_domain idna) web_ipv6 (url_str u) = Some u
    /\ (special (u_scheme u) -> exists a user h p, u_auth u = Some a /\ a = user +:+ h +:+ p
          /\ userinfo user /\ port (u_scheme u) p /\ printed_host h).
Proof. exact c115_urls_pf. Qed.
Print Assumptions c115_urls.

Example c115_urls_witness :
  map (fun s => option_map url_str (plain_web s))
    ["https://0x7f.1:443/a"; "HTTP://V%2eExample/"; "https://me@[2001:DB8::0:1]:8443"; "https://1.2.3.4.5/"; "https://[1::2::3]/"; "https://a%2fb/"]
  = [Some "https://127.0.0.1/a"; Some "http://v.example/"; Some "https://me@[2001:db8::1]:8443/"; None; None; None].
Proof. exact c115_urls_ex. Qed.

(** C115: the host a verifier started at a web URL is certified for is that of the URL, and the file its certificate is kept
    in lies in the directory of the cache: its name has no slash and is no dot name. *)
Theorem c115_start :
  forall idna, idna_ok idna -> forall t u, web_parse (web_domain idna) web_ipv6 t = Some u -> special (u_scheme u) ->
    exists a h, u_auth u = Some a /\ host_in a h /\ printed_host h /\ host_str u = Some h
      /\ exists x, cache_file h = x +:+ ".json" /\ x <> "" /\ forall c, In c (chars x) -> (32 < byte c <= 126)%N /\ c <> "/"%char /\ c <> "."%char.
Proof. exact c115_start_pf. Qed.
Print Assumptions c115_start.

Example c115_start_witness :
  map (fun s => option_map (fun u => option_map cache_file (host_str u)) (plain_web s)) ["https://V.Example:8443/x"; "http://0x7f000001"; "https://a_b%2eexample"; "https://[::1]/"; "https://../"]
  = [Some (Some "v_example.json"); Some (Some "127_0_0_1.json"); Some (Some "a_b_example.json"); Some (Some "[::1].json"); Some (Some "__.json")].
Proof. exact c115_start_ex. Qed.

(** C115: what can be sent to: the HTTP client takes a web URL unless it is too long or the name of its host has one of four
    characters the URL standard allows and RFC 3986 does not; IP addresses are always taken. *)
Theorem c115_takes :
  forall idna, idna_ok idna -> forall t u, web_parse (web_domain idna) web_ipv6 t = Some u -> special (u_scheme u) ->
    (web_uri (url_str u) = true <-> at_most 65534 u /\ forall h, host_str u = Some h -> forall c, In c (chars h) -> ~ In c (chars """`{}"))
    /\ forall h, host_str u = Some h -> (exists n, address4 h n) \/ (exists r, h = "[" +:+ r) -> web_uri (url_str u) = true <-> at_most 65534 u.
Proof. exact c115_takes_pf. Qed.
Print Assumptions c115_takes.

Example c115_takes_witness :
  map (fun s => option_map (fun u => web_uri (url_str u)) (plain_web s)) ["https://v.example/"; "https://0x7f.1"; "https://[::1]:1/"; "https://a{b/"]
  = [Some true; Some true; Some true; Some false].
Proof. exact c115_takes_ex. Qed.
