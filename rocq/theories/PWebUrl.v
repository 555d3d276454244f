(** Reading and writing URLs (C112) *)
From Coq Require Import Lia.
From Verif Require Import Base BaseFacts Utf8 Utf8Facts JsonText JsonTextFacts Base64Facts UrlEncoded UrlEncodedFacts Url WebUrl SpecWebUrl.
From Verif Require Import PfWebUrl.

(** C112: reading and writing URLs: with a host reader as the standard describes it, what is read from any text is a
    URL in normal form, and every URL in normal form is written as a text that is read as that URL. *)
Theorem c112_normal :
  forall domain ipv6 : string -> option string, hosts_ok domain ipv6 ->
    (forall s u, web_parse domain ipv6 s = Some u -> normal domain ipv6 u)
    /\ (forall u, normal domain ipv6 u -> web_parse domain ipv6 (url_str u) = Some u).
Proof. exact c112_normal_pf. Qed.
Print Assumptions c112_normal.

Example c112_normal_witness :
  hosts_ok toy_domain toy_ipv6
  /\ option_map url_str (web_parse toy_domain toy_ipv6 " HTTP:\\Me:@V.Example:080\a\..\b c?q'#f g") = Some "http://Me@v.example/b%20c?q%27#f%20g"
  /\ option_map url_str (web_parse toy_domain toy_ipv6 "openid4vp://") = Some "openid4vp://"
  /\ option_map url_str (web_parse toy_domain toy_ipv6 "https://[::1]:8443/./x?") = Some "https://[::1]:8443/x?"
  /\ option_map url_str (web_parse toy_domain toy_ipv6 "web:/..//x") = Some "web:/.//x"
  /\ option_map url_str (web_parse toy_domain toy_ipv6 "did:web:v.example") = Some "did:web:v.example"
  /\ web_parse toy_domain toy_ipv6 "https://" = None /\ web_parse toy_domain toy_ipv6 "v.example" = None.
Proof. exact c112_normal_ex. Qed.

(** C112: what was read is written as ASCII text that is read as the same URL; two URLs that were read are the same
    when they are written the same. *)
Theorem c112_reread :
  forall domain ipv6 : string -> option string, hosts_ok domain ipv6 ->
    forall s u, web_parse domain ipv6 s = Some u ->
      web_parse domain ipv6 (url_str u) = Some u
      /\ (forall c, In c (chars (url_str u)) -> (32 <= byte c <= 126)%N)
      /\ utf8_valid (url_str u) = true
      /\ (forall s' u', web_parse domain ipv6 s' = Some u' -> url_str u' = url_str u -> u' = u).
Proof. exact c112_reread_pf. Qed.
Print Assumptions c112_reread.

Example c112_reread_witness :
  exists u u', web_parse toy_domain toy_ipv6 "https://v.example:443/a/../request" = Some u
    /\ web_parse toy_domain toy_ipv6 "HTTPS:v.example/request" = Some u' /\ url_str u' = url_str u /\ url_str u = "https://v.example/request".
Proof. exact c112_reread_ex. Qed.
