(** Where the example verifier's endpoints lie (C114) *)
From Verif Require Import Base BaseFacts Url Session Builder ExVerifier SpecVerifierEx PfExInitiate WebUrl SpecWebUrl PfWebUrl PfWebReads PfWebFlow WebJoin PfWebJoin PfInterop.
From Verif Require Import PfSibling.

(** C114: the addresses of the example verifier's endpoints are what the URL standard says "response" and "request" mean at its public
    URL: that URL with the last segment of the path replaced, without query and fragment. *)
Theorem c114_sibling :
  forall (domain ipv6 : string -> option string) (base : url) (segment : string) (r : url),
    special (u_scheme base) -> (exists x, u_path base = "/" +:+ x) -> u_opaque base = false -> segment = "response" \/ segment = "request" ->
    web_join domain ipv6 base segment = Some r <-> sibling base segment r.
Proof. exact c114_sibling_pf. Qed.
Print Assumptions c114_sibling.

Example c114_sibling_witness : exists base, web_parse toy_domain toy_ipv6 "https://v.example:8443/a/b?q#f" = Some base /\ special (u_scheme base) /\ u_opaque base = false
  /\ u_path base = "/a/b" /\ option_map url_str (web_join toy_domain toy_ipv6 base "response") = Some "https://v.example:8443/a/response".
Proof. exact c114_sibling_ex. Qed.
