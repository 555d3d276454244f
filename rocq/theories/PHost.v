(** Names and IPv4 addresses in URLs (C115) *)
From Coq Require Import Lia ZArith.
From Verif Require Import Base BaseFacts Utf8 Base64Facts JsonText JsonTextFacts UrlEncoded Url WebUrl WebHost SpecWebUrl SpecHttpUri SpecHost PfWebUrl PfWebReads
  HostFacts PfIp.
From Verif Require Import PfHost.

(** C115: the name of a host in a web URL: escapes are decoded and letters made small; what ends in a number is an IPv4
    address, written in any of its forms and printed with four numbers, or refused; every other name that has no forbidden
    character is taken as it is. *)
Theorem c115_domain :
  forall idna s t, web_domain idna s = Some t <->
    exists d, named_by idna s d /\ d <> ""
      /\ (numeric d /\ (exists n, address4 d n /\ printed4 n t) \/ ~ numeric d /\ t = d).
Proof. exact c115_domain_pf. Qed.
Print Assumptions c115_domain.

Example c115_domain_witness :
  map (web_domain no_idna) ["V.Example"; "v%2Eexample"; "a_b.example."; "0x7f.1"; "127.0.0.1."; "017700000001"; "4294967295"; "a%b"; "1.2.3.4.a"]
    = [Some "v.example"; Some "v.example"; Some "a_b.example."; Some "127.0.0.1"; Some "127.0.0.1"; Some "127.0.0.1"; Some "255.255.255.255"; None; Some "1.2.3.4.a"]
  /\ map (web_domain no_idna) [""; "a b"; "a%2Fb"; "256.1.1.1"; "1.2.3.4.5"; "4294967296"; "a.1"; "1..2"; "09"; "0xg"; "a%00"] 
    = [None; None; None; None; None; None; None; None; None; Some "0xg"; None].
Proof. exact c115_domain_ex. Qed.

(** C115: these readers keep the contract that the theorems about URLs (C112 to C114) ask of host readers: what they give is
    read as itself and has no character that would end the host. *)
Theorem c115_hosts :
  forall idna, idna_ok idna -> hosts_ok (web_domain idna) web_ipv6 /\ eight_groups web_ipv6.
Proof. exact c115_hosts_pf. Qed.
Print Assumptions c115_hosts.

Example c115_hosts_witness : idna_ok no_idna /\ idna_ok (fun s => if String.eqb s "XN--BCHER-KVA" then Some "xn--bcher-kva" else if String.eqb s "xn--bcher-kva" then Some s else None).
Proof. exact c115_hosts_ex. Qed.
