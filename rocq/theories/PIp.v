(** IPv6 addresses in URLs (C115) *)
From Coq Require Import Lia ZArith.
From Verif Require PfBuilder.
From Verif Require Import Base BaseFacts Utf8 JsonText JsonTextFacts UuidFacts UrlEncoded Url WebUrl WebHost SpecWebUrl SpecHttpUri SpecHost PfWebUrl PfWebReads HostFacts.
From Verif Require Import PfIp.

(** C115: between the brackets of a URL, exactly the IPv6 addresses are read, and they are printed in the one form of RFC
    5952. *)
Theorem c115_ipv6 :
  forall s t, web_ipv6 s = Some t <-> exists l, address6 s l /\ printed6 l t.
Proof. exact c115_ipv6_pf. Qed.
Print Assumptions c115_ipv6.

Example c115_ipv6_witness :
  map web_ipv6 ["::1"; "2001:DB8:0:0:1::"; "0:0:1:0:0:0:0:1"; "1:0:2:0:3:0:4:0"; "::ffff:192.0.2.1"; "1:2:3:4:5:6:7:8"; "::"]
    = [Some "::1"; Some "2001:db8:0:0:1::"; Some "0:0:1::1"; Some "1:0:2:0:3:0:4:0"; Some "::ffff:c000:201"; Some "1:2:3:4:5:6:7:8"; Some "::"]
  /\ map web_ipv6 [""; ":"; ":::"; "1::2::3"; "1:2:3:4:5:6:7"; "1:2:3:4:5:6:7:8:9"; "12345::"; "::1.2.3.256"; "::1.2.3"; "::01.2.3.4"; "1:"; "::g"]
    = repeat None 12.
Proof. exact c115_ipv6_ex. Qed.

(** C115: two texts name the same IPv6 address exactly if they are printed alike, and what is printed names that address
    and is not changed again. *)
Theorem c115_ipv6_same :
  forall s s' l l' t t', address6 s l -> address6 s' l' -> web_ipv6 s = Some t -> web_ipv6 s' = Some t' ->
    (l = l' <-> t = t') /\ address6 t l /\ web_ipv6 t = Some t.
Proof. exact c115_ipv6_same_pf. Qed.
Print Assumptions c115_ipv6_same.

Example c115_ipv6_same_witness :
  pieces "::ffff:192.0.2.1" = Some [0; 0; 0; 0; 0; 65535; 49152; 513]%N /\ pieces "0:0::FFFF:c000:0201" = pieces "::ffff:192.0.2.1"
  /\ web_ipv6 "0:0::FFFF:c000:0201" = Some "::ffff:c000:201" /\ web_ipv6 "::ffff:192.0.2.1" = Some "::ffff:c000:201".
Proof. exact c115_ipv6_same_ex. Qed.
