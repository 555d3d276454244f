(** Where redirects lead (C114) *)
From Coq Require Import Lia ZArith.
From Verif Require Import Base BaseFacts Utf8 Utf8Facts Json JsonText JsonTextFacts Base64Facts UrlEncoded UrlEncodedFacts Url Object Params Metadata Effects Request Verify Response Wallet
  SpecRequest SpecResponse PfRequest PfResponse SpecWallet PfResolve PfWallet SpecEncodings PfEncodings Reqwest SpecReqwest PfReqwest.
From Verif Require Import WebUrl SpecWebUrl PfWebUrl PfWebReads WebJoin SpecHttpUri SpecWebJoin PfWebJoin HttpUri PfHttpUri.
From Verif Require Import PfJoinFlow.

(** C114: a reference found at a web URL that was read from a text means a URL in normal form, which is read again as it
    is written; and unless it names a scheme or starts with two slashes it stays with the scheme, the user, the host and
    the port of the URL it was found at. *)
Theorem c114_stays :
  forall domain ipv6 : string -> option string, hosts_ok domain ipv6 ->
    forall t base s u, web_parse domain ipv6 t = Some base -> web_join domain ipv6 base s = Some u ->
      normal domain ipv6 u /\ web_parse domain ipv6 (url_str u) = Some u
      /\ (~ names_place s -> same_place base u).
Proof. exact c114_stays_pf. Qed.
Print Assumptions c114_stays.

Example c114_stays_witness :
  exists base u, web_parse toy_domain toy_ipv6 "https://v.example/a" = Some base
    /\ web_join toy_domain toy_ipv6 base " b/../x y" = Some u /\ url_str u = "https://v.example/x%20y" /\ ~ names_place " b/../x y"
    /\ names_place "b:c" /\ names_place "\/o.example".
Proof. exact c114_stays_ex. Qed.

(** C114: the library's own client, given a URL read by the standard: every request it sends goes to an http(s) URL, and that
    is at the server the first went to unless some server before it answered with a redirect whose Location names a scheme
    or starts with two slashes. *)
Theorem c114_client :
  forall domain ipv6 : string -> option string, hosts_ok domain ipv6 ->
    forall (net : http_req -> res exchange) (limit : nat) (r : http_req) (u : url), web_parse domain ipv6 (rq_uri r) = Some u ->
      forall before q after, fst (execute (web_parse domain ipv6) (web_join domain ipv6) web_uri net limit r) = before ++ q :: after ->
        exists v, web_parse domain ipv6 (rq_uri q) = Some v /\ http_url v
          /\ (same_place u v \/ sent_away net before).
Proof. exact c114_client_pf. Qed.
Print Assumptions c114_client.

Example c114_client_witness :
  map (fun q => rq_uri q) (fst (execute (web_parse toy_domain toy_ipv6) (web_join toy_domain toy_ipv6) web_uri (toy_net 302 "../done?x#y") 10 toy_post)) = ["https://v.example/resp"; "https://v.example/done?x"]
  /\ map (fun q => rq_uri q) (fst (execute (web_parse toy_domain toy_ipv6) (web_join toy_domain toy_ipv6) web_uri (toy_net 302 "//o.example") 10 toy_post)) = ["https://v.example/resp"; "https://o.example/"].
Proof. exact c114_client_ex. Qed.

(** C114: a wallet with the library's own client submits its response at the server the response_uri names, and sends anything
    elsewhere only after a server it was sent to answered with a redirect whose Location names a scheme or starts with two slashes. *)
Theorem c114_submit :
  forall domain ipv6 : string -> option string, hosts_ok domain ipv6 ->
    forall (net : http_req -> res exchange) (limit : nat) (o : obj) (a : aro) (resp : auth_response),
      aro_of_obj (web_parse domain ipv6) o = Ok a ->
      let client := reqwest_client (web_parse domain ipv6) (web_join domain ipv6) web_uri net limit in
      let sent := wire (web_parse domain ipv6) (web_join domain ipv6) web_uri net limit
                    (fst (submit_response (web_parse domain ipv6) web_uri client a resp)) in
      forall before q after, sent = before ++ q :: after ->
        exists s u v, text_at "response_uri" o s /\ web_parse domain ipv6 s = Some u
          /\ web_parse domain ipv6 (rq_uri q) = Some v /\ http_url v /\ (same_place u v \/ sent_away net before).
Proof. exact c114_submit_pf. Qed.
Print Assumptions c114_submit.

Example c114_submit_witness : option_map away_posts away_aro = Some [("POST", "https://v.example/resp"); ("POST", "https://v.example/again")].
Proof. exact c114_submit_ex. Qed.

(** C114: validating a request by reference with the library's own client asks the server the request_uri names, and others only
    after a redirect that names a scheme or starts with two slashes. *)
Theorem c114_validate :
  forall domain ipv6 : string -> option string, hosts_ok domain ipv6 ->
    forall (ssi_header : obj -> option bool) (net : http_req -> res exchange) (limit : nat) (w : wallet) (r : auth_request) t u,
      ar_indirection r = ByReference u -> web_parse domain ipv6 t = Some u ->
      let sent := wire (web_parse domain ipv6) (web_join domain ipv6) web_uri net limit
                    (fst (validate (web_parse domain ipv6) ssi_header web_uri w r)) in
      forall before q after, sent = before ++ q :: after ->
        exists v, web_parse domain ipv6 (rq_uri q) = Some v /\ http_url v /\ (same_place u v \/ sent_away net before).
Proof. exact c114_validate_pf. Qed.
Print Assumptions c114_validate.

Example c114_validate_witness :
  map rq_uri (wire (web_parse toy_domain toy_ipv6) (web_join toy_domain toy_ipv6) web_uri other_net 10
    (fst (validate (web_parse toy_domain toy_ipv6) any_header web_uri moved_wallet (mk_ar None (ByReference sample_uri)))))
  = ["https://v.example/req"; "https://v.example/other"].
Proof. exact c114_validate_ex. Qed.
