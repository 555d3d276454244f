(** How a text is read as a URL (C112) *)
From Coq Require Import Lia.
From Verif Require Import Base BaseFacts Utf8 Utf8Facts JsonText JsonTextFacts Base64Facts UrlEncoded UrlEncodedFacts Url WebUrl SpecWebUrl PfWebUrl.
From Verif Require Import PfWebReads.

(** C112: what a text is read as: the text is accepted and read as a URL exactly when the URL standard says so,
    component by component. *)
Theorem c112_reads :
  forall (domain ipv6 : string -> option string) s u, web_parse domain ipv6 s = Some u <-> reads domain ipv6 s u.
Proof. exact c112_reads_pf. Qed.
Print Assumptions c112_reads.

Example c112_reads_witness :
  exists u, reads toy_domain toy_ipv6 " HTTP:\\Me:@V.Example:080\a\..\b c?q'#f g" u /\ url_str u = "http://Me@v.example/b%20c?q%27#f%20g".
Proof. exact c112_reads_ex. Qed.
