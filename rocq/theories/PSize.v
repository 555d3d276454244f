(** How large things get (C136) *)
From Coq Require Import Lia.
From Verif Require Import Base BaseFacts Utf8 Json JsonFacts JsonText JsonTextFacts Base64 Serde Url UrlEncoded UrlEncodedFacts Object Params Dcql Formats Effects Jwt Request Response
  ExMatcher ExWallet SpecRequest PfRequest PfResolve SpecResponse Base64Facts PfEncodings SpecExample PfExample PfWritten SpecSize.
From Verif Require Import PfSize.

(** C136: A JSON value is never larger than the text it was read from. *)
Theorem c136_json_read : forall s v, json_of_text s = Some v -> value_size v <= String.length s.
Proof. exact c136_json_read_pf. Qed.
Print Assumptions c136_json_read.

Example c136_json_read_witness : option_map value_size (json_of_text "{""a"":[1,""xyz"",null],""a"":2.50}") = Some 6.
Proof. exact c136_json_read_ex. Qed.

(** C136: The text of a JSON value is at most twenty-five times as large as the value. *)
Theorem c136_json_written : forall v, jwf v = true -> String.length (jprint v) <= 25 * value_size v.
Proof. exact c136_json_written_pf. Qed.
Print Assumptions c136_json_written.

Example c136_json_written_witness : jwf (JArr [JInt (-9223372036854775808); JStr (s1 (chr 1))]) = true /\ String.length (jprint (JArr [JInt (-9223372036854775808); JStr (s1 (chr 1))])) = 31.
Proof. exact c136_json_written_ex. Qed.

(** C136: The fields of a form are together at most three times as large as its text, and there are not more of them than it has characters. *)
Theorem c136_form_read : forall s l, SpecEncodings.form_text s l -> fields_size l <= 3 * String.length s /\ length l <= String.length s.
Proof. exact c136_form_read_pf. Qed.
Print Assumptions c136_form_read.

Example c136_form_read_witness : SpecEncodings.form_text "a=%41&&b" [("a", "A"); ("b", "")].
Proof. exact c136_form_read_ex. Qed.

(** C136: The text of a form is at most three times as large as its fields, plus two characters for each of them. *)
Theorem c136_form_written : forall l, String.length (form_serialize l) <= 3 * fields_size l + 2 * length l.
Proof. exact c136_form_written_pf. Qed.
Print Assumptions c136_form_written.

Example c136_form_written_witness : String.length (form_serialize [("a", "&"); ("b", "")]) = 8.
Proof. exact c136_form_written_ex. Qed.

(** C136: What a wallet gets to process is never larger than what it was sent: a request object is at most as large as the token it came in, and a
    request given directly at most four times as large as the query. *)
Theorem c136_request :
  forall (url_parse : string -> option url) (ssi_header : obj -> option bool) (uri_ok : string -> bool) (http : http_client)
    (query : string) (r : auth_request) (a : aro) (jwt : option string),
    from_query_params url_parse query = Ok r -> snd (resolve_request url_parse ssi_header uri_ok http r) = Ok (a, jwt) ->
    value_size (aro_to_json a) <= match jwt with Some t => String.length t | None => 1 + 4 * String.length query end.
Proof. exact c136_request_pf. Qed.
Print Assumptions c136_request.

Example c136_request_witness : is_ok (from_query_params simple_parse "client_id=c&nonce=a&nonce=b") = true.
Proof. exact c136_request_ex. Qed.

(** C136: What a verifier gets to process is at most three times as large as the body it was sent. *)
Theorem c136_response : forall (body : string) (r : auth_response), from_form body = Ok r -> response_size r <= 3 * String.length body.
Proof. exact c136_response_pf. Qed.
Print Assumptions c136_response.

Example c136_response_witness : is_ok (from_form "state=1&vp_token=%7B%22a%22:[]}") = true.
Proof. exact c136_response_ex. Qed.

(** C136: The form of a response is at most seventy-five times as large as the response and the number of its ids. *)
Theorem c136_answer :
  forall (t : vp_token) (state : option string), token_ok t ->
    String.length (unencoded_form (mk_unencoded t state)) <= 75 * (token_size t + length t) + 3 * text_size state + 150.
Proof. exact c136_answer_pf. Qed.
Print Assumptions c136_answer.

Example c136_answer_witness : token_ok PfResponse.toy_token /\ Nat.ltb 0 (token_size PfResponse.toy_token) = true.
Proof. exact c136_answer_ex. Qed.

(** C136: The example wallet gives as many copies of credentials as there are credential queries. *)
Theorem c136_copies :
  forall (lower : string -> string) (store : list credential) (q : dcql) (sel : selection), match_query lower store q = Ok sel ->
    sum (map (fun e => length (snd e)) sel) = length (dq_credentials q).
Proof. exact c136_copies_pf. Qed.
Print Assumptions c136_copies.

Example c136_copies_witness :
  match_query (fun s => s) [pid] (dcql_new [pid_query "a" "urn:pid" "age"; pid_query "a" "urn:pid" "age"]) = Ok [("a", [mc_raw pid; mc_raw pid])].
Proof. exact c136_copies_ex. Qed.

(** C136: But a request can make the example wallet's answer larger than itself by any factor a credential is: twenty-one bytes for each copy
    get that many copies of the same credential. *)
Theorem c136_amplify_refuted :
  forall (lower sign : string -> string) (now : Z) (c : credential) (nonce audience : string) (n : nat), mc_format c = DcSdJwt ->
    exists q, dcql_of_json (again (S n)) = Ok q /\ value_size (again (S n)) = 34 + 21 * n
      /\ match_query lower [c] q = Ok [("a", repeat (mc_raw c) (S n))]
      /\ build_vp_token sign now [("a", repeat (mc_raw c) (S n))] nonce audience = [("a", repeat (present sign now nonce audience (mc_raw c)) (S n))].
Proof. exact c136_amplify_refuted_pf. Qed.
Print Assumptions c136_amplify_refuted.
