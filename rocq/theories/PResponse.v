(** Responses (C42, C43, C44, C71) *)
From Coq Require Import Lia Sorting.Permutation.
From Verif Require Import Base BaseFacts Utf8 Utf8Facts Json JsonFacts JsonText JsonTextFacts Base64Facts UrlEncoded
  UrlEncodedFacts Serde Object Params Response Request Spec ParamFacts SpecRequest PfRequest PfText SpecResponse.
From Verif Require Import PfResponse.

(** C42: an unencoded response written as a form body is read back as the same response, exactly when no
    presentation is a JSON object nested deeper than 125; otherwise the verifier cannot read it at all. *)
Theorem c42_roundtrip :
  forall (t : vp_token) (st : option string), token_ok t -> state_ok st ->
    (nested_at_most 125 t ->
       from_form (unencoded_form (mk_unencoded t st)) = Ok (Unencoded (mk_unencoded t st)))
    /\ (~ nested_at_most 125 t ->
       exists e, from_form (unencoded_form (mk_unencoded t st)) = Err e).
Proof. exact c42_roundtrip_pf. Qed.
Print Assumptions c42_roundtrip.

Example c42_roundtrip_witness :
  token_ok toy_token /\ nested_at_most 125 toy_token /\ state_ok (Some "&vp_token={}").
Proof. exact c42_roundtrip_ex. Qed.

(** C42: so the order in which the token's entries happen to be emitted does not matter. *)
Theorem c42_order :
  forall (t t' : vp_token) (st : option string),
    token_ok t -> nested_at_most 125 t -> state_ok st -> Permutation t t' ->
    exists r, from_form (unencoded_form (mk_unencoded t' st)) = Ok (Unencoded (mk_unencoded r st))
      /\ Permutation t r /\ forall id, vp_get id r = vp_get id t.
Proof. exact c42_order_pf. Qed.
Print Assumptions c42_order.

Example c42_order_witness : Permutation toy_token (rev toy_token) /\ toy_token <> rev toy_token.
Proof. exact c42_order_ex. Qed.

(** C42: an encrypted response written as a form body is read back as the same encrypted response. *)
Theorem c42_jwt :
  forall jwt : string, utf8_valid jwt = true -> from_form (jwt_form jwt) = Ok (Jwt jwt).
Proof. exact c42_jwt_pf. Qed.
Print Assumptions c42_jwt.

Example c42_jwt_witness : utf8_valid "a.b&response=c" = true.
Proof. exact c42_jwt_ex. Qed.

Theorem c42_deep_refuted :
  exists t, token_ok t /\ exists e, from_form (unencoded_form (mk_unencoded t None)) = Err e.
Proof. exact c42_deep_refuted_pf. Qed.
Print Assumptions c42_deep_refuted.

(** C43: the body of an unencoded response is "vp_token=A" or "vp_token=A&state=B" where A and B contain
    neither '&' nor '='; read as a form it has exactly those pairs, A decoding to JSON text of the token
    and B to the state. *)
Theorem c43_no_injection :
  forall (t : vp_token) (st : option string), token_ok t -> state_ok st ->
    exists a text, value_chars a /\ form_dec a = text
      /\ (nested_at_most 125 t -> token_text text t)
      /\ match st with
         | None => unencoded_form (mk_unencoded t st) = "vp_token=" +:+ a
                   /\ form_parse (unencoded_form (mk_unencoded t st)) = [("vp_token", text)]
         | Some s => exists b, value_chars b /\ form_dec b = s
                   /\ unencoded_form (mk_unencoded t st) = "vp_token=" +:+ a +:+ "&state=" +:+ b
                   /\ form_parse (unencoded_form (mk_unencoded t st)) = [("vp_token", text); ("state", s)]
         end.
Proof. exact c43_no_injection_pf. Qed.
Print Assumptions c43_no_injection.

Example c43_no_injection_witness :
  token_ok toy_token /\ state_ok (Some "&vp_token={}") /\
  unencoded_form (mk_unencoded [("a", [VpString "&x="])] (Some "&vp_token={}"))
  = "vp_token=%7B%22a%22%3A%5B%22%26x%3D%22%5D%7D&state=%26vp_token%3D%7B%7D".
Proof. exact c43_no_injection_ex. Qed.

(** C43: responses with the same form body are the same response, at any depth. *)
Theorem c43_injective :
  forall (t t' : vp_token) (st st' : option string),
    token_ok t -> token_ok t' -> state_ok st -> state_ok st' ->
    unencoded_form (mk_unencoded t st) = unencoded_form (mk_unencoded t' st') -> t = t' /\ st = st'.
Proof. exact c43_injective_pf. Qed.
Print Assumptions c43_injective.

Example c43_injective_witness : token_ok toy_token /\ state_ok None.
Proof. exact c43_injective_ex. Qed.

(** C44: a body is read as an encrypted response exactly when it has exactly one 'response' parameter,
    whatever else it contains. *)
Theorem c44_encrypted :
  forall (body r : string), from_form body = Ok (Jwt r) <-> single "response" r (form_parse body).
Proof. exact c44_encrypted_pf. Qed.
Print Assumptions c44_encrypted.

Example c44_encrypted_witness :
  single "response" "x" (form_parse "vp_token={}&response=x&state=s")
  /\ (forall r, ~ single "response" r (form_parse "response=x&vp_token={}&response=y")).
Proof. exact c44_encrypted_ex. Qed.

(** C44: a body is read as an unencoded response exactly when it does not have exactly one 'response'
    parameter, has exactly one 'vp_token' parameter, which is the JSON text of the token, and at most one
    'state' parameter, which is the state. *)
Theorem c44_unencoded :
  forall (body : string) (st : option string),
    (forall t, from_form body = Ok (Unencoded (mk_unencoded t st)) ->
       (forall r, ~ single "response" r (form_parse body))
       /\ (exists v, single "vp_token" v (form_parse body) /\ token_text v t)
       /\ optional "state" st (form_parse body))
    /\ (forall t v, (forall r, ~ single "response" r (form_parse body)) ->
       single "vp_token" v (form_parse body) -> token_text v t -> optional "state" st (form_parse body) ->
       exists t', Permutation t t' /\ from_form body = Ok (Unencoded (mk_unencoded t' st))).
Proof. exact c44_unencoded_pf. Qed.
Print Assumptions c44_unencoded.

Example c44_unencoded_witness :
  from_form "vp_token=%7B%22a%22:[%22x%22],%22b%22:[],%22a%22:[]%7D&state=s&unknown=1"
  = Ok (Unencoded (mk_unencoded [("a", []); ("b", [])] (Some "s"))).
Proof. exact c44_unencoded_ex. Qed.

(** C71: a response converted to JSON is read back as the same response. *)
Theorem c71_roundtrip :
  (forall (t : vp_token) (st : option string), token_ok t ->
     exists t', response_of_json (response_to_json (Unencoded (mk_unencoded t st)))
                = Ok (Unencoded (mk_unencoded t' st)) /\ Permutation t t')
  /\ (forall jwt : string, response_of_json (response_to_json (Jwt jwt)) = Ok (Jwt jwt)).
Proof. exact c71_roundtrip_pf. Qed.
Print Assumptions c71_roundtrip.

Example c71_roundtrip_witness :
  response_of_json (response_to_json (Unencoded (mk_unencoded toy_token (Some "s"))))
  = Ok (Unencoded (mk_unencoded (rev toy_token) (Some "s"))).
Proof. exact c71_roundtrip_ex. Qed.

(** C71: a JSON object is read as an encrypted response only if it is not a readable unencoded one: as JSON,
    unlike as a form, the unencoded reading takes precedence. *)
Theorem c71_precedence :
  (forall (o : obj) (r : string), response_of_json (JObj o) = Ok (Jwt r) <->
     obj_get "response" o = Some (JStr r) /\ exists e, unencoded_of_obj o = Err e)
  /\ (forall (o : obj) (u : unencoded), response_of_json (JObj o) = Ok (Unencoded u) <-> unencoded_of_obj o = Ok u)
  /\ (exists a b, from_form (form_serialize [("vp_token", "{}"); ("response", "x")]) = Ok a
      /\ response_of_json (JObj [("response", JStr "x"); ("vp_token", JObj [])]) = Ok b
      /\ a = Jwt "x" /\ b = Unencoded (mk_unencoded [] None)).
Proof. exact c71_precedence_pf. Qed.
Print Assumptions c71_precedence.

Example c71_precedence_witness : exists u, unencoded_of_obj [("response", JStr "x"); ("vp_token", JObj [])] = Ok u.
Proof. exact c71_precedence_ex. Qed.
