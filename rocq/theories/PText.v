(** JSON text and JWT assembly (C65, C66) *)
From Coq Require Import Lia.
From Verif Require Import Base BaseFacts Utf8 Json JsonFacts JsonText JsonTextFacts Base64 Base64Facts Url Jwt Request Client.
From Verif Require Import PfText.

(** C66: printing a JSON value and parsing the text yields the same value, exactly for nesting depth at
    most 127; deeper values are not parsed back at all. *)
Theorem c66_roundtrip :
  forall j : json, jwf j = true ->
    (jdepth j <= 127 -> json_of_text (jprint j) = Some j)
    /\ (127 < jdepth j -> json_of_text (jprint j) = None).
Proof. exact c66_roundtrip_pf. Qed.
Print Assumptions c66_roundtrip.

Example c66_roundtrip_witness :
  jwf (JObj [("a", JArr [JStr "x""y"; JInt (-3); JNull]); ("b", JObj [])]) = true
  /\ json_of_text (jprint (nest 127)) = Some (nest 127) /\ json_of_text (jprint (nest 128)) = None.
Proof. exact c66_roundtrip_ex. Qed.

(** C66: different values print differently, whatever their depth. *)
Theorem c66_injective :
  forall j k : json, jwf j = true -> jwf k = true -> jprint j = jprint k -> j = k.
Proof. exact c66_injective_pf. Qed.
Print Assumptions c66_injective.

Example c66_injective_witness : jwf (JStr "1") = true /\ jwf (JInt 1) = true.
Proof. exact c66_injective_ex. Qed.

(** C66: whatever text was parsed, printing and parsing again gives the same value; parsed values have
    sorted distinct keys, valid text and bounded depth. *)
Theorem c66_parsed :
  forall (s : string) (j : json),
    json_of_text s = Some j -> jwf j = true /\ jdepth j <= 127 /\ json_of_text (jprint j) = Some j.
Proof. exact c66_parsed_pf. Qed.
Print Assumptions c66_parsed.

Example c66_parsed_witness :
  json_of_text " { ""b"" : [1 , true], ""a"":null , ""b"":""A"" } "
  = Some (JObj [("a", JNull); ("b", JStr "A")]).
Proof. exact c66_parsed_ex. Qed.

(** C66: of several members with the same name the last one counts. *)
Theorem c66_last_wins :
  forall (m : list (string * json)) (k : string) (v : json) (o : obj),
    parse_raw (jprint (JObj m)) = Some (JObj m) ->
    json_of_text (jprint (JObj m)) = Some (JObj o) ->
    obj_get k o = Some v ->
    exists a b x, m = a ++ (k, x) :: b /\ normalize x = v /\ ~ In k (map fst b).
Proof. exact c66_last_wins_pf. Qed.
Print Assumptions c66_last_wins.

Example c66_last_wins_witness :
  json_of_text "{""a"":1,""a"":2}" = Some (JObj [("a", JInt 2)])
  /\ parse_raw (jprint (JObj [("a", JInt 1); ("a", JInt 2)])) = Some (JObj [("a", JInt 1); ("a", JInt 2)]).
Proof. exact c66_last_wins_ex. Qed.

(** C65: the JWT made from a header and a request object splits into the three base64url parts, the
    signature is over the first two, and header and body are read back unchanged. *)
Theorem c65_make_jwt :
  forall (key : Type) (s : signer key) (ssi_header : obj -> option bool) (h : obj) (body : aro),
    jwf (JObj h) = true -> jdepth (JObj h) <= 127 ->
    jwf (aro_to_json body) = true -> jdepth (aro_to_json body) <= 127 ->
    ssi_header h = Some true ->
    exists h64 p64 s64,
      split_jws (make_jwt (JObj h) body s) = Ok (h64, p64, s64)
      /\ b64url_decode h64 = Some (jprint (JObj h))
      /\ b64url_decode p64 = Some (jprint (aro_to_json body))
      /\ b64url_decode s64 = Some (sg_sign s (h64 +:+ "." +:+ p64))
      /\ jws_headers h64 = Ok h
      /\ decode_unverified ssi_header (make_jwt (JObj h) body s) = Ok (ro_inner body).
Proof. exact c65_make_jwt_pf. Qed.
Print Assumptions c65_make_jwt.

Example c65_make_jwt_witness :
  exists body, aro_of_obj simple_parse tiny_request = Ok body
  /\ jwf (aro_to_json body) = true /\ jdepth (aro_to_json body) <= 127
  /\ jwf (did_header "ES256" "did:x#1") = true.
Proof. exact c65_make_jwt_ex. Qed.

(** C65: base64url decoding accepts only the canonical encoding: equal bytes come from equal text. *)
Theorem c65_canonical :
  (forall s, b64url_decode (b64url_encode s) = Some s)
  /\ (forall t s, b64url_decode t = Some s -> t = b64url_encode s)
  /\ (forall t t' s, b64url_decode t = Some s -> b64url_decode t' = Some s -> t = t').
Proof. exact c65_canonical_pf. Qed.
Print Assumptions c65_canonical.

Example c65_canonical_witness :
  b64url_decode "_-8" = Some (String "255" (String "239" "")) /\ b64url_decode "_-9" = None /\ b64url_decode "_-8=" = None.
Proof. exact c65_canonical_ex. Qed.

(** C65: reading a JWT depends on nothing but its three parts: two JWTs with the same decoded header,
    payload and signature are the same text. *)
Theorem c65_unique :
  forall jwt jwt' h p s h' p' s' a b c,
    split_jws jwt = Ok (h, p, s) -> split_jws jwt' = Ok (h', p', s') ->
    b64url_decode h = Some a -> b64url_decode h' = Some a ->
    b64url_decode p = Some b -> b64url_decode p' = Some b ->
    b64url_decode s = Some c -> b64url_decode s' = Some c ->
    jwt = jwt'.
Proof. exact c65_unique_pf. Qed.
Print Assumptions c65_unique.

Example c65_unique_witness : split_jws "e30.e30.AAAA" = Ok ("e30", "e30", "AAAA") /\ b64url_decode "e30" = Some "{}".
Proof. exact c65_unique_ex. Qed.
