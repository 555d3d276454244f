(** Format queries and encodings (C62, C63) *)
From Coq Require Import Sorting.Permutation Lia.
From Verif Require Import Base BaseFacts Json JsonFacts Serde MapFacts Object Formats Params Spec SpecObject
  ParamFacts.
From Verif Require Import PfFormats.

(** C62: a format and security method are supported exactly when the formats map has an entry for the
    format that lists the method as alg or proof type value. *)
Theorem c62_supports :
  forall (m : format_map) (d : designation) (meth : string),
    NoDup (map fst m) ->
    (supports_security_method m d meth = true
     <-> exists l, In meth l /\ (In (d, AlgValues l) m \/ In (d, ProofTypeValues l) m)).
Proof. exact c62_supports_pf. Qed.
Print Assumptions c62_supports.

Example c62_supports_witness :
  let m := [(MsoMDoc, OtherPayload (JObj [])); (DcSdJwt, AlgValues ["ES256"; "EdDSA"])] in
  NoDup (map fst m) /\ supports_security_method m DcSdJwt "EdDSA" = true
  /\ supports_security_method m MsoMDoc "EdDSA" = false.
Proof. exact c62_supports_ex. Qed.

(** C62: the answer does not depend on the hash map's iteration order. *)
Theorem c62_order :
  forall (m m' : format_map) (d : designation) (meth : string),
    NoDup (map fst m) -> Permutation m m' ->
    supports_security_method m d meth = supports_security_method m' d meth
    /\ is_claim_format_supported m d = is_claim_format_supported m' d.
Proof. exact c62_order_pf. Qed.
Print Assumptions c62_order.

Example c62_order_witness :
  Permutation [(LdpVc, AlgValues ["a"]); (DcSdJwt, AlgValues ["b"])] [(DcSdJwt, AlgValues ["b"]); (LdpVc, AlgValues ["a"])].
Proof. exact c62_order_ex. Qed.

(** C63: printing a parsed format name gives the name; a designation survives printing and parsing
    exactly when it is not a known format spelled as an unknown one. *)
Theorem c63_names :
  (forall s, name (from_name s) = s)
  /\ (forall s t, from_name s = from_name t -> s = t)
  /\ (forall d, from_name (name d) = d <-> canonical_designation d).
Proof. exact c63_names_pf. Qed.
Print Assumptions c63_names.

Example c63_names_witness :
  canonical_designation (OtherFormat "ldp_vp") /\ from_name "dc+sd-jwt" = DcSdJwt
  /\ ~ canonical_designation (OtherFormat "ldp_vc").
Proof. exact c63_names_ex. Qed.

(** C63: reading a payload never fails and never loses anything; a typed payload survives printing and
    reading exactly when it is not an opaque value with the shape of a known one. *)
Theorem c63_payloads :
  (forall j, exists p, payload_of_json j = Ok p /\ payload_to_json p = j)
  /\ (forall p, payload_of_json (payload_to_json p) = Ok p <-> canonical_payload p).
Proof. exact c63_payloads_pf. Qed.
Print Assumptions c63_payloads.

Example c63_payloads_witness :
  payload_of_json (JObj [("alg_values", JArr [JStr "ES256"])]) = Ok (AlgValues ["ES256"])
  /\ payload_of_json (JObj [("alg_values", JArr [JInt 7])]) = Ok (OtherPayload (JObj [("alg_values", JArr [JInt 7])]))
  /\ ~ canonical_payload (OtherPayload (JObj [("alg_values", JArr [JStr "ES256"])])).
Proof. exact c63_payloads_ex. Qed.

(** C63: reading a formats object and writing it again gives the same JSON, and what is read is always
    a map that survives the round trip. *)
Theorem c63_map_lossless :
  forall (m : obj) (fm : format_map),
    keys_sorted m = true -> format_map_of_json (JObj m) = Ok fm ->
    format_map_to_json fm = JObj m /\ format_map_ok fm.
Proof. exact c63_map_lossless_pf. Qed.
Print Assumptions c63_map_lossless.

Example c63_map_lossless_witness :
  format_map_of_json (JObj [("dc+sd-jwt", JObj [("alg_values", JArr [JStr "ES256"])]); ("x", JNull)])
  = Ok [(DcSdJwt, AlgValues ["ES256"]); (OtherFormat "x", OtherPayload JNull)].
Proof. exact c63_map_lossless_ex. Qed.

(** C63: a formats map that holds a known format under its own variant and as "other" loses an entry
    when written. *)
Theorem c63_map_lossy_refuted :
  exists m m', NoDup (map fst m) /\ length m = 2
    /\ format_map_of_json (format_map_to_json m) = Ok m' /\ length m' = 1.
Proof. exact c63_map_lossy_refuted_pf. Qed.
Print Assumptions c63_map_lossy_refuted.

(** C63: [ClaimFormat] values survive printing and reading unless an opaque value is an object with a
    single member. *)
Theorem c63_claim_format :
  forall c, (forall j, c = CfOther j -> forall k v, j <> JObj [(k, v)]) ->
    cf_of_json (cf_to_json c) = Ok c.
Proof. exact c63_claim_format_pf. Qed.
Print Assumptions c63_claim_format.

Example c63_claim_format_witness :
  cf_of_json (JObj [("jwt_vc_json", JObj [("alg_values_supported", JArr [JStr "ES256"])])]) = Ok (CfJwtVcJson ["ES256"])
  /\ cf_designation (CfOther (JObj [("ac_vc", JNull)])) = OtherFormat "ac_vc".
Proof. exact c63_claim_format_ex. Qed.

(** C63: the designation of a [ClaimFormat] that was read is named by the first member of the JSON object, or "other" if there is
    none.  It is one of the four known ones only if that is the only member and, for JWT and LD credentials, holds the list of
    texts asked for (as a member or as the only element of an array). *)
Theorem c63_designation :
  forall (j : json) (c : claim_format),
    cf_of_json j = Ok c ->
    match j with
    | JObj ((k, v) :: r) =>
        let holds field := exists l, (exists m, v = JObj m /\ obj_get field m = Some (JArr (map JStr l))) \/ v = JArr [JArr (map JStr l)] in
        name (cf_designation c) = k
        /\ (cf_designation c = OtherFormat k
            <-> r <> [] \/ ~ In k ["jwt_vc_json"; "ldp_vc"; "mso_mdoc"; "dc+sd-jwt"]
               \/ k = "jwt_vc_json" /\ ~ holds "alg_values_supported" \/ k = "ldp_vc" /\ ~ holds "proof_type")
        /\ (canonical_designation (cf_designation c) \/ cf_designation c = OtherFormat k)
    | _ => cf_designation c = OtherFormat "other"
    end.
Proof. exact c63_designation_pf. Qed.
Print Assumptions c63_designation.

Example c63_designation_witness :
  rmap cf_designation (cf_of_json (JObj [("ldp_vc", JObj [("proof_type", JArr [JStr "DataIntegrityProof"])])])) = Ok LdpVc
  /\ rmap cf_designation (cf_of_json (JObj [("ac_vc", JNull); ("b", JNull)])) = Ok (OtherFormat "ac_vc")
  /\ rmap cf_designation (cf_of_json (JStr "ldp_vc")) = Ok (OtherFormat "other").
Proof. exact c63_designation_ex. Qed.

(** C63: a known format with an unusable payload is accepted, and its designation has the known name without being equal to the known
    designation. *)
Theorem c63_namesake_refuted :
  exists j c, cf_of_json j = Ok c /\ name (cf_designation c) = name LdpVc /\ designation_eqb (cf_designation c) LdpVc = false.
Proof. exact c63_namesake_refuted_pf. Qed.
Print Assumptions c63_namesake_refuted.

(** C63: reading a [ClaimFormat] drops unknown members of a known format. *)
Theorem c63_claim_format_lossy_refuted :
  exists j c, cf_of_json j = Ok c /\ cf_to_json c <> j.
Proof. exact c63_claim_format_lossy_refuted_pf. Qed.
Print Assumptions c63_claim_format_lossy_refuted.

(** C63: [add_alg] and [add_proof_type] append to the matching list and leave every other payload
    unchanged. *)
Theorem c63_add :
  forall (a : string) (p : payload),
    (forall l, p = AlgValues l -> add_alg a p = AlgValues (l ++ [a]))
    /\ ((forall l, p <> AlgValues l) -> add_alg a p = p)
    /\ (forall l, p = ProofTypeValues l -> add_proof_type a p = ProofTypeValues (l ++ [a]))
    /\ ((forall l, p <> ProofTypeValues l) -> add_proof_type a p = p).
Proof. exact c63_add_pf. Qed.
Print Assumptions c63_add.

Example c63_add_witness : add_alg "b" (AlgValues ["a"]) = AlgValues ["a"; "b"].
Proof. exact c63_add_ex. Qed.
