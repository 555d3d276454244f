(** /repo/src/core/credential_format/mod.rs. *)
From Verif Require Import Base Json Serde.

(** [ClaimFormatDesignation], credential_format/mod.rs:117-146. *)
Inductive designation := JwtVcJson | LdpVc | MsoMDoc | DcSdJwt | OtherFormat (name : string).

(** Constants, credential_format/mod.rs:8-11. *)
Definition FORMAT_JWT_VC_JSON := "jwt_vc_json".
Definition FORMAT_LDP_VC := "ldp_vc".
Definition FORMAT_MSO_MDOC := "mso_mdoc".
Definition FORMAT_DC_SD_JWT := "dc+sd-jwt".

(** [from_name], credential_format/mod.rs:149-157; also [From<&str>], [From<String>], [FromStr]
    (179-198). *)
Definition from_name (s : string) : designation :=
  if String.eqb s FORMAT_JWT_VC_JSON then JwtVcJson
  else if String.eqb s FORMAT_LDP_VC then LdpVc
  else if String.eqb s FORMAT_MSO_MDOC then MsoMDoc
  else if String.eqb s FORMAT_DC_SD_JWT then DcSdJwt
  else OtherFormat s.

(** [name]/[into_name], credential_format/mod.rs:159-177; also [Display], [From<..> for String] and
    [Serialize] (200-217). *)
Definition name (d : designation) : string :=
  match d with
  | JwtVcJson => FORMAT_JWT_VC_JSON
  | LdpVc => FORMAT_LDP_VC
  | MsoMDoc => FORMAT_MSO_MDOC
  | DcSdJwt => FORMAT_DC_SD_JWT
  | OtherFormat s => s
  end.

(** Derived [PartialEq]. *)
Definition designation_eqb (a b : designation) : bool :=
  match a, b with
  | JwtVcJson, JwtVcJson | LdpVc, LdpVc | MsoMDoc, MsoMDoc | DcSdJwt, DcSdJwt => true
  | OtherFormat s, OtherFormat t => String.eqb s t
  | _, _ => false
  end.

(** [Serialize]/[Deserialize], credential_format/mod.rs:212-228. *)
Definition designation_to_json (d : designation) : json := JStr (name d).
Definition designation_of_json (j : json) : res designation := rmap from_name (de_str j).

(** [ClaimFormatPayload], credential_format/mod.rs:77-91. *)
Inductive payload :=
| AlgValues (l : list string)
| ProofTypeValues (l : list string)
| OtherPayload (j : json).

(** Derived [Serialize]: externally tagged, except the untagged last variant. *)
Definition payload_to_json (p : payload) : json :=
  match p with
  | AlgValues l => JObj [("alg_values", jstrs l)]
  | ProofTypeValues l => JObj [("proof_type_values", jstrs l)]
  | OtherPayload j => j
  end.

(** Derived [Deserialize]: an object with exactly one member naming a tagged variant whose content
    fits, otherwise the untagged variant, which accepts everything. *)
Definition payload_of_json (j : json) : res payload :=
  match j with
  | JObj [(k, v)] =>
      match de_list de_str v with
      | Ok l => if String.eqb k "alg_values" then Ok (AlgValues l)
                else if String.eqb k "proof_type_values" then Ok (ProofTypeValues l)
                else Ok (OtherPayload j)
      | Err _ => Ok (OtherPayload j)
      end
  | _ => Ok (OtherPayload j)
  end.

(** [add_alg], [add_proof_type], credential_format/mod.rs:94-111. *)
Definition add_alg (a : string) (p : payload) : payload :=
  match p with AlgValues l => AlgValues (l ++ [a]) | _ => p end.
Definition add_proof_type (a : string) (p : payload) : payload :=
  match p with ProofTypeValues l => ProofTypeValues (l ++ [a]) | _ => p end.

(** [ClaimFormatMap = HashMap<ClaimFormatDesignation, ClaimFormatPayload>],
    credential_format/mod.rs:14: a list of entries with distinct keys, in iteration order. *)
Definition format_map := list (designation * payload).

Fixpoint fm_get (d : designation) (m : format_map) : option payload :=
  match m with
  | [] => None
  | (d', p) :: r => if designation_eqb d d' then Some p else fm_get d r
  end.

(** [HashMap::insert]: replaces in place or adds (the position of a new entry is irrelevant up to
    permutation). *)
Fixpoint fm_insert (d : designation) (p : payload) (m : format_map) : format_map :=
  match m with
  | [] => [(d, p)]
  | (d', q) :: r => if designation_eqb d d' then (d', p) :: r else (d', q) :: fm_insert d p r
  end.

(** [serde_json::to_value(map)]: the entries are inserted into a JSON map in iteration order. *)
Definition format_map_to_json (m : format_map) : json :=
  JObj (obj_of_list (map (fun e => (name (fst e), payload_to_json (snd e))) m)).

(** [from_value::<ClaimFormatMap>]: members in map order are inserted into the [HashMap]. *)
Definition format_map_of_json (j : json) : res format_map :=
  match j with
  | JObj m =>
      let? l := mapM (fun kv => let? p := payload_of_json (snd kv) in Ok (from_name (fst kv), p)) m in
      Ok (fold_left (fun acc e => fm_insert (fst e) (snd e) acc) l [])
  | _ => Err "expected-object"
  end.

(** [ClaimFormat], credential_format/mod.rs:25-52. *)
Inductive claim_format :=
| CfJwtVcJson (algs : list string)
| CfLdpVc (proof_type : list string)
| CfMsoMDoc (j : json)
| CfDcSdJwt (j : json)
| CfOther (j : json).

(** [ClaimFormat::designation], credential_format/mod.rs:54-74. *)
Definition cf_designation (c : claim_format) : designation :=
  match c with
  | CfJwtVcJson _ => JwtVcJson
  | CfLdpVc _ => LdpVc
  | CfMsoMDoc _ => MsoMDoc
  | CfDcSdJwt _ => DcSdJwt
  | CfOther j =>
      OtherFormat (match j with JObj ((k, _) :: _) => k | _ => "other" end)
  end.

(** Derived [Serialize]/[Deserialize] of [ClaimFormat]. *)
Definition cf_to_json (c : claim_format) : json :=
  match c with
  | CfJwtVcJson l => JObj [(FORMAT_JWT_VC_JSON, JObj [("alg_values_supported", jstrs l)])]
  | CfLdpVc l => JObj [(FORMAT_LDP_VC, JObj [("proof_type", jstrs l)])]
  | CfMsoMDoc j => JObj [(FORMAT_MSO_MDOC, j)]
  | CfDcSdJwt j => JObj [(FORMAT_DC_SD_JWT, j)]
  | CfOther j => j
  end.

Definition cf_tagged (k : string) (v : json) : option claim_format :=
  let field f := match (let? fs := de_fields [f] v in f_req (de_list de_str) (nth_fld 0 fs)) with
                 | Ok l => Some l | Err _ => None end in
  if String.eqb k FORMAT_JWT_VC_JSON then option_map CfJwtVcJson (field "alg_values_supported")
  else if String.eqb k FORMAT_LDP_VC then option_map CfLdpVc (field "proof_type")
  else if String.eqb k FORMAT_MSO_MDOC then Some (CfMsoMDoc v)
  else if String.eqb k FORMAT_DC_SD_JWT then Some (CfDcSdJwt v)
  else None.
Definition cf_of_json (j : json) : res claim_format :=
  match j with
  | JObj [(k, v)] => match cf_tagged k v with Some c => Ok c | None => Ok (CfOther j) end
  | _ => Ok (CfOther j)
  end.
