(** Where the code can panic (C99) *)
From Verif Require Import Base BaseFacts Json JsonFacts Serde Url Object Formats Params Metadata Dcql Effects Jwt Request X509 SpecCert CertFacts Client ExVerifier ExCli
  PfExCli PfDid PfClient.
From Verif Require Import PfPanic.

(** C99: making an X.509 client panics exactly when the certificate chain is empty. *)
Theorem c99_chain
  : forall (key : Type) (to_der : cert -> res string) (x5c : list cert) (s : signer key),
    (forall c, to_der c <> Err "panic") ->
    (x509_san_client to_der x5c s = Err "panic" <-> x5c = [])
    /\ (x509_hash_client to_der x5c s = Err "panic" <-> x5c = []).
Proof. exact c99_chain_pf. Qed.
Print Assumptions c99_chain.

Example c99_chain_witness
  : x509_san_client (fun c => Ok (c_spki c)) [] (toy_signer "K") = Err "panic"
    /\ (exists c, x509_hash_client (fun c => Ok (c_spki c)) [named [] "K"] (toy_signer "K") = Ok c).
Proof. exact c99_chain_ex. Qed.

(** C99: the static wallet metadata panic exactly when the URL parser cannot read "openid4vp:", or cannot read back
    what it made of it. *)
Theorem c99_static
  : forall parse : string -> option url,
    scheme_static parse = Err "panic" <-> parse "openid4vp:" = None \/ exists u, parse "openid4vp:" = Some u /\ parse (url_str u) = None.
Proof. exact c99_static_pf. Qed.
Print Assumptions c99_static.

Example c99_static_witness : is_ok (scheme_static simple_parse) = true /\ scheme_static (fun _ => None) = Err "panic".
Proof. exact c99_static_ex. Qed.

(** C99: none of the command line verifier's unwrapped conversions to a non-empty list panics, whatever the types. *)
Theorem c99_types
  : forall types : list string, query_for_types types <> Err "panic".
Proof. exact c99_types_pf. Qed.
Print Assumptions c99_types.

Example c99_types_witness : query_for_types [] = Err "At least one credential type must be specified" /\ is_ok (query_for_types ["ldp_or_mdl"; "mdl"]) = true.
Proof. exact c99_types_ex. Qed.
