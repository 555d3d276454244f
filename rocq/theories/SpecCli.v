(** Specification vocabulary for the command line verifier. *)
From Coq Require Import ZArith.
From Verif Require Import Base Json JsonText Base64 Url Formats Params Dcql Request Response Session Builder SpecRequest SpecJwe SpecBuilder
  SpecVerifierEx.

(** The credential types that can be asked for, each with its alternatives: identifier and format. *)
Definition menu : list (string * list (string * designation)) :=
  [("mdl", [("mdl_0", MsoMDoc)]);
   ("ldp_vc", [("ldp_vc_0", LdpVc)]);
   ("jwt_vc", [("jwt_vc_0", JwtVcJson)]);
   ("vcdm2_sd_jwt", [("vcdm2_sd_jwt_0", OtherFormat "vcdm2_sd_jwt")]);
   ("ldp_or_mdl", [("ldp_vc_0", LdpVc); ("mdl_0", MsoMDoc)])].
Definition offers (t : string) (alternatives : list (string * designation)) : Prop := In (t, alternatives) menu.
Definition known (t : string) : Prop := exists alternatives, offers t alternatives.

(** What the metadata say about each format. *)
Definition algorithms : list (string * json) :=
  [("mso_mdoc", JObj []);
   ("ldp_vc", JObj [("proof_type_values", JArr (map JStr ["Ed25519Signature2018"; "Ed25519Signature2020"; "JsonWebSignature2020";
      "DataIntegrityProof"; "ecdsa-rdfc-2019"; "ecdsa-sd-2023"; "ecdsa-jcs-2019"]))]);
   ("jwt_vc_json", JObj [("alg_values", JArr (map JStr ["ES256"; "ES384"; "ES512"; "EdDSA"]))]);
   ("vcdm2_sd_jwt", JObj [("alg_values", JArr (map JStr ["ES256"; "ES384"; "EdDSA"]))])].

(** A query about a driving licence asks for the two names and the document type; any other one asks for no claims. *)
Definition asks_claims (c : cred_query) : Prop :=
  if designation_eqb (cq_format c) MsoMDoc
  then cq_meta c = [("doctype_value", JStr "org.iso.18013.5.1.mDL")]
       /\ option_map (map cl_path) (cq_claims c)
          = Some [[PeStr "org.iso.18013.5.1"; PeStr "given_name"]; [PeStr "org.iso.18013.5.1"; PeStr "family_name"]]
  else cq_meta c = [] /\ cq_claims c = None.

(** The endpoint of the command line verifier at [path]: the public URL with its path replaced. *)
Definition endpoint_at (public : url) (path : string) (r : url) : Prop :=
  u_path r = path /\ u_scheme r = u_scheme public /\ u_auth r = u_auth public /\ u_opaque r = u_opaque public
  /\ u_query r = u_query public /\ u_frag r = u_frag public.

(** The request object of the command line verifier. *)
Definition cli_asks (o : obj) (base response : url) (nonce : string) (q : dcql) (formats : list string) : Prop :=
  exists f,
    holds o [("client_id", JStr ("redirect_uri:" +:+ url_str base));
             ("response_type", JStr "vp_token");
             ("response_mode", JStr "direct_post");
             ("response_uri", JStr (url_str response));
             ("nonce", JStr nonce);
             ("client_metadata", JObj [("vp_formats_supported", JObj f)]);
             ("dcql_query", dcql_to_json q)]
    /\ forall n v, obj_get n f = Some v <-> In (n, v) algorithms /\ In n formats.

(** An unsigned JWT: header with algorithm none, the payload, an empty signature. *)
Definition unsigned (jwt : string) (payload : json) : Prop :=
  exists h, jwt = b64url_encode (jprint h) +:+ "." +:+ b64url_encode (jprint payload) +:+ "."
            /\ members_are h [("alg", JStr "none"); ("typ", JStr "oauth-authz-req+jwt")].
