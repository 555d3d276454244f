(** Specification vocabulary for the parts of a request that decide nothing. *)
From Verif Require Import Base Utf8 Json JsonText Base64 Url Params Metadata Effects Request SpecRequest SpecVerify SpecOrder.

(** The members that can matter: of a request object, of the client metadata in it, and of the wallet's metadata. *)
Definition request_members : list string :=
  ["client_id"; "dcql_query"; "nonce"; "redirect_uri"; "response_mode"; "response_type"; "response_uri"; "state"].
Definition client_members : list string := ["jwks"; "encrypted_response_enc_values_supported"].
Definition wallet_members : list string :=
  ["client_id_prefixes_supported"; "request_object_signing_alg_values_supported";
   "authorization_encryption_alg_values_supported"; "authorization_encryption_enc_values_supported"].
(** The objects hold the same under the names; anything under all other names. *)
Definition same_at (l : list string) (o o' : obj) : Prop := forall k, In k l -> obj_get k o = obj_get k o'.
(** The same client metadata as far as they matter. *)
Definition same_client (j j' : json) : Prop :=
  j = j' \/ exists m m', j = JObj m /\ j' = JObj m' /\ same_at client_members m m'.
(** The same parameters of a request as far as they matter. *)
Definition same_parameters (o o' : obj) : Prop :=
  same_at request_members o o' /\ both same_client (obj_get "client_metadata" o) (obj_get "client_metadata" o').
Definition same_request (a a' : aro) : Prop :=
  same_parameters (ro_inner a) (ro_inner a') /\ ro_client_id a = ro_client_id a' /\ ro_scheme a = ro_scheme a'
  /\ ro_mode a = ro_mode a' /\ ro_type a = ro_type a' /\ ro_return a = ro_return a' /\ ro_nonce a = ro_nonce a'.
Definition same_wallet (w w' : wallet_metadata) : Prop :=
  same_at wallet_members (wm_obj w) (wm_obj w').

(** The two JWTs have the same header, and payloads with the same parameters. [ssi_header h]: the header is acceptable, and whether
    the payload is encoded. *)
Definition reissued (ssi_header : obj -> option bool) (jwt jwt' : string) : Prop :=
  exists h64 h enc p64 p64' s64 s64' sg sg' text text' o o',
    compact jwt h64 p64 s64 /\ compact jwt' h64 p64' s64' /\ header_text h64 h /\ ssi_header h = Some enc
    /\ b64url_decode s64 = Some sg /\ b64url_decode s64' = Some sg'
    /\ payload_text enc p64 text /\ payload_text enc p64' text'
    /\ json_of_text text = Some (JObj o) /\ json_of_text text' = Some (JObj o') /\ same_parameters o o'.
(** If the signature of the one is good, so is the signature of the other. *)
Definition signed_alike (good : string -> string -> bool) (jwt jwt' : string) : Prop :=
  forall h64 p64 s64 sg h64' p64' s64' sg',
    compact jwt h64 p64 s64 -> b64url_decode s64 = Some sg -> compact jwt' h64' p64' s64' -> b64url_decode s64' = Some sg' ->
    good (h64 +:+ "." +:+ p64) sg = true -> good (h64' +:+ "." +:+ p64') sg' = true.

Section Same.
Variable R : string -> string -> Prop.
(** The same JWT, or two that are related. *)
Definition same_jwt (j j' : string) : Prop := j = j' \/ R j j'.
(** The same authorization request but for the JWT in it, or for parameters that do not matter. *)
Definition same_asked (r r' : auth_request) : Prop :=
  ar_client_id r = ar_client_id r'
  /\ match ar_indirection r, ar_indirection r' with
     | ByValue j, ByValue j' => same_jwt j j'
     | ByReference u, ByReference u' => u = u'
     | Direct o, Direct o' => same_parameters o o'
     | _, _ => False
     end.
(** The same answer of the network, or successful ones with such JWTs. *)
Definition same_reply (x x' : res http_resp) : Prop :=
  x = x' \/ exists st b b', x = Ok (mk_resp st b) /\ x' = Ok (mk_resp st b') /\ R b b'
            /\ utf8_valid b = true /\ utf8_valid b' = true.
(** The same action. *)
Definition same_event (e e' : wevent) : Prop :=
  match e, e' with
  | EHttp q, EHttp q' => q = q'
  | EHook h a j, EHook h' a' j' => h = h' /\ same_request a a' /\ both same_jwt j j'
  | _, _ => False
  end.
End Same.
