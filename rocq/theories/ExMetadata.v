(** The metadata endpoint of the example wallet:
    /repo/examples/wallet-conformance-adapter/server/handlers/metadata.rs. *)
From Verif Require Import Base Json Serde Url Object Formats Params Metadata.

(** metadata.rs:23-30 *)
Definition served_formats : format_map :=
  [(OtherFormat "dc+sd-jwt",
    OtherPayload (JObj [("alg_values_supported", jstrs ["ES256"]); ("kb-jwt_alg_values_supported", jstrs ["ES256"])]))].

(** [wallet_metadata], metadata.rs:21-59.  [to_value] of an object cannot fail. *)
Definition served_metadata (url_parse : string -> option url) (endpoint : url) : json :=
  let w := wm_new url_parse endpoint served_formats None in
  let o := uo_put p_response_types_supported [RtVpToken] (wm_obj w) in
  let o := uo_put p_client_id_prefixes [REDIRECT_URI] o in
  let o := uo_put p_encryption_algs ["ECDH-ES"] o in
  let o := uo_put p_encryption_encs ["A256GCM"] o in
  JObj (obj_insert "response_modes_supported" (jstrs ["direct_post"; "direct_post.jwt"])
          (wm_to_obj url_parse (mk_wm o (wm_endpoint w) (wm_formats w)))).
