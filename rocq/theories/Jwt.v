(** Compact JWS handling: crate ssi's [split_jws], [decode_unverified] and [decode_verify]
    (external), and the header reading repeated in
    /repo/src/core/authorization_request/mod.rs:400-410 and verification/{did,x509_hash,x509_san}.rs. *)
From Verif Require Import Base Json JsonText Base64.

(** [ssi::claims::jws::split_jws]: [splitn(3, '.')] must give three parts. *)
Definition split_jws (jwt : string) : res (string * string * string) :=
  match split_once "." jwt with
  | Some (h, r) => match split_once "." r with
                   | Some (p, s) => Ok (h, p, s)
                   | None => Err "invalid-jws"
                   end
  | None => Err "invalid-jws"
  end.

(** [serde_json::from_slice::<Map<String, Json>>]. *)
Definition map_of_text (s : string) : res obj :=
  match json_of_text s with Some (JObj m) => Ok m | _ => Err "invalid-json-object" end.

(** [BASE64_URL_SAFE_NO_PAD.decode(headers_b64)] followed by JSON parsing. *)
Definition jws_headers (h64 : string) : res obj :=
  let? hb := ok_or (b64url_decode h64) "invalid-base64" in map_of_text hb.

(** The header string [alg] (and [kid]): present and a string. *)
Definition header_str (k : string) (h : obj) : res string :=
  let? v := ok_or (obj_get k h) "header missing" in ok_or (as_str v) "header not a string".

(** ssi's own header type is an oracle: [ssi_header h] is [None] when ssi rejects the header,
    otherwise whether the payload is base64url encoded (the [b64] header). *)
Definition jws_payload (ssi_header : obj -> option bool) (jwt : string) : res (obj * string) :=
  let? (h, p, s) := split_jws jwt in
  let? _ := ok_or (b64url_decode s) "invalid-signature-encoding" in
  let? m := jws_headers h in
  let? b64 := ok_or (ssi_header m) "invalid-header" in
  let? pl := if b64 then ok_or (b64url_decode p) "invalid-payload-encoding" else Ok p in
  Ok (m, pl).

(** [ssi::claims::jwt::decode_unverified::<UntypedObject>]. *)
Definition decode_unverified (ssi_header : obj -> option bool) (jwt : string) : res obj :=
  let? (_, pl) := jws_payload ssi_header jwt in map_of_text pl.

(** [ssi::claims::jwt::decode_verify::<Json>(jwt, key)].  [sig_ok key alg input signature] is the
    signature primitive; the signing input is the text before the last dot. *)
Definition decode_verify {key : Type} (ssi_header : obj -> option bool)
    (sig_ok : key -> string -> string -> string -> bool) (jwt : string) (k : key) : res json :=
  let? (h, p, s) := split_jws jwt in
  let? (m, pl) := jws_payload ssi_header jwt in
  let? sg := ok_or (b64url_decode s) "invalid-signature-encoding" in
  let? alg := header_str "alg" m in
  let? _ := of_bool (sig_ok k alg (h +:+ "." +:+ p) sg) "invalid-signature" in
  ok_or (json_of_text pl) "invalid-payload".
