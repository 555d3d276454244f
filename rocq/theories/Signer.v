(** [P256Signer], /repo/src/verifier/request_signer.rs:32-85. *)
From Verif Require Import Base Json JsonText Base64 Client.

(** ssi's [JWK] (crate ssi-jwk, external) for an elliptic curve key.  Simplification: of the members beside the key only
    these three are kept (not key_ops, x5u, x5c, x5t). *)
Record jwk := mk_jwk {
  jk_alg : option string; jk_kid : option string; jk_use : option string;
  jk_crv : option string; jk_x : option string; jk_y : option string; jk_d : option string
}.
(** Its derived [PartialEq], used at client.rs:60. *)
Definition same_text (a b : option string) : bool :=
  match a, b with Some x, Some y => String.eqb x y | None, None => true | _, _ => false end.
Definition jwk_eqb (a b : jwk) : bool :=
  same_text (jk_alg a) (jk_alg b) && same_text (jk_kid a) (jk_kid b) && same_text (jk_use a) (jk_use b)
  && same_text (jk_crv a) (jk_crv b) && same_text (jk_x a) (jk_x b) && same_text (jk_y a) (jk_y b)
  && same_text (jk_d a) (jk_d b).

(** Its [Deserialize]: members by name, each at most once, others ignored; the coordinates are base64url.  Simplification:
    any text is taken for an algorithm. *)
Definition jwk_text (k : string) (m : list (string * json)) : res (option string) :=
  match filter (fun kv => String.eqb (fst kv) k) m with
  | [] | [(_, JNull)] => Ok None
  | [(_, JStr s)] => Ok (Some s)
  | _ => Err "invalid member"
  end.
Definition jwk_bytes (k : string) (m : list (string * json)) : res (option string) :=
  let? o := jwk_text k m in
  match o with
  | None => Ok None
  | Some s => let? b := ok_or (b64url_decode s) "not base64url" in Ok (Some b)
  end.
Definition jwk_of_text (s : string) : res jwk :=
  match parse_raw s with
  | Some (JObj m) =>
      let? kty := jwk_text "kty" m in
      let? _ := of_bool (same_text kty (Some "EC")) "not an elliptic curve key" in
      let? alg := jwk_text "alg" m in
      let? kid := jwk_text "kid" m in
      let? use := jwk_text "use" m in
      let? crv := jwk_text "crv" m in
      let? x := jwk_bytes "x" m in
      let? y := jwk_bytes "y" m in
      let? d := jwk_bytes "d" m in
      Ok (mk_jwk alg kid use crv x y d)
  | _ => Err "not a JWK"
  end.

(** [PublicKey::to_jwk_string] (crate elliptic-curve, external) of a point given by its coordinates. *)
Definition p256_text (point : string * string) : string :=
  jprint (JObj [("kty", JStr "EC"); ("crv", JStr "P-256"); ("x", JStr (b64url_encode (fst point))); ("y", JStr (b64url_encode (snd point)))]).

Section P256.
(** External (crate p256): a signing key, its public point, its signature. *)
Context {secret : Type}.
Variable public : secret -> string * string.
Variable ecdsa : secret -> string -> string.

(** request_signer.rs:32-36 *)
Record p256_signer := mk_p256 { ps_key : secret; ps_jwk : jwk }.
(** request_signer.rs:39-43 *)
Definition p256_new (k : secret) : res p256_signer :=
  let? j := jwk_of_text (p256_text (public k)) in Ok (mk_p256 k j).
(** request_signer.rs:54-56 *)
Definition p256_alg (s : p256_signer) : string := match jk_alg (ps_jwk s) with Some a => a | None => "ES256" end.
(** The [RequestSigner] impl, request_signer.rs:50-66, with [jwk] of 45-47 and 58-60. *)
Definition request_signer (s : p256_signer) : signer jwk :=
  mk_signer (Ok (p256_alg s)) (Ok (ps_jwk s)) (ecdsa (ps_key s)).
(** The [JwsSigner] impl, request_signer.rs:68-85: [fetch_info] and [sign_bytes] by [try_sign] (25-29). *)
Definition fetch_info (s : p256_signer) : string * option string :=
  (match jk_alg (ps_jwk s) with Some a => a | None => "ES256" end, jk_kid (ps_jwk s)).
Definition sign_bytes (s : p256_signer) (m : string) : res string := Ok (sg_sign (request_signer s) m).
End P256.
