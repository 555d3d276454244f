(** The example verifier from its command line to the running server, and what it prints:
    /repo/examples/verifier-conformance-adapter/main.rs:17-100, server/state.rs:43-133,270-280. *)
From Verif Require Import Base Utf8 Json Base64 Url Object Request X509 Client Builder ExVerifier Signer.

(** [Url::host_str] (crate url, external): the authority without user information and port; none if empty. *)
Definition host_str (u : url) : option string :=
  match u_auth u with
  | None => None
  | Some a =>
      let h := match rsplit_once "@" a with Some (_, h) => h | None => a end in
      let h := if starts_with "[" h then match split_once "]" h with Some (x, _) => x +:+ "]" | None => h end
               else match split_once ":" h with Some (x, _) => x | None => h end in
      if String.eqb h EmptyString then None else Some h
  end.

(** [OidfConfig], state.rs:43-50. *)
Record oidf := mk_oidf { oi_x : string; oi_y : string; oi_d : string; oi_x5c : string; oi_client_id : string }.

Section Start.
Variable url_parse : string -> option url.
(** External (crates p256, x509-cert): the public point and the bytes of a signing key, its signature; DER. *)
Context {secret : Type}.
Variable public : secret -> string * string.
Variable secret_bytes : secret -> string.
Variable ecdsa : secret -> string -> string.
Variable to_der : cert -> res string.

(** [build_oidf_config], state.rs:270-280. *)
Definition oidf_config (k : secret) (cert_der domain : string) : oidf :=
  mk_oidf (b64url_encode (fst (public k))) (b64url_encode (snd (public k))) (b64url_encode (secret_bytes k))
          (b64std_encode cert_der) domain.

(** main.rs:51-53 and [AppState::new], state.rs:70-133.  [obtained]: what [get_or_generate_cert] returns for the domain
    (ExCache.v); [enc_key]: the encryption key's public JWK. *)
Definition startup (public_url : url) (response_mode : string) (obtained : string -> option (secret * cert * string)) (enc_key : obj)
  : res (adapter * oidf) :=
  let? domain := ok_or (host_str public_url) "Public URL must have a host" in
  let? (k, c, cert_der) := ok_or (obtained domain) "no certificate" in
  let o := oidf_config k cert_der domain in
  let? s := p256_new public k in
  let? a := app_new url_parse to_der c (request_signer ecdsa s) enc_key public_url (String.eqb response_mode "direct_post.jwt") in
  Ok (a, o).
End Start.

(** What [print_startup_banner] prints, main.rs:68-100: the configuration (92-97), the endpoints (69,83-86) and the response mode
    (79, as it was given). *)
Definition newline : string := s1 (chr 10).
Definition printed_config (o : oidf) : string :=
  "{" +:+ newline +:+ "  ""x"": """ +:+ oi_x o +:+ """," +:+ newline +:+ "  ""y"": """ +:+ oi_y o +:+ """," +:+ newline
  +:+ "  ""d"": """ +:+ oi_d o +:+ """," +:+ newline +:+ "  ""x5c"": [""" +:+ oi_x5c o +:+ """]" +:+ newline +:+ "}" +:+ newline.
Definition base_url (public_url : url) : string := trim_end "/" (url_str public_url).
Definition printed_endpoints (public_url : url) (session_id : string) : list (string * string) :=
  [("POST", base_url public_url +:+ "/initiate");
   ("GET", base_url public_url +:+ "/request/" +:+ session_id);
   ("POST", base_url public_url +:+ "/response/" +:+ session_id);
   ("GET", base_url public_url +:+ "/status/" +:+ session_id)].
