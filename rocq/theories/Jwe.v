(** /repo/src/core/jwe.rs. *)
From Verif Require Import Base Json JsonText Object Params Request Response Verify.

Definition DEFAULT_ENC := "A128GCM".                                    (** jwe.rs:11 *)

Section Jwe.
(** josekit's [Jwk::from_map] checks; a [Jwk] is its member map. *)
Variable jwk_ok : obj -> bool.
(** [ECDH_ES.encrypter_from_jwk] and [encode_with_encrypter]: header, claims, key.  Includes the
    random ephemeral key, i.e. an arbitrary function. *)
Variable jwe_encrypt : obj -> obj -> obj -> res string.

(** [Jwk::from_bytes]. *)
Definition jwk_of_text (s : string) : res obj :=
  match json_of_text s with
  | Some (JObj m) => if jwk_ok m then Ok m else Err "invalid JWK"
  | _ => Err "invalid JWK"
  end.

(** [JweBuilder], jwe.rs:33-91. *)
Record jwe_builder := mk_jb {
  jb_payload : option json;
  jb_key : option obj;
  jb_alg : option string;
  jb_enc : option string;
  jb_kid : option string
}.
Definition jb_new : jwe_builder := mk_jb None None None None None.
Definition jb_set_payload p b := mk_jb (Some p) (jb_key b) (jb_alg b) (jb_enc b) (jb_kid b).
Definition jb_set_key k b := mk_jb (jb_payload b) (Some k) (jb_alg b) (jb_enc b) (jb_kid b).
Definition jb_set_alg a b := mk_jb (jb_payload b) (jb_key b) (Some a) (jb_enc b) (jb_kid b).
Definition jb_set_enc e b := mk_jb (jb_payload b) (jb_key b) (jb_alg b) (Some e) (jb_kid b).
Definition jb_set_kid k b := mk_jb (jb_payload b) (jb_key b) (jb_alg b) (jb_enc b) (Some k).
(** [recipient_key_json], jwe.rs:64-69. *)
Definition jb_set_key_json (j : json) (b : jwe_builder) : res jwe_builder :=
  let? k := jwk_of_text (jprint j) in Ok (jb_set_key k b).

(** josekit [JwtPayload::set_claim]: registered claims are type-checked. *)
Definition claim_ok (k : string) (v : json) : bool :=
  if mem_str k ["iss"; "sub"; "jti"] then match v with JStr _ => true | _ => false end
  else if String.eqb k "aud" then
    match v with
    | JStr _ => true
    | JArr l => forallb (fun x => match x with JStr _ => true | _ => false end) l
    | _ => false
    end
  else if mem_str k ["exp"; "nbf"; "iat"] then match v with JInt z => (0 <=? z)%Z | _ => false end
  else true.

(** The header built in jwe.rs:125-135. *)
Definition jwe_header (alg enc : string) (kid : option string) : obj :=
  let h := obj_insert "typ" (JStr "JWT") [] in
  let h := obj_insert "alg" (JStr alg) h in
  let h := obj_insert "enc" (JStr enc) h in
  match kid with Some k => obj_insert "kid" (JStr k) h | None => h end.

(** [JweBuilder::build], jwe.rs:103-143. *)
Definition jwe_build (b : jwe_builder) : res string :=
  let? payload := ok_or (jb_payload b) "payload is required" in
  let? key := ok_or (jb_key b) "recipient_key is required" in
  let? alg := ok_or (jb_alg b) "alg is required" in
  let enc := match jb_enc b with Some e => e | None => DEFAULT_ENC end in
  let? _ := of_bool (String.eqb alg "ECDH-ES") "unsupported algorithm" in
  let? claims := match payload with JObj m => Ok m | _ => Err "payload must be a JSON object" end in
  let? _ := of_bool (forallb (fun kv => claim_ok (fst kv) (snd kv)) claims) "bad claim" in
  let kid := match jb_kid b with Some k => Some k | None => key_str "kid" key end in
  jwe_encrypt (jwe_header alg enc kid) claims key.

(** [EncryptionJwkInfo], jwe.rs:17-25. *)
Record jwk_info := mk_ki { ki_jwk : obj; ki_alg : string; ki_kid : option string }.

(** One key of [find_encryption_jwk], jwe.rs:173-207: whether the loop does not skip it. *)
Definition enc_candidate (k : obj) : bool :=
  match key_str "alg" k with
  | None => false
  | Some a =>
      if negb (String.eqb a "ECDH-ES") then false
      else match key_str "crv" k with
           | None => false
           | Some c =>
               if negb (String.eqb c "P-256") then false
               else match key_str "use" k with
                    | Some u => String.eqb u "enc"
                    | None => true
                    end
           end
  end.
(** [find_encryption_jwk], jwe.rs:168-227. *)
Fixpoint find_encryption_jwk (keys : list obj) : res jwk_info :=
  match keys with
  | [] => Err "no suitable encryption key found in JWKS"
  | k :: r =>
      if enc_candidate k then
        let? jwk := jwk_of_text (jprint (JObj k)) in
        let? alg := ok_or (key_str "alg" k) "unreachable" in
        Ok (mk_ki jwk alg (key_str "kid" k))
      else find_encryption_jwk r
  end.

(** The payload of jwe.rs:260-267. *)
Definition response_payload (vp : vp_token) (state : option string) : obj :=
  let p := [("vp_token", vp_to_json vp)] in
  match state with Some s => obj_insert "state" (JStr s) p | None => p end.

(** [build_encrypted_response], jwe.rs:249-322. *)
Definition build_encrypted_response (a : aro) (vp : vp_token) (state : option string)
  : res auth_response :=
  let? cm := resolve_client_metadata a in
  let? keys := parsing_error (cm_jwks cm) in
  let? info := find_encryption_jwk keys in
  let? encs := cm_encs cm in
  let enc := match encs with e :: _ => e | [] => DEFAULT_ENC end in
  let? b := jb_set_key_json (JObj (ki_jwk info)) (jb_set_payload (JObj (response_payload vp state)) jb_new) in
  let b := jb_set_enc enc (jb_set_alg (ki_alg info) b) in
  let b := match ki_kid info with Some k => jb_set_kid k b | None => b end in
  let? jwe := jwe_build b in
  Ok (Jwt jwe).
End Jwe.
