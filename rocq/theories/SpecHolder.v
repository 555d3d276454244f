(** Specification vocabulary for SD-JWT credentials and the keys they are bound to (RFC 9901, SD-JWT VC). *)
From Verif Require Import Base Json JsonText Base64 Sha256 P256 SpecP256 SpecVerify.

(** What the issuer signed: the JWT before the first '~', its parts and its claims. *)
Definition issued (t h64 p64 s64 : string) (claims : obj) : Prop :=
  exists jwt rest text, t = jwt +:+ "~" +:+ rest /\ has_char "~" jwt = false /\ compact jwt h64 p64 s64
    /\ b64url_decode p64 = Some text /\ json_of_text text = Some (JObj claims).
(** The number that 32 bytes stand for. *)
Definition coordinate (b : string) (z : Z) : Prop := String.length b = 32%nat /\ z = Z.of_N (number_of b 0).
(** A JWK of the point. *)
Definition is_key (jwk : obj) (pt : point) : Prop :=
  obj_get "kty" jwk = Some (JStr "EC") /\ obj_get "crv" jwk = Some (JStr "P-256")
  /\ exists x y bx by_, obj_get "x" jwk = Some (JStr x) /\ obj_get "y" jwk = Some (JStr y)
     /\ b64url_decode x = Some bx /\ b64url_decode y = Some by_ /\ coordinate bx (fst pt) /\ coordinate by_ (snd pt).
(** The holder's key that the issuer names. *)
Definition bound_to (claims : obj) (pt : point) : Prop :=
  exists cnf jwk, obj_get "cnf" claims = Some (JObj cnf) /\ obj_get "jwk" cnf = Some (JObj jwk) /\ is_key jwk pt.
(** The issuer vouches for the disclosure: its digest is listed. *)
Definition vouched (claims : obj) (disclosure : string) : Prop :=
  exists l, obj_get "_sd" claims = Some (JArr l) /\ In (JStr (b64url_encode (sha256 disclosure))) l.
