(** Specification vocabulary for the start of the example verifier. *)
From Verif Require Import Base Json Base64 Url Params Jwt Request Session Server ExVerifier ExHttp ExWeb ExStart ExCache SpecJsonText
  SpecRequest SpecVerify SpecEncodings SpecVerifierEx SpecWeb.

(** The text is a JSON object with exactly these four members: both coordinates and the secret as base64url, and one
    certificate [c] as base64. *)
Definition config_says (text : string) (point : string * string) (secret c : string) : Prop :=
  exists v x y d, json_text 127 text v
    /\ members_are v [("x", JStr x); ("y", JStr y); ("d", JStr d); ("x5c", JArr [JStr c])]
    /\ b64url_decode x = Some (fst point) /\ b64url_decode y = Some (snd point) /\ b64url_decode d = Some secret.

(** The JWT names ES256 and the one certificate [c], and its signature is [sign] of what precedes it. *)
Definition signed_with (sign : string -> string) (c jwt : string) : Prop :=
  exists h64 p64 s64 h, compact jwt h64 p64 s64 /\ header_text h64 h /\ text_at "alg" h "ES256"
    /\ obj_get "x5c" h = Some (JArr [JStr c]) /\ b64url_decode s64 = Some (sign (h64 +:+ "." +:+ p64)).

(** A public URL without a path of its own. *)
Definition at_root (u : url) (authority : string) : Prop :=
  u_auth u = Some authority /\ authority <> "" /\ without "/" authority /\ (u_path u = "" \/ u_path u = "/")
  /\ u_query u = None /\ u_frag u = None.

(** The host in an authority: between user information and port. *)
Definition host_in (authority host : string) : Prop :=
  host <> "" /\ exists user port, authority = user +:+ host +:+ port
    /\ (user = "" /\ has_char "@" authority = false \/ exists u, user = u +:+ "@") /\ has_char "@" (host +:+ port) = false
    /\ ((port = "" \/ exists p, port = ":" +:+ p) /\ has_char ":" host = false /\ starts_with "[" host = false
        \/ exists ip, host = "[" +:+ ip +:+ "]" /\ has_char "]" ip = false).
(** An authority that names no host: nothing between user information and port. *)
Definition hostless (u : url) : Prop :=
  u_auth u = None
  \/ exists user port, u_auth u = Some (user +:+ port) /\ (user = "" \/ exists w, user = w +:+ "@")
     /\ has_char "@" port = false /\ (port = "" \/ exists p, port = ":" +:+ p).
