(** Specification vocabulary for what a wallet and a verifier agree on when anything may happen between them. *)
From Verif Require Import Base Base64 Json JsonText Url Request Metadata Dcql Response Session Client Builder Server AnyStore
  SpecRequest SpecVerify SpecBuilder.

(** The call builds a request with [b] for the session [u]. *)
Definition builds_with (c : call) (b : request_builder) (u : uuid) : Prop := (exists wm, c = CBuild b u wm) \/ c = CBuildDcApi b u.

(** In the history [l] the verifier made the session [s] for the builder [b]: the request object was signed and the session
    handed to the store (which may have failed). *)
Definition made (l : list (nat * (call * event))) (b : request_builder) (s : session) : Prop :=
  exists i c x, In (i, (c, EvInitiate s x)) l /\ builds_with c b (s_uuid s).

(** The wallet has the request object of that session: what the verifier asked for and nothing else. *)
Definition agreed (l : list (nat * (call * event))) (b : request_builder) (s : session) (a : aro) : Prop :=
  made l b s /\ s_request s = a /\ rb_dcql b = Some (s_dcql s) /\ built_object b (s_dcql s) (s_uuid s) (aro_to_obj a).

(** The JWTs of the verifier can be read back (which is so for the library's clients). *)
Definition legible (ssi_header : obj -> option bool) (l : list (nat * (call * event))) : Prop :=
  forall b s, made l b s -> readable_client ssi_header (v_client (rb_verifier b))
    /\ jwf (aro_to_json (s_request s)) = true /\ jdepth (aro_to_json (s_request s)) <= 127.

(** The JWT carries a valid signature on a header and a payload that the verifier never signed. *)
Definition forged (l : list (nat * (call * event))) (verifies : string -> string -> bool) (jwt : string) : Prop :=
  exists h64 p64 s64 sg, compact jwt h64 p64 s64 /\ b64url_decode s64 = Some sg /\ verifies (h64 +:+ "." +:+ p64) sg = true
    /\ forall b s s64', made l b s -> ~ compact (s_jwt s) h64 p64 s64'.
