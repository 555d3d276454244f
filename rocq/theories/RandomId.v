(** Fresh session identifiers and nonces. *)
From Verif Require Import Base Json Url Request Metadata Dcql Response Session Client Builder.

(** [Uuid::new_v4] of the uuid crate, called at /repo/src/verifier/request_builder.rs:58,177,
    /repo/examples/verifier-conformance-adapter/server/handlers.rs:62 and /repo/examples/cli-verifier/main.rs:746: 128 random bits, of
    which four are overwritten with the version (4) and two with the variant (2).  The crate is not part of /repo; the random word
    is an argument. *)
Definition new_v4 (w : N) : uuid := N.lor (N.land w 0xffffffffffff0fff3fffffffffffffff) 0x40008000000000000000.

(** [build], request_builder.rs:57-63. *)
Definition build_fresh (url_parse : string -> option url) (w : N) (b : request_builder) (wm : wallet_metadata) (contended : bool) (m : store)
  : store * res (uuid * url) := build url_parse b (new_v4 w) wm contended m.
(** [build_dc_api], request_builder.rs:176-243. *)
Definition build_dc_api_fresh (url_parse : string -> option url) (w : N) (b : request_builder) (contended : bool) (m : store)
  : store * res (uuid * string) := build_dc_api url_parse b (new_v4 w) contended m.
(** [Uuid::new_v4().to_string()], handlers.rs:62 and main.rs:746. *)
Definition fresh_nonce (w : N) : string := uuid_str (new_v4 w).
