(** Specification vocabulary for P-256 signers. *)
From Verif Require Import Base Base64 Jwt Client X509 Signer.

(** The JWK of a P-256 point and nothing else. *)
Definition bare (point : string * string) : jwk :=
  mk_jwk None None None (Some "P-256") (Some (fst point)) (Some (snd point)) None.
(** The JWK holds the same public key, whatever it says beside. *)
Definition same_key (a b : jwk) : Prop := jk_crv a = jk_crv b /\ jk_x a = jk_x b /\ jk_y a = jk_y b.

(** The contract of ECDSA: what a key signs verifies with its public point, under the name ES256. *)
Definition signs {secret} (public : secret -> string * string) (ecdsa : secret -> string -> string)
    (verifies : string * string -> string -> string -> bool) : Prop :=
  forall k m, verifies (public k) m (ecdsa k m) = true.
