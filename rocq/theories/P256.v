(** The curve P-256 (FIPS 186-4, D.1.2.3), as far as the holder key of the example wallet needs it: from the secret in
    /repo/examples/wallet-conformance-adapter/crypto/keys.rs:11-24 to the public key of keys.rs:31-38, which is
    [SigningKey::verifying_key] (crate p256, external): the multiple of the base point by the secret, as SpecP256.v says.
    Signing itself stays arbitrary. *)
From Verif Require Import Base Base64.

Definition p256_p : N := 0xffffffff00000001000000000000000000000000ffffffffffffffffffffffff.
Definition p256_n : N := 0xffffffff00000000ffffffffffffffffbce6faada7179e84f3b9cac2fc632551.
Definition p256_b : N := 0x5ac635d8aa3a93e7b3ebbd55769886bc651d06b0cc53b0f63bce3c3e27d2604b.
Definition p256_g : N * N :=
  (0x6b17d1f2e12c4247f8bce6e563a440f277037d812deb33a0f4a13945d898c296,
   0x4fe342e2fe1a7f9b8ee7eb4a7c0f9e162bce33576b315ececbb6406837bf51f5)%N.

(** Big-endian bytes. *)
Fixpoint number_of (s : string) (acc : N) : N :=
  match s with EmptyString => acc | String c r => number_of r (acc * 256 + byte c)%N end.

(** [HOLDER_KEY], keys.rs:11-24: a wrong length or a number that is no secret would be a panic. *)
Definition holder_d : string := "DVt4adukimqmbPWT2g8amdJWUCBRuDOHorjeNQ0xTZk".
Definition holder_key : res positive :=
  match b64url_decode holder_d with
  | Some b => if Nat.eqb (String.length b) 32 then
                match number_of b 0 with
                | Npos k => if (Npos k <? p256_n)%N then Ok k else Err "panic"
                | N0 => Err "panic"
                end
              else Err "panic"
  | None => Err "panic"
  end.
