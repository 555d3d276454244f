(** Specification vocabulary for the identifiers of sessions in text, and for the fixed pages of the example wallet server. *)
From Coq Require Import Ascii ZArith.
From Verif Require Import Base Base64 Json Url SpecWebUrl SpecHost SpecVerifierEx.

(** Thirty-two hexadecimal digits, also in groups of 8, 4, 4, 4 and 12 with hyphens between them; the groups also in braces
    or as a URN. *)
Definition hyphenated (s : string) (u : N) : Prop :=
  exists a b c d e, s = join "-" [a; b; c; d; e] /\ map String.length [a; b; c; d; e] = [8; 4; 4; 4; 12]
    /\ number 16 (a +:+ b +:+ c +:+ d +:+ e) u.
Definition identifier (s : string) (u : N) : Prop :=
  String.length s = 32 /\ number 16 s u
  \/ hyphenated s u
  \/ exists h, (s = "{" +:+ h +:+ "}" \/ s = "urn:uuid:" +:+ h) /\ hyphenated h u.

(** What the fixed pages of the example wallet server say: about its health, its addresses and the number of credentials, the
    formats it knows, and the public part of the holder's key. *)
Definition well (j : json) : Prop :=
  members_are j [("status", JStr "ok"); ("version", JStr "0.1.0"); ("engine", JStr "headless")].
Definition configured (authorization public : string) (credentials : nat) (j : json) : Prop :=
  members_are j [("authorization_endpoint", JStr authorization); ("public_url", JStr public);
                 ("credentials_count", JInt (Z.of_nat credentials))].
Definition stocked (credentials : nat) (j : json) : Prop :=
  members_are j [("count", JInt (Z.of_nat credentials)); ("formats", JArr [JStr "dc+sd-jwt"; JStr "vc+sd-jwt"])].
Definition key_set (x y : string) (j : json) : Prop :=
  exists k, members_are j [("keys", JArr [k])]
    /\ members_are k [("kty", JStr "EC"); ("crv", JStr "P-256"); ("x", JStr (b64url_encode x)); ("y", JStr (b64url_encode y));
                      ("kid", JStr "holder-key"); ("alg", JStr "ES256"); ("use", JStr "sig")].
