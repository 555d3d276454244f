(** The tests of src/core/iso_18013_7/mod.rs, run on the model; see RepoTests.v.  The vectors of OpenID4VP 1.0
    §B.2.6.1 and §B.2.6.2 are among them: they check the model of SHA-256, of CBOR and of JWK thumbprints. *)
From Verif Require Import Base Json JsonText Sha256 Cbor Iso RepoTests.

Fixpoint hex (s : string) : string :=
  let digit c := let n := Ascii.nat_of_ascii c in if Nat.leb 97 n then n - 87 else n - 48 in
  match s with
  | String a (String b r) => String (Ascii.ascii_of_nat (16 * digit a + digit b)) (hex r)
  | _ => EmptyString
  end.
Fixpoint times (n : nat) (c : ascii) : string := match n with O => EmptyString | S m => String c (times m c) end.
Definition zeros := times 32 "000".
Definition ones := times 32 "001".
Definition first_byte (s : string) : option ascii := match s with String c _ => Some c | EmptyString => None end.

(** [handover_construction_with_thumbprint], src/core/iso_18013_7/mod.rs:478-490. *)
Example handover_construction_with_thumbprint :
  String.length (h_hash (handover_new "x509_san_dns:verifier.example.com" "nonce123" (Some zeros) "https://verifier.example.com/callback")) = 32.
Proof. vm_compute. reflexivity. Qed.

(** [handover_construction_without_thumbprint], src/core/iso_18013_7/mod.rs:493-504. *)
Example handover_construction_without_thumbprint :
  String.length (h_hash (handover_new "x509_san_dns:verifier.example.com" "nonce123" None "https://verifier.example.com/callback")) = 32.
Proof. vm_compute. reflexivity. Qed.

(** [handover_deterministic], src/core/iso_18013_7/mod.rs:507-514. *)
Example handover_deterministic :
  h_hash (handover_new "client" "nonce" (Some ones) "uri") = h_hash (handover_new "client" "nonce" (Some ones) "uri").
Proof. vm_compute. reflexivity. Qed.

(** [handover_different_inputs_different_hashes], src/core/iso_18013_7/mod.rs:517-524. *)
Example handover_different_inputs_different_hashes :
  String.eqb (h_hash (handover_new "client1" "nonce" (Some ones) "uri")) (h_hash (handover_new "client2" "nonce" (Some ones) "uri")) = false.
Proof. vm_compute. reflexivity. Qed.

(** [Handover::new("client", "nonce", None, "uri")] and [DcApiHandover::new("https://example.com", "nonce", ..)]. *)
Definition small_handover : handover := Eval vm_compute in handover_new "client" "nonce" None "uri".
Definition small_dc (tp : option string) : dc_handover := dc_handover_new "https://example.com" "nonce" tp.

(** [session_transcript_to_cbor], src/core/iso_18013_7/mod.rs:535-544. *)
Example session_transcript_to_cbor :
  opt (rmap first_byte (transcript_bytes small_handover)) = Some (Some "131"%char).
Proof. vm_compute. reflexivity. Qed.

(** [handover_cbor_roundtrip], src/core/iso_18013_7/mod.rs:547-553. *)
Example handover_cbor_roundtrip :
  handover_decode (handover_bytes small_handover) = Some small_handover.
Proof. vm_compute. reflexivity. Qed.

(** [handover_cbor_structure], src/core/iso_18013_7/mod.rs:556-562. *)
Example handover_cbor_structure :
  first_byte (handover_bytes small_handover) = Some "130"%char.
Proof. vm_compute. reflexivity. Qed.

(** [session_transcript_cbor_roundtrip], src/core/iso_18013_7/mod.rs:565-573. *)
Example session_transcript_cbor_roundtrip :
  option_map transcript_decode (opt (transcript_bytes small_handover)) = Some (Some small_handover).
Proof. vm_compute. reflexivity. Qed.

(** The key of the specification, used by five of the tests. *)
Definition spec_key : obj := object
"{""kty"":""EC"",""crv"":""P-256"",""x"":""DxiH5Q4Yx3UrukE2lWCErq8N8bqC9CHLLrAwLz5BmE0"",""y"":""XtLM4-3h5o3HUH0MHVJV0kyq0iBlrBwlh8qEDMZ4-Pc"",""use"":""enc"",""alg"":""ECDH-ES"",""kid"":""1""}".
Definition spec_nonce := "exc7gBkxjx1rdc9udRrveKvSsJIq80avlXeLHhGwqtA".

(** [compute_ec_jwk_thumbprint], src/core/iso_18013_7/mod.rs:576-592. *)
Example compute_ec_jwk_thumbprint :
  opt (rmap String.length (jwk_thumbprint spec_key)) = Some 32.
Proof. vm_compute. reflexivity. Qed.

(** [jwk_thumbprint_ignores_extra_fields], src/core/iso_18013_7/mod.rs:595-618: the hashed text is the same. *)
Example jwk_thumbprint_ignores_extra_fields :
  canonical_jwk (object "{""kty"":""EC"",""crv"":""P-256"",""x"":""test_x"",""y"":""test_y"",""use"":""enc""}")
  = canonical_jwk (object "{""kty"":""EC"",""crv"":""P-256"",""x"":""test_x"",""y"":""test_y"",""kid"":""key-1"",""alg"":""ECDH-ES""}").
Proof. vm_compute. reflexivity. Qed.

(** [dc_api_handover_construction_with_thumbprint], src/core/iso_18013_7/mod.rs:625-631. *)
Example dc_api_handover_construction_with_thumbprint :
  String.length (d_hash (dc_handover_new "https://example.com" "nonce123" (Some zeros))) = 32.
Proof. vm_compute. reflexivity. Qed.

(** [dc_api_handover_construction_without_thumbprint], src/core/iso_18013_7/mod.rs:634-638. *)
Example dc_api_handover_construction_without_thumbprint :
  String.length (d_hash (dc_handover_new "https://example.com" "nonce123" None)) = 32.
Proof. vm_compute. reflexivity. Qed.

(** [dc_api_handover_deterministic], src/core/iso_18013_7/mod.rs:641-648. *)
Example dc_api_handover_deterministic :
  d_hash (small_dc (Some ones)) = d_hash (small_dc (Some ones)).
Proof. vm_compute. reflexivity. Qed.

(** [dc_api_handover_cbor_structure], src/core/iso_18013_7/mod.rs:651-657. *)
Example dc_api_handover_cbor_structure :
  first_byte (dc_handover_bytes (small_dc None)) = Some "130"%char.
Proof. vm_compute. reflexivity. Qed.

(** [dc_api_handover_cbor_roundtrip], src/core/iso_18013_7/mod.rs:660-668. *)
Example dc_api_handover_cbor_roundtrip :
  let h := small_dc (Some (times 32 "042")) in dc_handover_decode (dc_handover_bytes h) = Some h.
Proof. vm_compute. reflexivity. Qed.

(** [dc_api_session_transcript_to_cbor], src/core/iso_18013_7/mod.rs:671-680. *)
Example dc_api_session_transcript_to_cbor :
  opt (rmap first_byte (dc_transcript_bytes (small_dc None))) = Some (Some "131"%char).
Proof. vm_compute. reflexivity. Qed.

Definition spec_handover : res handover :=
  let? tp := jwk_thumbprint spec_key in
  Ok (handover_new "x509_san_dns:example.com" spec_nonce (Some tp) "https://example.com/response").
Definition spec_dc_handover : res dc_handover :=
  let? tp := jwk_thumbprint spec_key in Ok (dc_handover_new "https://example.com" spec_nonce (Some tp)).

(** [spec_vector_redirect_handover_info_hash], src/core/iso_18013_7/mod.rs:687-730. *)
Example spec_vector_redirect_handover_info_hash :
  rmap h_hash spec_handover = Ok (hex "048bc053c00442af9b8eed494cefdd9d95240d254b046b11b68013722aad38ac").
Proof. vm_compute. reflexivity. Qed.

(** [spec_vector_redirect_handover_cbor], src/core/iso_18013_7/mod.rs:733-767. *)
Example spec_vector_redirect_handover_cbor :
  rmap handover_bytes spec_handover
  = Ok (hex "82714f70656e494434565048616e646f7665725820048bc053c00442af9b8eed494cefdd9d95240d254b046b11b68013722aad38ac").
Proof. vm_compute. reflexivity. Qed.

(** [spec_vector_redirect_session_transcript_cbor], src/core/iso_18013_7/mod.rs:770-805. *)
Example spec_vector_redirect_session_transcript_cbor :
  (let? h := spec_handover in transcript_bytes h)
  = Ok (hex "83f6f682714f70656e494434565048616e646f7665725820048bc053c00442af9b8eed494cefdd9d95240d254b046b11b68013722aad38ac").
Proof. vm_compute. reflexivity. Qed.

(** [spec_vector_dc_api_handover_info_hash], src/core/iso_18013_7/mod.rs:808-848. *)
Example spec_vector_dc_api_handover_info_hash :
  rmap d_hash spec_dc_handover = Ok (hex "fbece366f4212f9762c74cfdbf83b8c69e371d5d68cea09cb4c48ca6daab761a").
Proof. vm_compute. reflexivity. Qed.

(** [spec_vector_dc_api_handover_cbor], src/core/iso_18013_7/mod.rs:851-884. *)
Example spec_vector_dc_api_handover_cbor :
  rmap dc_handover_bytes spec_dc_handover
  = Ok (hex "82764f70656e4944345650444341504948616e646f7665725820fbece366f4212f9762c74cfdbf83b8c69e371d5d68cea09cb4c48ca6daab761a").
Proof. vm_compute. reflexivity. Qed.
