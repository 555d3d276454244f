(** SHA-256 (C91) *)
From Coq Require Import Lia Permutation Sorted.
From Verif Require Import Base BaseFacts Sha256 Sha256Facts SpecSha.
From Verif Require Import PfSha.

Local Open Scope N_scope.

(** C91: the digests used for certificate hashes, thumbprints, session transcripts and key bindings are those of
    SHA-256 as published, for any message shorter than 2^61 bytes. *)
Theorem c91_sha256
  : forall (s : string) (d : list N),
    N.of_nat (String.length s) < 2 ^ 61 ->
    (digest (map N_of_ascii (list_ascii_of_string s)) d <-> d = map N_of_ascii (list_ascii_of_string (sha256 s))).
Proof. exact c91_sha256_pf. Qed.
Print Assumptions c91_sha256.

Example c91_sha256_witness :
  map N_of_ascii (list_ascii_of_string (sha256 "abc"))
  = [186; 120; 22; 191; 143; 1; 207; 234; 65; 65; 64; 222; 93; 174; 34; 35; 176; 3; 97; 163; 150; 23; 122; 156; 180; 16; 255; 97; 242; 0; 21; 173].
Proof. exact c91_sha256_ex. Qed.
